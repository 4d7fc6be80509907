(** Model of the --hash option of the CPIO script.

    Source: /repo/scripts/cpio.py, class CPIOArchiveFileHasher; the reader of archives is CpioModel, data ranges are those of CoreModel.
    Simplified: SHA-256 and the decompression of bzip2, gzip and xz are parameters, [unpack t d] is what can be read from a stream of
    type [t] that starts [d]; lzma is available. Without debug output. *)

From Verif Require Import Base CoreModel StrModel DictModel CpioModel.
From Coq Require String.
Import String.StringSyntax.

Inductive ptype := PCpio | PGzip | PBzip | PXz.

(** scripts/cpio.py:65-83: the type of the part of the file that starts with the six bytes [sig]. *)
Definition piece_type (sig : bytes) : option ptype :=
  if 2 <? len sig then
    let two := zfirstn 2 sig in
    if list_eqb two [113; 199] || list_eqb two [199; 113] || list_eqb sig (s2z "070707") || list_eqb sig (s2z "070701") || list_eqb sig (s2z "070702")
    then Some PCpio
    else if list_eqb two [31; 139] then Some PGzip
    else if list_eqb two (s2z "BZ") then Some PBzip
    else if list_eqb sig (253 :: s2z "7zXZ" ++ [0]) then Some PXz
    else None
  else None.

(** scripts/cpio.py:117-121: a file entry is read 4096 bytes at a time, until nothing is read. *)
Fixpoint read_chunks (fuel : nat) (r : drange) (f : file) : run bytes :=
  match fuel with
  | O => OutOfFuel
  | S fuel =>
      match dr_read r f (Some 4096) with
      | (Err e, _, _) => Done (Err e)
      | (Ok [], _, _) => Done (Ok [])
      | (Ok d, r, f) => rdo x <- read_chunks fuel r f; Done (Ok (d ++ x))
      end
  end.

(** What is written, and how it ends. *)
Definition written : Type := list str * run unit.
Definition then_ (a : written) (b : written) : written :=
  match a with (l, Done (Ok _)) => (l ++ fst b, snd b) | a => a end.

(** [sorted] compares two file entries if there are more than one; they have no order. *)
Definition sorted_entries (l : list centry) : result (list centry) :=
  match l with _ :: _ :: _ => Err TypeError | _ => Ok l end.

(** scripts/cpio.py:112-124. *)
Fixpoint hash_entries (sha : bytes -> str) (fuel : nat) (data : bytes) (l : list centry) : written :=
  match l with
  | [] => ([], Done (Ok tt))
  | e :: l =>
      if ce_dsize e =? 0 then hash_entries sha fuel data l
      else
        match read_chunks fuel (cpio_member_range e) (mkfile data 0) with
        | OutOfFuel => ([], OutOfFuel)
        | Done (Err x) => ([], Done (Err x))
        | Done (Ok d) => then_ ([sha d ++ [9] ++ ce_path e ++ [10]], Done (Ok tt)) (hash_entries sha fuel data l)
        end
  end.

(** scripts/cpio.py:91-124: a part of the file. The archive is read from the start of the file object: that of the file, or of the
    decompressed data. What is written, and the size of the archive. *)
Definition hash_piece (sha : bytes -> str) (unpack : ptype -> bytes -> result bytes) (fuel : nat) (content : bytes) (off : Z) (t : ptype) : written * Z :=
  match match t with PCpio => Ok content | _ => unpack t (zskipn off content) end with
  | Err e => (([], Done (Err e)), 0)
  | Ok data =>
      match cpio_read fuel data 0 with
      | OutOfFuel => (([], OutOfFuel), 0)
      | Done (Err e) => (([], Done (Err e)), 0)
      | Done (Ok (_, table, size)) =>
          match sorted_entries (cpio_entries (Some table) []) with
          | Err e => (([], Done (Err e)), 0)
          | Ok l => (hash_entries sha fuel data l, size)
          end
      end
  end.

Definition unsupported (off : Z) : str := s2z "Unsupported file type at offset: 0x" ++ fmt_x 8 off ++ s2z "." ++ [10].

(** scripts/cpio.py:133 with dtformats/cpio.py:344-347 and dtformats/data_format.py:866-879: only [Open] sets the file object that
    [Close] asks for, and the archive was read with [ReadFileObject]. *)
Definition close_archive : written := ([], Done (Err OSError)).

(** scripts/cpio.py:50-133 [HashFileEntries]: the loop over the parts; [n] bounds their number, [fuel] what is read of each. *)
Fixpoint hash_file (sha : bytes -> str) (unpack : ptype -> bytes -> result bytes) (n fuel : nat) (content : bytes) (off : Z) : written :=
  if off <? len content then
    match n with
    | O => ([], OutOfFuel)
    | S n =>
        match f_seek (mkfile content 0) off with
        | Err e => ([], Done (Err e))
        | Ok _ =>
            match piece_type (zfirstn 6 (zskipn off content)) with
            | None => ([unsupported off], Done (Ok tt))
            | Some t =>
                let (w, size) := hash_piece sha unpack fuel content off t in
                let off := off + size in
                let padding := off mod 16 in
                then_ w (then_ close_archive (hash_file sha unpack n fuel content (if 0 <? padding then off + (16 - padding) else off)))
            end
        end
    end
  else ([], Done (Ok tt)).

(** Model of the GZip file reader.

    Source: /repo/dtformats/gzipfile.py, layouts from /repo/dtformats/gzipfile.yaml. *)

From Verif Require Import Base CoreModel.

(** ** NUL-terminated strings *)

(** gzipfile.yaml [cstring] (dtFabric string with an element terminator): the size
    hint grows by one element as long as the terminator is missing. *)
Definition cstring_end (d : bytes) : option bytes :=
  (fix go d := match d with
     | [] => None
     | c :: r => if c =? 0 then Some []
                 else match go r with Some s => Some (c :: s) | None => None end
     end) d.

Definition cstring_map : dtmap bytes :=
  mkmap 1
    (fun d => match cstring_end d with Some s => MOk s | None => MTooSmall end)
    (fun d => len d + 1).

(** [_ReadStructureFromFileObject] with the map above, as one scan: the string and the
    size with the terminator (GzipProofs.read_cstring_is_read_structure). *)
Definition read_cstring (content : bytes) (off : Z) : result (bytes * Z) :=
  if off <? 0 then Err OSError
  else match cstring_end (zskipn off content) with
       | Some s => Ok (s, len s + 1)
       | None => Err ParseError
       end.

(** ** The decompressor *)

(** A zlib decompress object is deterministic: what [decompress] returns, and the value of
    [unused_data] afterwards, are functions of the data passed to the object so far. *)
Record decomp := mkdecomp {
  d_step : list bytes -> bytes -> result bytes;   (* earlier calls, data of this call *)
  d_unused : list bytes -> bytes }.               (* all calls so far *)

(** gzipfile.py:38-57 [_ReadCompressedData]: decompressed data, remaining data and
    the calls made. *)
Fixpoint read_compressed (fuel : nat) (d : decomp) (calls : list bytes) (acc : bytes)
  (compressed_data : bytes) : run (bytes * bytes * list bytes) :=
  match compressed_data with
  | [] => Done (Ok (acc, [], calls))
  | _ =>
      match fuel with
      | O => OutOfFuel
      | S k =>
          match d_step d calls compressed_data with
          | Err e => Done (Err e)
          | Ok [] => Done (Ok (acc, compressed_data, calls ++ [compressed_data]))
          | Ok data =>
              let calls' := calls ++ [compressed_data] in
              read_compressed k d calls' (acc ++ data) (d_unused d calls')
          end
      end
  end.

(** gzipfile.py:59-77 [_ReadMemberCompressedData]: position behind the compressed data and
    the decompressed data (which the code drops; it is kept here to state what is read). *)
Fixpoint read_member_data (fuel : nat) (buf : Z) (d : decomp) (content : bytes)
  (calls : list bytes) (pos : Z) (acc : bytes) : run (Z * bytes) :=
  match fuel with
  | O => OutOfFuel
  | S k =>
      let compressed_data := zfirstn buf (zskipn pos content) in
      let pos1 := pos + len compressed_data in
      match compressed_data with
      | [] => Done (Ok (pos1, acc))
      | _ =>
          match read_compressed fuel d calls [] compressed_data with
          | OutOfFuel => OutOfFuel
          | Done (Err e) => Done (Err e)
          | Done (Ok (data, remaining, calls')) =>
              let pos2 := pos1 - len remaining in
              if pos2 <? 0 then Done (Err OSError)
              else match data with
                   | [] => Done (Ok (pos2, acc))
                   | _ => read_member_data k buf d content calls' pos2 (acc ++ data)
                   end
          end
      end
  end.

(** gzipfile.yaml: gzip_member_header, gzip_member_footer, uint16le. *)
Definition gz_header_layout := [FU LE 2; FS LE 1; FU LE 1; FS LE 4; FU LE 1; FU LE 1].
Definition gz_footer_layout := [FU LE 4; FU LE 4].

(** gzipfile.py:99-165 [_ReadMemberHeader]: the position behind the header. *)
Definition read_member_header (content : bytes) (pos : Z) : result Z :=
  do vs <- read_struct content gz_header_layout pos;
  match vs with
  | [VI signature; VI method; VI flags; VI _; VI _; VI _] =>
      do _ <- guard (signature =? 35615) ParseError;
      do _ <- guard (method =? 8) ParseError;
      let pos := pos + 10 in
      do pos <- (if negb (Z.land flags 4 =? 0) then
                   do es <- read_struct content [FU LE 2] pos;
                   match es with
                   | [VI n] => Ok (pos + 2 + n)
                   | _ => Err OtherError
                   end
                 else Ok pos);
      do pos <- (if negb (Z.land flags 8 =? 0) then
                   do s <- read_cstring content pos;
                   Ok (pos + snd s)
                 else Ok pos);
      do pos <- (if negb (Z.land flags 16 =? 0) then
                   do s <- read_cstring content pos;
                   Ok (pos + snd s)
                 else Ok pos);
      Ok (if negb (Z.land flags 2 =? 0) then pos + len (zfirstn 2 (zskipn pos content)) else pos)
  | _ => Err OtherError
  end.

(** gzipfile.py:79-97 [_ReadMemberFooter]: checksum, uncompressed size, position. *)
Definition read_member_footer (content : bytes) (pos : Z) : result (Z * Z * Z) :=
  do vs <- read_struct content gz_footer_layout pos;
  match vs with
  | [VI checksum; VI size] => Ok (checksum, size, pos + 8)
  | _ => Err OtherError
  end.

(** What reading a member did: position of the header, of the compressed data, of the
    footer, the decompressed data, the two footer values. *)
Record gmember := mkgm {
  g_start : Z; g_data : Z; g_footer : Z; g_payload : bytes; g_checksum : Z; g_size : Z }.

(** gzipfile.py:167-182 [ReadFileObject]; [pos] is the position of the file object (the
    first iteration starts at [file_object.tell()], which is 0 after opening). *)
Fixpoint gzip_read (fuel : nat) (buf : Z) (d : decomp) (content : bytes) (pos : Z)
  (acc : list gmember) : run (list gmember * Z) :=
  if pos <? len content then
    match fuel with
    | O => OutOfFuel
    | S k =>
        match read_member_header content pos with
        | Err e => Done (Err e)
        | Ok p1 =>
            match read_member_data fuel buf d content [] p1 [] with
            | OutOfFuel => OutOfFuel
            | Done (Err e) => Done (Err e)
            | Done (Ok (p2, payload)) =>
                match read_member_footer content p2 with
                | Err e => Done (Err e)
                | Ok (c, s, p3) =>
                    gzip_read k buf d content p3 (acc ++ [mkgm pos p1 p2 payload c s])
                end
            end
        end
    end
  else Done (Ok (acc, pos)).

(** gzipfile.py:36 [_BUFFER_SIZE]. *)
Definition gz_buffer_size : Z := 16777216.

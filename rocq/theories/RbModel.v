(** Model of the readers of Windows Recycle.Bin metadata ($I) and Recycler INFO2 files. *)

From Verif Require Import Base CoreModel VarModel SeqModel StrModel TextModel DictModel Utf16Model.
From Coq Require String.
Import String.StringSyntax.

(** ** $I files *)

(** dtFabric map of a UTF-16 string with end-of-string character, recycle_bin.yaml
    recycle_bin_metadata_utf16le_string: the size hint grows by one element. *)
Definition wide_map : dtmap str :=
  mkmap 2
    (fun d => match unit_end d with
              | None => MTooSmall
              | Some t => match utf16_decode t with None => MError | Some s => MOk s end
              end)
    (fun d => len d + 2).

(** recycle_bin.py:73-108 [_ReadOriginalFilename], recycle_bin.yaml. The read of the string of
    format 1 stands for [_ReadStructureFromFileObject] (RbProofs.read_wide_string). *)
Definition rb_filename (content : bytes) (version : Z) : result str :=
  if version =? 1 then
    do (s, _) <- utf16_cstr (zskipn 24 content);
    Ok (rstrip 0 s)
  else
    do (_, d, _) <- read_var content [FU LE 4] (fun vs => match vs with [VI n] => 2 * n | _ => 0 end) 24;
    match utf16_decode d with
    | None => Err ParseError
    | Some s => Ok (rstrip 0 s)
    end.

(** recycle_bin.py:7-16: the attributes. *)
Record rb_file := mkrb { rb_version : Z; rb_deletion_time : Z; rb_size : Z; rb_name : str }.

(** recycle_bin.py:42-71 [_ReadFileHeader] and 110-133 [ReadFileObject]. *)
Definition read_rb (content : bytes) : result rb_file :=
  do vs <- read_struct content [FU LE 8; FU LE 8; FU LE 8] 0;
  match vs with
  | [VI version; VI size; VI time] =>
      do _ <- guard (existsb (Z.eqb version) [1; 2]) ParseError;
      do name <- rb_filename content version;
      Ok (mkrb version time size name)
  | _ => Err OtherError
  end.

(** ** INFO2 files *)

(** recycler.yaml recycler_info2_file_entry_utf16le_string: 520 bytes up to the terminator if there
    is one. *)
Definition wide_fixed (d : bytes) : result str :=
  match utf16_decode (match unit_end d with Some t => t | None => d end) with
  | None => Err ParseError
  | Some s => Ok s
  end.

(** The values of an entry; with debug output they are printed. The name in the code page is that
    of the output, thus decoded only then. *)
Record info2_entry := mkinfo2 {
  i2_name : bytes; i2_index : Z; i2_drive : Z; i2_time : Z; i2_size : Z; i2_wide : option str }.

(** recycler.py:33-50 [_FormatANSIString] for the output and recycler.py:52-103 [_ReadFileEntry];
    [ansi] is [bytes.decode("cp1252")]. *)
Definition i2_entry (ansi : bytes -> option str) (debug : bool) (content : bytes) (pos size : Z) : result info2_entry :=
  do (data, _) <- read_data (Some (mkfile content pos)) pos size;
  do vs <- as_parse_error (struct_bs [FB 260; FU LE 4; FU LE 4; FU LE 8; FU LE 4] data);
  match vs with
  | [VB name; VI index; VI drive; VI time; VI fsize] =>
      do _ <- guard (if debug then match ansi name with Some _ => true | None => false end else true) ParseError;
      do w <-
        (if 280 <? size then
           let d := zskipn 280 data in
           do _ <- guard (520 <=? len d) ParseError;
           do s <- wide_fixed (zfirstn 520 d);
           Ok (Some s)
         else Ok None);
      Ok (mkinfo2 name index drive time fsize w)
  | _ => Err OtherError
  end.

(** recycler.py:141-146, the loop of [ReadFileObject]. *)
Fixpoint i2_entries (fuel : nat) (ansi : bytes -> option str) (debug : bool) (content : bytes) (pos size : Z) : run (list info2_entry) :=
  if pos <? len content then
    match fuel with
    | O => OutOfFuel
    | S fuel =>
        match i2_entry ansi debug content pos size with
        | Err e => Done (Err e)
        | Ok e => rdo l <- i2_entries fuel ansi debug content (pos + size) size; Done (Ok (e :: l))
        end
    end
  else Done (Ok []).

(** recycler.py:105-128 [_ReadFileHeader] and 130-146 [ReadFileObject]. *)
Definition read_info2 (fuel : nat) (ansi : bytes -> option str) (debug : bool) (content : bytes) : run (list info2_entry) :=
  match read_struct content [FU LE 4; FU LE 4; FU LE 4; FU LE 4; FU LE 4] 0 with
  | Err e => Done (Err e)
  | Ok [VI _; VI _; VI _; VI size; VI _] =>
      if existsb (Z.eqb size) [280; 800] then i2_entries fuel ansi debug content 20 size
      else Done (Err ParseError)
  | Ok _ => Done (Err OtherError)
  end.

(** recycler.debug.yaml: attribute names and descriptions of an entry. *)
Definition i2_entry_debug : list (str * str) :=
  [(s2z "original_filename", s2z "Original filename (ANSI)"); (s2z "index", s2z "Index"); (s2z "drive_number", s2z "Drive number");
   (s2z "deletion_time", s2z "Deletion time"); (s2z "original_file_size", s2z "Original file size")].

(** recycler.py:113-119: the debug output of the file header, which is formatted with the debug
    information of an entry. [attributes] are those of the header object (recycler.yaml), [callback]
    gives the format functions. *)
Definition i2_header_text (callback : str -> option (dval -> cres)) (unknown1 count unknown2 size unknown3 : dval) : result str :=
  let attributes := [(s2z "unknown1", unknown1); (s2z "number_of_file_entries", count); (s2z "unknown2", unknown2);
                     (s2z "file_entry_size", size); (s2z "unknown3", unknown3)] in
  format_structure (map (fun '(name, description) =>
    mkattr (Some description) (callback name)
      (option_map snd (find (fun a => list_eqb (fst a) name) attributes))) i2_entry_debug).

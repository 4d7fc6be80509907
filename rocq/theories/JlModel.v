(** Model of the readers of Jump List files.

    The OLECF file (pyolecf) and the LNK file reader (pylnk) are external. [lnk data] is the offset at
    which pylnk leaves the file object of the data, [None] stands for OSError. *)

From Verif Require Import Base CoreModel StrModel TextModel SeqModel Utf16Model DictModel RdModel KcModel.
From Coq Require String.
Import String.StringSyntax.

(** jump_list.yaml dest_list_entry_v1 and dest_list_entry_v2: a floating-point number is its 4 bytes as
    integer, [de_more] are the members unknown4, unknown5, unknown6 and unknown7 of version 2. *)
Record dest_entry := mkdest {
  de_unknown1 : Z; de_volume : bytes; de_file : bytes; de_birth_volume : bytes; de_birth_file : bytes; de_hostname : str;
  de_number : Z; de_unknown2 : Z; de_unknown3 : Z; de_time : Z; de_pin : Z; de_more : option (Z * Z * Z * Z); de_path : str }.

Definition rd_path : reader str :=
  rd n <- rd_int (FU LE 2);
  rd d <- rd_bytes (2 * n);
  rd_some (utf16_decode d).

(** jump_list.py:121-153 [_ReadDestListEntry]; [v2] tells whether the format version is not 1. *)
Definition rd_dest_entry (v2 : bool) : reader dest_entry :=
  rd u1 <- rd_int (FU LE 8);
  rd a <- rd_bytes 16;
  rd b <- rd_bytes 16;
  rd c <- rd_bytes 16;
  rd d <- rd_bytes 16;
  rd host <- rd_bytes 16;
  rd x <- rd_guard (is_ascii host);
  rd number <- rd_int (FU LE 4);
  rd u2 <- rd_int (FU LE 4);
  rd u3 <- rd_int (FU LE 4);
  rd time <- rd_int (FU LE 8);
  rd pin <- rd_int (FS LE 4);
  if v2 then
    rd u4 <- rd_int (FS LE 4);
    rd u5 <- rd_int (FU LE 4);
    rd u6 <- rd_int (FU LE 8);
    rd path <- rd_path;
    rd u7 <- rd_int (FU LE 4);
    rd_ret (mkdest u1 a b c d host number u2 u3 time pin (Some (u4, u5, u6, u7)) path)
  else
    rd path <- rd_path;
    rd_ret (mkdest u1 a b c d host number u2 u3 time pin None path).

(** jump_list.yaml dest_list_header: format version, number of entries, number of pinned entries,
    unknown1, last entry number, unknown2, last revision number, unknown3. *)
Definition rd_dest_header : reader (list Z) := rd_times 8 (rd_int (FU LE 4)).

(** jump_list.py:95-119 [_ReadDestList], jump_list.py:155-179 [_ReadDestListHeader]: the header and the
    entries that are read (and shown) of the DestList stream, [None] if the OLECF file has none. The
    missing root item is not modelled separately. *)
Definition read_dest_list (fuel : nat) (stream : option bytes) : run (option (list Z * list dest_entry)) :=
  match stream with
  | None => Done (Err ParseError)
  | Some content =>
      if 0 <? len content then
        match rd_dest_header content 0 with
        | Err e => Done (Err e)
        | Ok (h, pos) =>
            let version := nth 0 h 0 in
            if (1 <=? version) && (version <=? 4) then
              rdo l <- rd_until fuel (rd_dest_entry (negb (version =? 1))) content pos (len content);
              Done (Ok (Some (h, l)))
            else Done (Err ParseError)
        end
      else Done (Ok None)
  end.

(** jump_list.py:83-93 [_FormatIntegerAsPathSize]. *)
Definition path_size_text (n : Z) : str :=
  let bytes := n * 2 in
  fmt_d n ++ s2z " characters ("%string ++ fmt_d bytes ++ s2z " bytes)"%string.

(** jump_list.py:16-48 [JumpListEntry]: the identifier and the data that are read as LNK file. *)
Record jl_entry := mkjl { jl_identifier : str; jl_data : bytes }.

(** jump_list.py:181-209 [_ReadJumpListEntry], jump_list.py:223-232 [GetJumpListEntries]: the entries
    that are yielded for the streams of the root item, and the exception if one is raised. *)
Fixpoint auto_entries (lnk : bytes -> option Z) (items : list (str * bytes)) : list jl_entry * option exn :=
  match items with
  | [] => ([], None)
  | (name, data) :: items =>
      if list_eqb name (s2z "DestList"%string) then auto_entries lnk items
      else match lnk data with
           | None => ([], Some ParseError)
           | Some _ => let (l, x) := auto_entries lnk items in (mkjl name data :: l, x)
           end
  end.

(** jump_list.py:387-408 [_ReadFileHeader]: the number of categories. *)
Definition rd_custom_header : reader Z :=
  rd version <- rd_int (FU LE 4);
  rd x <- rd_guard (version =? 2);
  rd n <- rd_int (FU LE 4);
  rd u <- rd_int (FU LE 4);
  rd_ret n.

(** jump_list.py:322-385 [_ReadCategoryHeader]: type, name of type 0, number of entries of types 0 and
    2, category identifier of type 1. *)
Record category := mkcat { ct_type : Z; ct_name : option str; ct_count : option Z; ct_identifier : option Z }.

Definition rd_category_type : reader Z :=
  rd t <- rd_int (FU LE 4);
  rd x <- rd_guard ((0 <=? t) && (t <=? 2));
  rd_ret t.

Definition rd_category : reader category :=
  rd t <- rd_category_type;
  if t =? 0 then
    rd name <- rd_path;
    rd n <- rd_int (FU LE 4);
    rd_ret (mkcat t (Some name) (Some n) None)
  else
    rd n <- rd_int (FU LE 4);
    rd_ret (if t =? 2 then mkcat t None (Some n) None else mkcat t None None (Some n)).

(** jump_list.py:265 and jump_list.py:269. *)
Definition footer_signature : bytes := [171; 251; 191; 186].
Definition lnk_guid : bytes := [1; 20; 2; 0; 0; 0; 0; 0; 192; 0; 0; 0; 0; 0; 0; 70].

(** jump_list.py:298-320 [_ReadCategoryFooter]. *)
Definition rd_footer : reader unit :=
  rd s <- rd_bytes 4;
  rd_guard (list_eqb s footer_signature).

(** jump_list.py:410-439 [_ReadJumpListEntry] of the data range: its offset is that of the data range,
    not of the file, and the data range is new. *)
Definition custom_entry (data : bytes) : jl_entry :=
  let file_offset := 0 in
  mkjl (s2z "0x"%string ++ fmt_x 8 file_offset) data.

(** jump_list.py:472-513: the entries of a category that are appended, and the offset behind them. *)
Fixpoint custom_entries (lnk : bytes -> option Z) (n : nat) (content : bytes) (off : Z) : list jl_entry * result Z :=
  match n with
  | O => ([], Ok off)
  | S n =>
      if len content - off <? 16 then ([], Ok off)
      else match rd_bytes 16 content off with
           | Err e => ([], Err e)
           | Ok (guid, _) =>
               if list_eqb guid lnk_guid then
                 let off := off + 16 in
                 let data := zskipn off content in
                 match lnk data with
                 | None => ([], Err ParseError)
                 | Some size => let (l, r) := custom_entries lnk n content (off + size) in (custom_entry data :: l, r)
                 end
               else if list_eqb (zfirstn 4 guid) footer_signature then custom_entries lnk n content off
               else ([], Err ParseError)
           end
  end.

(** jump_list.py:465-517: the categories; the categories that are read (and shown) are given too. *)
Fixpoint custom_categories (lnk : bytes -> option Z) (n : nat) (content : bytes) (off : Z) : list jl_entry * result (list category * Z) :=
  match n with
  | O => ([], Ok ([], off))
  | S n =>
      match rd_category content off with
      | Err e => ([], Err e)
      | Ok (c, off) =>
          let count := match ct_count c with Some count => count | None => 0 end in
          let (l, r) := custom_entries lnk (Z.to_nat count) content off in
          match r with
          | Err e => (l, Err e)
          | Ok off =>
              match rd_footer content off with
              | Err e => (l, Err e)
              | Ok _ => let (l', r) := custom_categories lnk n content (off + 4) in
                        (l ++ l', do (cs, off) <- r; Ok (c :: cs, off))
              end
          end
      end
  end.

(** jump_list.py:452-521 [ReadFileObject], [entries] are those that the object has: the entries that
    GetJumpListEntries (jump_list.py:441-450) yields afterwards, and the outcome. The trailing data of
    the debug output is not modelled. *)
Definition read_custom (lnk : bytes -> option Z) (entries : list jl_entry) (content : bytes) : list jl_entry * result (list category) :=
  match rd_custom_header content 0 with
  | Err e => (entries, Err e)
  | Ok (n, off) =>
      let (l, r) := custom_categories lnk (Z.to_nat n) content off in
      (entries ++ l, do (cs, _) <- r; Ok cs)
  end.

(** jump_list.py:267 and jump_list.py:286-296 [_FormatIntegerAsCategoryType]. *)
Definition category_type_text (n : Z) : str :=
  let name := if n =? 0 then s2z "Custom category"%string else if n =? 1 then s2z "Known category"%string
              else if n =? 2 then s2z "User tasks"%string else s2z "UNKNOWN"%string in
  fmt_d n ++ s2z " ("%string ++ name ++ s2z ")"%string.

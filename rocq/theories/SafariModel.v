(** Model of the Safari cookies file reader.

    Source: /repo/dtformats/safari_cookies.py, /repo/dtformats/safari_cookies.yaml. *)

From Verif Require Import Base CoreModel VarModel SeqModel GzipModel.

(** What debug output shows of a record, apart from its flags and times. *)
Record cookie := mkcookie { ck_url : str; ck_name : str; ck_path : str; ck_value : str }.

(** safari_cookies.py:70-96 [_ReadCString]: dtFabric stops at the first NUL, data that is not
    ASCII is a MappingError. *)
Definition ck_string (page : bytes) (off : Z) : result str :=
  as_parse_error
    (let d := zskipn off page in
     match d with
     | [] => Err ValueError
     | _ => match cstring_end d with
            | Some s => if forallb (fun c => c <? 128) s then Ok s else Err ParseError
            | None => Err ParseError
            end
     end).

(** safari_cookies.py:271-303: a string of a record, empty without an offset. *)
Definition ck_value_string (page : bytes) (record_offset off : Z) : result str :=
  if off =? 0 then Ok [] else ck_string page (record_offset + off).

(** safari_cookies.yaml: binarycookies_record_header; the 64-bit floating-points are streams of
    8 bytes, every such stream is a floating-point. *)
Definition ck_record_layout : list fkind := repeat (FU LE 4) 8 ++ [FU LE 8; FB 8; FB 8].

(** safari_cookies.py:240-306 [_ReadRecord]. *)
Definition ck_read_record (page : bytes) (record_offset : Z) : result cookie :=
  do vs <- as_parse_error (struct_bs ck_record_layout (zskipn record_offset page));
  match vs with
  | [VI _; VI _; VI _; VI _; VI url; VI name; VI path; VI value; VI _; VB _; VB _] =>
      do u <- ck_value_string page record_offset url;
      do n <- ck_value_string page record_offset name;
      do p <- ck_value_string page record_offset path;
      do v <- ck_value_string page record_offset value;
      Ok (mkcookie u n p v)
  | _ => Err OtherError
  end.

(** safari_cookies.py:175-227 [_ReadPage]: the records and the file position. *)
Definition ck_read_page (content : bytes) (pos page_size : Z) : result (list cookie * Z) :=
  do (page, pos) <- read_next content pos page_size;
  do (_, offsets) <- as_parse_error
    (struct_seq_bs [FU LE 4; FU LE 4] (FU LE 4) (fun vs => match vs with [_; VI n] => n | _ => 0 end) page);
  do l <- mapr (ck_read_record page) offsets;
  Ok (l, pos).

(** safari_cookies.py:229-238 [_ReadPages]. *)
Fixpoint ck_read_pages (content : bytes) (pos : Z) (sizes : list Z) : result (list (list cookie) * Z) :=
  match sizes with
  | [] => Ok ([], pos)
  | n :: r => do (l, pos) <- ck_read_page content pos n;
              do (ls, pos) <- ck_read_pages content pos r;
              Ok (l :: ls, pos)
  end.

(** safari_cookies.py:116-173 [_ReadFileHeader]: the page sizes and the file position. *)
Definition ck_read_header (content : bytes) : result (list Z * Z) :=
  do vs <- read_struct content [FB 4; FU BE 4] 0;
  match vs with
  | [VB sig; VI n] =>
      do _ <- guard (list_eqb sig (s2z "cook")) ParseError;
      let d := zfirstn (n * 4) (zskipn 8 content) in
      do sizes <- as_parse_error (seq_bs (FU BE 4) n d);
      Ok (sizes, 8 + len d)
  | _ => Err OtherError
  end.

(** safari_cookies.py:308-316 [ReadFileObject] with 98-114 [_ReadFileFooter]: the records of
    every page. *)
Definition read_cookies (content : bytes) : result (list (list cookie)) :=
  do (sizes, pos) <- ck_read_header content;
  do (pages, pos) <- ck_read_pages content pos sizes;
  do _ <- read_struct content [FB 8] pos;
  Ok pages.

(** Model of the reader of Mac OS background item bookmark data. *)

From Verif Require Import Base CoreModel StrModel TextModel SeqModel DictModel RdModel.
From Coq Require String.
Import String.StringSyntax.

(** The value of a data record. Floating-point numbers are left as the bytes they are stored in. *)
Inductive book_value := BText (s : str) | BInt (z : Z) | BFloat (d : bytes) | BInts (l : list Z) | BData (d : bytes).

(** bookmark_data.yaml bookmark_data_record: the data of the base structure are mapped again with the
    structure of the data type. *)
Definition book_decode (utf8 : bytes -> option str) (type : Z) (data : bytes) : result book_value :=
  if type =? 0x101 then rd_data (rd s <- rd_some (utf8 data); rd_ret (BText s)) data
  else if type =? 0x301 then rd_data (rd v <- rd_int (FS LE 1); rd_ret (BInt v)) data
  else if type =? 0x302 then rd_data (rd v <- rd_int (FS LE 2); rd_ret (BInt v)) data
  else if type =? 0x303 then rd_data (rd v <- rd_int (FS LE 4); rd_ret (BInt v)) data
  else if type =? 0x304 then rd_data (rd v <- rd_int (FS LE 8); rd_ret (BInt v)) data
  else if type =? 0x305 then rd_data (rd v <- rd_bytes 4; rd_ret (BFloat v)) data
  else if type =? 0x306 then rd_data (rd v <- rd_bytes 8; rd_ret (BFloat v)) data
  else if type =? 0x601 then rd_data (rd l <- rd_times (Z.to_nat (len data / 4)) (rd_int (FU LE 4)); rd_ret (BInts l)) data
  else Ok (BData data).

Definition rd_of {A} (r : result A) : reader A := fun _ pos => do a <- r; Ok (a, pos).

(** bookmark_data.py:54-78 [_ReadDataRecord]: data type and value. *)
Definition rd_book_record (utf8 : bytes -> option str) : reader (Z * book_value) :=
  rd size <- rd_int (FU LE 4);
  rd type <- rd_int (FU LE 4);
  rd data <- rd_bytes size;
  rd v <- rd_of (book_decode utf8 type data);
  rd_ret (type, v).

Definition book_record (utf8 : bytes -> option str) (content : bytes) (off : Z) : result (Z * book_value) :=
  do (r, _) <- rd_book_record utf8 content off; Ok r.

(** bookmark_data.py:80-104 [_ReadHeader] *)
Definition rd_book_header : reader (Z * Z) :=
  rd signature <- rd_bytes 4;
  rd _ <- rd_guard (list_eqb signature (s2z "alis"%string) || list_eqb signature (s2z "book"%string));
  rd size <- rd_int (FU LE 4);
  rd unknown1 <- rd_int (FU LE 4);
  rd offset <- rd_int (FU LE 4);
  rd unknown3 <- rd_bytes 32;
  rd_ret (size, offset).

(** bookmark_data.py:152-181 [_ReadTableOfContents]: the tags and data record offsets. *)
Definition rd_book_tag : reader (Z * Z) :=
  rd tag <- rd_int (FU LE 4);
  rd offset <- rd_int (FU LE 4);
  rd unknown1 <- rd_int (FU LE 4);
  rd_ret (tag, offset).
Definition rd_book_toc : reader (list (Z * Z)) :=
  rd size <- rd_int (FU LE 4);
  rd unknown1 <- rd_int (FU LE 4);
  rd _ <- rd_guard (unknown1 =? 0xfffffffe);
  rd identifier <- rd_int (FU LE 4);
  rd next <- rd_int (FU LE 4);
  rd n <- rd_int (FU LE 4);
  rd l <- rd_times (Z.to_nat n) rd_book_tag;
  rd _ <- rd_guard (next =? 0);
  rd_ret l.

(** bookmark_data.py:106-127 [_ReadIntegersArray] and 129-150 [_ReadStringsArray]: an element without
    the attribute [integer] or [string] is an AttributeError. *)
Fixpoint book_integers (utf8 : bytes -> option str) (content : bytes) (area : Z) (offs : list Z) : result (list Z) :=
  match offs with
  | [] => Ok []
  | off :: offs =>
      do (_, v) <- book_record utf8 content (area + off);
      do z <- match v with BInt z => Ok z | _ => Err AttributeError end;
      do l <- book_integers utf8 content area offs;
      Ok (z :: l)
  end.
Fixpoint book_strings (utf8 : bytes -> option str) (content : bytes) (area : Z) (offs : list Z) : result (list str) :=
  match offs with
  | [] => Ok []
  | off :: offs =>
      do (_, v) <- book_record utf8 content (area + off);
      do s <- match v with BText s => Ok s | _ => Err AttributeError end;
      do l <- book_strings utf8 content area offs;
      Ok (s :: l)
  end.

Inductive book_item :=
| ITime (d : bytes)                    (* Cocoa date and time, as stored *)
| IStrings (l : list str)
| IIntegers (l : list Z)
| IFlags (flags valid unknown : Z)
| IValue (v : book_value).

(** data_format.py:631-669 [_ReadStructureFromByteStream] *)
Definition book_stream {A} (r : reader A) (v : book_value) : result A :=
  match v with
  | BData [] => Err ValueError
  | BData data => rd_data r data
  | _ => Err AttributeError
  end.

(** bookmark_data.py:216-268, the body of the loop of [ReadFileObject]. *)
Definition book_item_of (utf8 : bytes -> option str) (content : bytes) (area : Z) (tv : Z * Z) : result (Z * book_item) :=
  let (tag, off) := tv in
  do (type, v) <- book_record utf8 content (area + off);
  do i <-
    (if type =? 0x400 then do d <- book_stream (rd_bytes 8) v; Ok (ITime d)
     else if tag =? 0x1004 then
       do offs <- match v with BInts l => Ok l | _ => Err AttributeError end;
       do l <- book_strings utf8 content area offs; Ok (IStrings l)
     else if tag =? 0x1005 then
       do offs <- match v with BInts l => Ok l | _ => Err AttributeError end;
       do l <- book_integers utf8 content area offs; Ok (IIntegers l)
     else if (tag =? 0x1010) || (tag =? 0x2020) then
       book_stream (rd flags <- rd_int (FU LE 8); rd valid <- rd_int (FU LE 8); rd unknown <- rd_int (FU LE 8); rd_ret (IFlags flags valid unknown)) v
     else Ok (IValue v));
  Ok (tag, i).

Fixpoint book_items (utf8 : bytes -> option str) (content : bytes) (area : Z) (l : list (Z * Z)) : result (list (Z * book_item)) :=
  match l with
  | [] => Ok []
  | tv :: l =>
      do i <- book_item_of utf8 content area tv;
      do r <- book_items utf8 content area l;
      Ok (i :: r)
  end.

(** bookmark_data.py:183-268 [ReadFileObject]: the tags with the values that are read for them. *)
Definition read_book (utf8 : bytes -> option str) (content : bytes) : result (list (Z * book_item)) :=
  do (h, _) <- rd_book_header content 0;
  do _ <- guard (fst h =? len content) ParseError;
  do _ <- guard (snd h =? 48) ParseError;
  do (size, _) <- rd_int (FU LE 4) content 48;
  do (toc, _) <- rd_book_toc content (48 + size);
  book_items utf8 content 48 toc.

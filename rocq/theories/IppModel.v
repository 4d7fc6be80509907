(** Model of the CUPS Internet Printing Protocol (IPP) file reader.

    Source: /repo/dtformats/cups_ipp.py, /repo/dtformats/cups_ipp.yaml. The UTF-8 decoder,
    [bytes.decode] with the name of a character set, and the dfdatetime constructor are
    arguments. *)

From Verif Require Import Base CoreModel VarModel SeqModel CpioModel DictModel.

Inductive ipp_value := IppNone | IppInt (z : Z) | IppBool (b : bool) | IppDate (fields : list Z) | IppStr (s : str).

(** What debug output shows: delimiter tags and attributes. *)
Inductive ipp_item :=
| IppDelimiter (tag : Z)
| IppAttribute (tag : Z) (name : str) (value : ipp_value).

Definition zin (z : Z) (l : list Z) : bool := existsb (Z.eqb z) l.

(** cups_ipp.py:282-305 [_ReadIntegerValue]. *)
Definition ipp_int (d : bytes) : result Z :=
  do vs <- as_parse_error (struct_bs [FS BE 4] d);
  match vs with [VI z] => Ok z | _ => Err OtherError end.

(** cups_ipp.py:220-238 [_ReadBooleanValue]. *)
Definition ipp_bool (d : bytes) : result bool :=
  if list_eqb d [0] then Ok false else if list_eqb d [1] then Ok true else Err ParseError.

(** cups_ipp.py:240-280 [_ReadDateTimeValue]: the values that the constructor of dfdatetime
    gets; it can raise. *)
Definition ipp_date (rfc2579 : list Z -> result unit) (d : bytes) : result (list Z) :=
  do vs <- as_parse_error (struct_bs (FU BE 2 :: repeat (FU BE 1) 9) d);
  do _ <- rfc2579 (ints vs);
  Ok (ints vs).

(** cups_ipp.py:140-180: the value of an attribute and the last character set. *)
Definition ipp_read_value (decode : str -> bytes -> result str) (rfc2579 : list Z -> result unit) (charset : str) (tag : Z) (d : bytes)
  : result (ipp_value * str) :=
  if zin tag [33; 35] then do z <- ipp_int d; Ok (IppInt z, charset)
  else if tag =? 34 then do b <- ipp_bool d; Ok (IppBool b, charset)
  else if tag =? 49 then do l <- ipp_date rfc2579 d; Ok (IppDate l, charset)
  else if tag =? 50 then Ok (IppNone, charset)
  else if zin tag [65; 66] then do s <- decode charset d; Ok (IppStr s, charset)
  else if zin tag [68; 69; 70; 71; 72; 73] then
    do s <- decode_ascii d;
    Ok (IppStr s, if tag =? 71 then s else charset)
  else Ok (IppNone, charset).

(** cups_ipp.py:122-183 [_ReadAttribute]: the attribute, the last character set and the file
    position. dtFabric maps the structure when all of its data is there; here its parts are
    read one after the other. *)
Definition ipp_attribute (utf8 : bytes -> option str) (decode : str -> bytes -> result str) (rfc2579 : list Z -> result unit)
  (content : bytes) (charset : str) (pos : Z) : result (ipp_item * str * Z) :=
  do vs <- read_struct content [FS BE 1; FS BE 2] pos;
  match vs with
  | [VI tag; VI name_size] =>
      do _ <- guard (0 <=? name_size) ParseError;
      do (name_data, pos) <- read_next content (pos + 3) name_size;
      do vs <- read_struct content [FS BE 2] pos;
      match vs with
      | [VI value_size] =>
          do _ <- guard (0 <=? value_size) ParseError;
          do (value_data, pos) <- read_next content (pos + 2) value_size;
          match utf8 name_data with
          | None => Err ParseError
          | Some name =>
              do (value, charset) <- ipp_read_value decode rfc2579 charset tag value_data;
              Ok (IppAttribute tag name value, charset, pos)
          end
      | _ => Err OtherError
      end
  | _ => Err OtherError
  end.

(** cups_ipp.py:185-218 [_ReadAttributesGroup]: what is read, and the last character set. *)
Fixpoint ipp_group (fuel : nat) (utf8 : bytes -> option str) (decode : str -> bytes -> result str) (rfc2579 : list Z -> result unit)
  (content : bytes) (charset : str) (pos : Z) : run (list ipp_item * str) :=
  match fuel with
  | O => OutOfFuel
  | S fuel =>
      match read_struct content [FS BE 1] pos with
      | Err e => Done (Err e)
      | Ok [VI tag] =>
          if 16 <=? tag then
            match ipp_attribute utf8 decode rfc2579 content charset pos with
            | Err e => Done (Err e)
            | Ok (a, charset, pos) =>
                rdo (l, charset) <- ipp_group fuel utf8 decode rfc2579 content charset pos; Done (Ok (a :: l, charset))
            end
          else if tag =? 3 then Done (Ok ([], charset))
          else if zin tag [1; 2; 4; 5] then
            rdo (l, charset) <- ipp_group fuel utf8 decode rfc2579 content charset (pos + 1); Done (Ok (IppDelimiter tag :: l, charset))
          else Done (Err ParseError)
      | Ok _ => Done (Err OtherError)
      end
  end.

(** cups_ipp.py:327-337 [ReadFileObject] with 307-325 [_ReadHeader]. [charset] is the value that
    the object has, "ascii" for a new one (cups_ipp.py:108). *)
Definition read_ipp (fuel : nat) (utf8 : bytes -> option str) (decode : str -> bytes -> result str) (rfc2579 : list Z -> result unit)
  (charset : str) (content : bytes) : run (list ipp_item * str) :=
  match read_struct content [FS BE 1; FS BE 1; FS BE 2; FS BE 4] 0 with
  | Err e => Done (Err e)
  | Ok _ => ipp_group fuel utf8 decode rfc2579 content charset 8
  end.

(** The debug output of a keychain record: the data of every value, from its offset up to where the next value starts. *)

From Verif Require Import Base BaseFacts TextModel KcModel.

(** Where data of a record can end: the values start at their offsets minus 1, the record ends at [size]. *)
Definition boundary (offsets : list Z) (size b : Z) : Prop := b = size \/ exists o, In o offsets /\ o <> 0 /\ b = o - 1.

(** The first boundary behind the starts of the values [before]. *)
Definition first_behind (offsets : list Z) (size : Z) (before : list Z) (e : Z) : Prop :=
  boundary offsets size e /\ (forall o, In o before -> o - 1 < e) /\
  forall b, boundary offsets size b -> (forall o, In o before -> o - 1 < b) -> e <= b.

(** The bytes [a, b) of a record. *)
Definition part (rec : bytes) (a b : Z) : bytes := zfirstn (b - a) (zskipn a rec).

(** The data that is shown for the columns: nothing for a value without an offset; for a value at offset [o] the bytes up to
    the first boundary behind this and all values of columns before. *)
Inductive shows (rec : bytes) (all : list Z) : list Z -> list Z -> list bytes -> Prop :=
| shows_nil before : shows rec all before [] []
| shows_none before os ds : shows rec all before os ds -> shows rec all before (0 :: os) ([] :: ds)
| shows_value before o os e ds : o <> 0 -> first_behind all (len rec) (before ++ [o]) e ->
    shows rec all (before ++ [o]) os ds -> shows rec all before (o :: os) (part rec (o - 1) e :: ds).

(** The offsets that are set. *)
Definition set_offsets (l : list Z) : list Z := filter (fun o => negb (o =? 0)) l.

(** The text of the values. *)
Fixpoint values_dump (i : Z) (names : list str) (ds : list bytes) : str :=
  match names, ds with
  | name :: names, d :: ds =>
      s2z "Attribute value: " ++ StrModel.fmt_d i ++ s2z " (" ++ name ++ s2z ") data:" ++ [10] ++ fst (format_hexdump d) ++ values_dump (i + 1) names ds
  | _, _ => []
  end.

(** A line with a description and a text. *)
Definition line (description text : str) : str := description ++ alignment_string description ++ s2z ": " ++ text ++ [10].
(** The header of a record: its size and five more numbers. *)
Definition header_shown (size : Z) (header : list Z) : str :=
  line (s2z "Data size") (StrModel.fmt_d size) ++ line (s2z "Record index") (StrModel.fmt_d (nth 0 header 0))
  ++ line (s2z "Unknown2") (s2z "0x" ++ StrModel.fmt_x 8 (nth 1 header 0)) ++ line (s2z "Unknown3") (s2z "0x" ++ StrModel.fmt_x 8 (nth 2 header 0))
  ++ line (s2z "Key data size") (StrModel.fmt_d (nth 3 header 0)) ++ line (s2z "Unknown4") (s2z "0x" ++ StrModel.fmt_x 8 (nth 4 header 0)) ++ [10].

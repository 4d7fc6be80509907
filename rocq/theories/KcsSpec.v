(** What the MacOS keychain script shows. *)

From Verif Require Import Base BaseFacts StrModel DictModel LdbModel KcModel.
From Coq Require String.
Import String.StringSyntax.

(** The names of the data types of attributes, from 0 on. *)
Definition type_names : list str :=
  map s2z ["String with size"; "Integer 32-bit signed"; "Integer 32-bit unsigned"; "CSSM_DB_ATTRIBUTE_FORMAT_BIG_NUM";
           "Floating-point 64-bit"; "Date and time"; "Binary data"; "CSSM_DB_ATTRIBUTE_FORMAT_MULTI_UINT32";
           "CSSM_DB_ATTRIBUTE_FORMAT_COMPLEX"]%string.

Definition type_shown (t : Z) (s : str) : Prop :=
  (0 <= t < 9 /\ nth_error type_names (Z.to_nat t) = Some s) \/ (~ 0 <= t < 9 /\ s = s2z "0x" ++ fmt_x 8 t).

(** A column of a table of [n] columns, with its number: identifiers that are no numbers of columns are left out, and
    columns without a name are NULL. *)
Definition column_shown (n i : Z) (c : kcol) (l : str) : Prop :=
  exists id t identifier name type, kc_id c = KInt id /\ kc_type c = KInt t /\
    ((id < n /\ identifier = fmt_d id) \/ (n <= id /\ identifier = [])) /\
    ((kc_name c = Some name /\ name <> []) \/ ((kc_name c = None \/ kc_name c = Some []) /\ name = s2z "NULL")) /\
    type_shown t type /\
    l = [9] ++ fmt_d i ++ [9] ++ identifier ++ [9] ++ name ++ [9] ++ type ++ [10].

Definition title (t : ktable) : str := s2z "Table: " ++ kt_name t ++ s2z " (0x" ++ fmt_x 8 (kt_id t) ++ s2z ")" ++ [10].

Definition schema_shown (t : ktable) (s : str) : Prop :=
  exists lines, length lines = length (kt_columns t) /\
    (forall i c l, nth_error (kt_columns t) i = Some c -> nth_error lines i = Some l ->
      column_shown (Z.of_nat (length (kt_columns t))) (Z.of_nat i) c l) /\
    s = title t ++ [9] ++ s2z "Number of columns:" ++ [9] ++ fmt_d (Z.of_nat (length (kt_columns t))) ++ [10] ++
        [9] ++ s2z "Column" ++ [9] ++ s2z "Identifier" ++ [9] ++ s2z "Name" ++ [9] ++ s2z "Type" ++ [10] ++
        concat lines ++ [10].

(** A value. *)
Inductive shown_as : kval -> str -> Prop :=
| sa_none : shown_as KNone (s2z "NULL")
| sa_int z : shown_as (KInt z) (fmt_d z)
| sa_str s : shown_as (KStr s) s
| sa_blob b : shown_as (KBlob b) ([98] ++ bytes_repr b).

(** Texts on a line, with tabs between them. *)
Inductive tabbed : list str -> str -> Prop :=
| tb_none : tabbed [] [10]
| tb_one s : tabbed [s] (s ++ [10])
| tb_more s x l t : tabbed (x :: l) t -> tabbed (s :: x :: l) (s ++ [9] ++ t).

Definition record_shown (r : krow) (l : str) : Prop := exists texts, Forall2 shown_as (map snd r) texts /\ tabbed texts l.

Definition content_shown (t : ktable) (s : str) : Prop :=
  exists names head lines, map kc_name (kt_columns t) = map Some names /\ tabbed names head /\
    Forall2 record_shown (kt_records t) lines /\ s = title t ++ head ++ concat lines ++ [10].

(** A value of a column of a type. *)
Definition plain (s : str) : Prop := ~ In 9 s /\ ~ In 10 s /\ s <> s2z "NULL".
Inductive fits : Z -> kval -> Prop :=
| fit_none t : fits t KNone
| fit_int t z : t = 1 \/ t = 2 -> 0 <= z -> fits t (KInt z)
| fit_str t s : t = 0 \/ t = 5 -> plain s -> fits t (KStr s)
| fit_blob b : is_bytes b -> fits 6 (KBlob b).

(** The names of the values of the records of the three schema tables. *)
Definition schema_names (k : Z) : option (list (option str)) :=
  match k with
  | 0 => Some (map kname ["RelationID"; "RelationName"]%string)
  | 1 => Some (map kname ["RelationID"; "IndexID"; "AttributeID"; "IndexType"; "IndexedDataLocation"]%string)
  | 2 => Some (map kname ["RelationID"; "AttributeID"; "AttributeNameFormat"; "AttributeName"; "AttributeFormat"]%string)
  | _ => None
  end.

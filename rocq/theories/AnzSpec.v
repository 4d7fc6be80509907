(** What the text of the analyzer script is. *)

From Verif Require Import Base CoreModel StrModel DictModel TextModel LdsModel AnzModel.
From Coq Require String.
Import String.StringSyntax.

(** What is known of data types is what their definitions give. *)
Definition known (capitalize : str -> str) (members : str -> list member) (k : cache) : Prop :=
  forall name l, sdict_get name k = Some l -> l = debug_info capitalize (members name).

(** The text of a value on its own. *)
Definition text_of (capitalize : str -> str) (members : str -> list member) (fuel : nat) (name : str) (v : value) : run str :=
  match format_map capitalize members fuel [] name v with
  | Done (Ok (t, _)) => Done (Ok t)
  | Done (Err e) => Done (Err e)
  | OutOfFuel => OutOfFuel
  end.

(** The members that are shown. *)
Definition shown_member (m : member) : Prop :=
  m_type m <> IOther \/ (exists p, m_name m = p ++ s2z "checksum") \/ (exists p, m_name m = p ++ s2z "offset").

(** The members [ms] of [l] that are shown and that the value has, in order. *)
Inductive described (v : value) : list member -> list member -> Prop :=
  | described_nil : described v [] []
  | described_skip m l ms : ~ shown_member m \/ attribute (m_name m) v = None -> described v l ms -> described v (m :: l) ms
  | described_take m l ms : shown_member m -> attribute (m_name m) v <> None -> described v l ms -> described v (m :: l) (m :: ms).

(** The name of the data type of an element. *)
Inductive element_class : value -> str -> Prop :=
  | class_float s : element_class (VFloat s) (s2z "float")
  | class_int z : element_class (VInt z) (s2z "int")
  | class_tuple l : element_class (VSeq l) (s2z "tuple")
  | class_bytes b : element_class (VData b) (s2z "bytes")
  | class_str s : element_class (VText s) (s2z "str")
  | class_uuid s : element_class (VUuid s) (s2z "UUID")
  | class_object c l : element_class (VObject c l) c.

(** The elements of a sequence with these texts. *)
Fixpoint entries_from (i : Z) (l : list str) : str :=
  match l with [] => [] | t :: l => s2z "Entry: " ++ fmt_d i ++ [10] ++ t ++ entries_from (i + 1) l end.

(** What is written for structures with these texts and results of reading, up to the first that is not read or shown. *)
Inductive parts : list (str * result value) -> list (run str) -> output -> Prop :=
  | parts_nil : parts [] [] ([], Ok tt)
  | parts_read d e l ts : parts ((d, Err e) :: l) ts (d, Err e)
  | parts_error d v e l ts : parts ((d, Ok v) :: l) (Done (Err e) :: ts) (d, Err e)
  | parts_cons d v t l ts s r : parts l ts (s, r) -> parts ((d, Ok v) :: l) (Done (Ok t) :: ts) (d ++ t ++ s, r).

(** The value is an object with an integer for each of these members. *)
Definition integers (l : list member) (v : value) : Prop :=
  Forall (fun m => m_type m = IInt /\ exists z, attribute (m_name m) v = Some (VInt z)) l.

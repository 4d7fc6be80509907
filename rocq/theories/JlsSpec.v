(** What the Jump List script shows. *)

From Verif Require Import Base StrModel SpvSpec JlsModel.
From Coq Require String.
Import String.StringSyntax.

(** The types of properties that are supported: single values of these types, and all vectors. *)
Definition supported (t : Z) : Prop :=
  In t [0x01; 0x03; 0x08; 0x0b; 0x13; 0x14; 0x15; 0x1e; 0x1f; 0x40; 0x42; 0x48] \/ Z.land t 0xf000 = 0x1000.

(** The properties of a shortcut that are shown: those of the items of its target and those of its metadata block. *)
Definition in_store (p : prop) (s : store) : Prop := exists t, In t s /\ In p (snd t).
Definition property_of (l : lnk) (p : prop) : Prop :=
  (exists items i s, l_items l = Some items /\ In i items /\ i_data i = IUsers s /\ in_store p s) \/
  (exists b, In b (l_blocks l) /\ b_signature b = 0xa0000009 /\ in_store p (b_store b)).

(** Texts below their numbers, from [i] on. *)
Inductive with_numbers (title : str) : Z -> list str -> str -> Prop :=
| wn_nil i : with_numbers title i [] []
| wn_cons i t l s : with_numbers title (i + 1) l s -> with_numbers title i (t :: l) (title ++ fmt_d i ++ [10] ++ t ++ s).

(** The bits of the data flags that are shown. *)
Definition shown_bits : list Z := [0; 2; 3; 4; 5; 6; 9; 14; 18].

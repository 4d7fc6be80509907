(** What readers read. *)

From Verif Require Import Base BaseFacts SeqSpec RdModel.

(** [r] reads exactly the values [a] that are stored as bytes [d] with [e a d]. All its errors are
    ParseError. *)
Definition reads {A} (r : reader A) (e : A -> bytes -> Prop) : Prop :=
  forall content pos, is_bytes content -> 0 <= pos <= len content ->
    (forall a p, r content pos = Ok (a, p) <-> exists d, e a d /\ stored_at content pos d /\ p = pos + len d) /\
    (forall x, r content pos = Err x -> x = ParseError).

(** Behind the end of the file nothing can be read. *)
Definition solid {A} (r : reader A) : Prop :=
  forall content pos, len content < pos -> r content pos = Err ParseError.

(** Vocabulary of the specifications of the smaller formats. *)

From Verif Require Import Base BaseFacts.

(** [d] is stored at offset [off]. *)
Definition stored_at (content : bytes) (off : Z) (d : bytes) : Prop :=
  exists pre post, content = pre ++ d ++ post /\ len pre = off.

(** A list of integers, one after the other. *)
Definition enc_ints (k : fkind) (l : list Z) : bytes := concat (map (fun z => enc_field k (VI z)) l).

(** The integers can be stored in members of that kind. *)
Definition ints_ok (k : fkind) (l : list Z) : Prop := Forall (fun z => fval_ok k (VI z)) l.

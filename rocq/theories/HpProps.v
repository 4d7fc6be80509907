(** Properties of the order in which scripts/unified_logging.py shows log entries. *)

From Verif Require Import Base HpModel HpProofs.
From Coq Require Import Permutation Sorted.

(** *** C107: log entries are shown in the order of their timestamps *)

(** Every log entry is shown as often as it was read, and none before one with a smaller timestamp. *)
Theorem C107_sorted : forall (A : Type) (key : A -> Z) l, Permutation (sort_entries key l) l /\ StronglySorted (fun a b => key a <= key b) (sort_entries key l).
Proof. exact sort_ok. Qed.
Print Assumptions C107_sorted.

Lemma sorted_unique {A} (key : A -> Z) l : forall l', NoDup (map key l) -> Permutation l l' -> StronglySorted (fun a b => key a <= key b) l -> StronglySorted (fun a b => key a <= key b) l' -> l = l'.
Proof.
  induction l as [|a l IH]; intros l' N P S S'; [apply Permutation_nil in P; congruence|]. destruct l' as [|b l']; [symmetry in P; apply Permutation_nil in P; discriminate|].
  inversion S as [|? ? S1 F1]; subst. inversion S' as [|? ? S2 F2]; subst. inversion N as [|? ? N1 N2]; subst.
  assert (a = b) as <-.
  { pose proof (Permutation_in a P (or_introl eq_refl)) as Ia. pose proof (Permutation_in b (Permutation_sym P) (or_introl eq_refl)) as Ib. destruct Ib as [->|Ib]; [reflexivity|]. destruct Ia as [->|Ia]; [reflexivity|].
    exfalso. rewrite Forall_forall in F1, F2. pose proof (F1 _ Ib). pose proof (F2 _ Ia). apply N1. replace (key a) with (key b) by lia. apply in_map, Ib. }
  f_equal. apply IH; try assumption. eapply Permutation_cons_inv; exact P.
Qed.

(** If no two log entries have the same timestamp then the order in which they are read does not matter. *)
Theorem C107_unique : forall (A : Type) (key : A -> Z) l l', NoDup (map key l) -> Permutation l l' -> sort_entries key l = sort_entries key l'.
Proof.
  intros A key l l' N P. destruct (sort_ok A key l) as [P1 S1]. destruct (sort_ok A key l') as [P2 S2]. eapply sorted_unique; [| |exact S1|exact S2].
  - eapply Permutation_NoDup; [|exact N]. apply Permutation_map. now symmetry.
  - rewrite P1, P2. exact P.
Qed.
Print Assumptions C107_unique.

(** Log entries with the same timestamp are not shown in the order of the file. *)
Theorem C107_stable_refuted : sort_entries fst [(5, 1); (5, 2); (5, 3); (5, 4)] = [(5, 1); (5, 3); (5, 2); (5, 4)].
Proof. vm_compute. reflexivity. Qed.
Print Assumptions C107_stable_refuted.

Example C107_case : sort_entries (fun z => z) [3; 9; -1; 4; 4; 7; 0; 2; 8] = [-1; 0; 2; 3; 4; 4; 7; 8; 9].
Proof. vm_compute. reflexivity. Qed.

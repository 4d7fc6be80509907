(** Following references: a partial step function either ends or runs into a cycle. *)

From Verif Require Import Base.
From Coq Require Import ListDec.

Fixpoint steps {A} (n : nat) (step : A -> option A) (x : A) : option A :=
  match n with
  | O => Some x
  | S n => match step x with None => None | Some y => steps n step y end
  end.

(** A place is reached that is reached again from itself. *)
Definition cyclic {A} (step : A -> option A) (x : A) : Prop :=
  exists a b y, steps a step x = Some y /\ steps (S b) step y = Some y.

Lemma steps_add {A} (step : A -> option A) a b : forall x, steps (a + b) step x = match steps a step x with None => None | Some y => steps b step y end.
Proof. induction a as [|a IH]; intros x; cbn [Nat.add steps]; [reflexivity|]. destruct (step x); [apply IH|reflexivity]. Qed.

Lemma steps_none {A} (step : A -> option A) a b x : steps a step x = None -> (a <= b)%nat -> steps b step x = None.
Proof. intros H L. replace b with (a + (b - a))%nat by lia. rewrite steps_add, H. reflexivity. Qed.

Lemma cyclic_never {A} (step : A -> option A) x : cyclic step x -> forall n, steps n step x <> None.
Proof.
  intros (a & b & y & E1 & E2) n.
  assert (G : forall k, steps (k * S b) step y = Some y).
  { induction k as [|k IH]; [reflexivity|]. cbn [Nat.mul]. rewrite steps_add, E2. exact IH. }
  intros E. assert (F : steps (a + n * S b) step x = Some y) by (rewrite steps_add, E1; apply G).
  rewrite (steps_none step n (a + n * S b) x E) in F; [discriminate|]. nia.
Qed.

(** The places visited by [n] steps. *)
Fixpoint visited {A} (n : nat) (step : A -> option A) (x : A) : list A :=
  match n with
  | O => []
  | S n => match step x with None => [] | Some y => x :: visited n step y end
  end.

Lemma visited_length {A} (step : A -> option A) n : forall x, steps n step x <> None -> length (visited n step x) = n.
Proof.
  induction n as [|n IH]; intros x H; [reflexivity|]. cbn [steps visited] in *. destruct (step x); [|contradiction].
  cbn [length]. rewrite IH by exact H. reflexivity.
Qed.

Lemma visited_nth {A} (step : A -> option A) n : forall x i y, nth_error (visited n step x) i = Some y -> steps i step x = Some y.
Proof.
  induction n as [|n IH]; intros x i y; cbn [visited]; [destruct i; discriminate|].
  destruct (step x) eqn:E; [|destruct i; discriminate]. destruct i as [|i]; cbn [nth_error steps]; [congruence|]. rewrite E. apply IH.
Qed.

Lemma visited_in {A} (step : A -> option A) (I P : A -> Prop) : (forall x y, I x -> step x = Some y -> P x /\ I y) ->
  forall n x, I x -> Forall P (visited n step x).
Proof.
  intros H. induction n as [|n IH]; intros x Ix; cbn [visited]; [constructor|]. destruct (step x) eqn:E; constructor; destruct (H _ _ Ix E); eauto.
Qed.

Lemma not_nodup (l : list Z) : ~ NoDup l -> exists y l1 l2 l3, l = l1 ++ y :: l2 ++ y :: l3.
Proof.
  induction l as [|x l IH]; intros H; [exfalso; apply H; constructor|]. destruct (in_dec Z.eq_dec x l) as [I|I].
  - apply in_split in I as (l2 & l3 & ->). exists x, [], l2, l3. reflexivity.
  - destruct IH as (y & l1 & l2 & l3 & ->); [intros D; apply H; constructor; assumption|]. exists y, (x :: l1), l2, l3. reflexivity.
Qed.

(** When all reached places that have a successor are inside [0, N) then following them ends after at
    most [N] steps or is cyclic. *)
Lemma steps_end (step : Z -> option Z) (I : Z -> Prop) N x : (forall x y, I x -> step x = Some y -> 0 <= x < Z.of_nat N /\ I y) -> I x ->
  steps (S N) step x = None \/ cyclic step x.
Proof.
  intros H Ix. destruct (steps (S N) step x) eqn:E; [|left; reflexivity]. right.
  pose proof (visited_length step (S N) x ltac:(congruence)) as L.
  pose proof (visited_in step _ _ H (S N) x Ix) as F. set (l := visited (S N) step x) in *.
  destruct (NoDup_dec Z.eq_dec l) as [D|D].
  - exfalso. apply NoDup_incl_length with (l' := map Z.of_nat (seq 0 N)) in D.
    + rewrite map_length, seq_length in D. lia.
    + intros y Iy. rewrite Forall_forall in F. apply F in Iy. apply in_map_iff. exists (Z.to_nat y). split; [lia|]. apply in_seq. lia.
  - apply not_nodup in D. destruct D as (y & l1 & l2 & l3 & El). exists (length l1), (length l2), y.
    assert (E1 : steps (length l1) step x = Some y).
    { apply (visited_nth step (S N)). fold l. rewrite El, nth_error_app2, Nat.sub_diag by lia. reflexivity. }
    split; [exact E1|].
    assert (E2 : steps (length l1 + S (length l2)) step x = Some y).
    { apply (visited_nth step (S N)). fold l. rewrite El, nth_error_app2 by lia. replace (length l1 + S (length l2) - length l1)%nat with (S (length l2)) by lia.
      cbn [nth_error]. rewrite nth_error_app2, Nat.sub_diag by lia. reflexivity. }
    rewrite steps_add, E1 in E2. exact E2.
Qed.

(** Python dictionaries in insertion order, and sequencing of bounded loops. *)

From Verif Require Import Base BaseFacts CoreModel.

Definition dict (A : Type) := list (Z * A).

(** [d[k] = v]: an existing key keeps its place. *)
Fixpoint dict_set {A} (k : Z) (v : A) (t : dict A) : dict A :=
  match t with
  | [] => [(k, v)]
  | (k', v') :: r => if k' =? k then (k, v) :: r else (k', v') :: dict_set k v r
  end.

(** [d.get(k)]. *)
Fixpoint dict_get {A} (k : Z) (t : dict A) : option A :=
  match t with
  | [] => None
  | (k', v') :: r => if k' =? k then Some v' else dict_get k r
  end.

(** Dictionaries with strings as keys. *)
Definition sdict (A : Type) := list (str * A).

Fixpoint sdict_set {A} (k : str) (v : A) (t : sdict A) : sdict A :=
  match t with
  | [] => [(k, v)]
  | (k', v') :: r => if list_eqb k' k then (k, v) :: r else (k', v') :: sdict_set k v r
  end.

Fixpoint sdict_get {A} (k : str) (t : sdict A) : option A :=
  match t with
  | [] => None
  | (k', v') :: r => if list_eqb k' k then Some v' else sdict_get k r
  end.

(** What is stored under a key after a sequence of assignments: the last one. *)
Definition dict_of {A} (l : list (Z * A)) (t : dict A) : dict A :=
  fold_left (fun t kv => dict_set (fst kv) (snd kv) t) l t.

Definition rbind {A B} (r : run A) (f : A -> run B) : run B :=
  match r with
  | Done (Ok a) => f a
  | Done (Err e) => Done (Err e)
  | OutOfFuel => OutOfFuel
  end.
Notation "'rdo' x <- r ; k" := (rbind r (fun x => k))
  (at level 200, x pattern, r at level 100, k at level 200).

(** ** Facts *)

Lemma dict_get_set {A} k v (t : dict A) k' :
  dict_get k' (dict_set k v t) = if k =? k' then Some v else dict_get k' t.
Proof.
  induction t as [|[k1 v1] r IH]; cbn [dict_set dict_get]; [reflexivity|].
  destruct (Z.eqb_spec k1 k) as [->|N]; cbn [dict_get].
  - destruct (k =? k'); reflexivity.
  - rewrite IH. destruct (Z.eqb_spec k1 k') as [->|]; [|reflexivity].
    destruct (Z.eqb_spec k k'); [congruence|reflexivity].
Qed.

Lemma sdict_get_set {A} k v (t : sdict A) k' :
  sdict_get k' (sdict_set k v t) = if list_eqb k k' then Some v else sdict_get k' t.
Proof.
  induction t as [|[k1 v1] r IH]; cbn [sdict_set sdict_get]; [reflexivity|].
  destruct (list_eqb k1 k) eqn:E; cbn [sdict_get].
  - apply list_eqb_eq in E. subst. destruct (list_eqb k k'); reflexivity.
  - rewrite IH. destruct (list_eqb k1 k') eqn:E3; [|reflexivity].
    destruct (list_eqb k k') eqn:E2; [|reflexivity].
    apply list_eqb_eq in E2, E3. subst. rewrite list_eqb_refl in E. discriminate.
Qed.

(** The last assignment of a key counts. *)
Lemma dict_of_last {A} (l : list (Z * A)) t pre k v post :
  l = pre ++ (k, v) :: post -> ~ In k (map fst post) -> dict_get k (dict_of l t) = Some v.
Proof.
  intros -> N. unfold dict_of. rewrite fold_left_app. cbn [fold_left fst snd].
  generalize (fold_left (fun t kv => dict_set (fst kv) (snd kv) t) pre t). intros t'.
  assert (E : dict_get k (dict_set k v t') = Some v) by (rewrite dict_get_set, Z.eqb_refl; reflexivity).
  revert E. generalize (dict_set k v t'). clear t'. revert N.
  induction post as [|[k1 v1] post IH]; intros N t' E; cbn [fold_left fst snd]; [exact E|].
  apply IH; [intros H; apply N; right; exact H|]. rewrite dict_get_set.
  destruct (Z.eqb_spec k1 k) as [->|]; [exfalso; apply N; left; reflexivity|exact E].
Qed.

Lemma dict_of_other {A} (l : list (Z * A)) t k :
  ~ In k (map fst l) -> dict_get k (dict_of l t) = dict_get k t.
Proof.
  unfold dict_of. revert t. induction l as [|[k1 v1] l IH]; intros t N; cbn [fold_left fst snd]; [reflexivity|].
  rewrite IH by (intros H; apply N; right; exact H). rewrite dict_get_set.
  destruct (Z.eqb_spec k1 k) as [->|]; [exfalso; apply N; left; reflexivity|reflexivity].
Qed.

Lemma dict_of_app {A} (a b : list (Z * A)) t : dict_of (a ++ b) t = dict_of b (dict_of a t).
Proof. apply fold_left_app. Qed.

Lemma dict_of_inv {A} (l : list (Z * A)) t k v :
  dict_get k (dict_of l t) = Some v -> In (k, v) l \/ dict_get k t = Some v.
Proof.
  unfold dict_of. revert t. induction l as [|[k1 v1] l IH]; intros t H; cbn [fold_left fst snd] in H; [right; exact H|].
  destruct (IH _ H) as [C|C]; [left; right; exact C|]. rewrite dict_get_set in C.
  destruct (Z.eqb_spec k1 k) as [->|]; [left; left; congruence|right; exact C].
Qed.

Lemma dict_set_keys {A} k v (t : dict A) k' : In k' (map fst (dict_set k v t)) <-> k' = k \/ In k' (map fst t).
Proof.
  induction t as [|[k1 v1] t IH]; cbn [dict_set map fst In].
  - split; [intros [H|[]]; left; congruence|intros [->|[]]; left; reflexivity].
  - destruct (Z.eqb_spec k1 k) as [->|N]; cbn [map fst In].
    + split; [intros [H|H]; [left; congruence|right; right; exact H]|intros [->|[H|H]]; [left; reflexivity|left; exact H|right; exact H]].
    + rewrite IH. tauto.
Qed.

Lemma dict_set_nodup {A} k v (t : dict A) : NoDup (map fst t) -> NoDup (map fst (dict_set k v t)).
Proof.
  induction t as [|[k1 v1] t IH]; intros H; cbn [dict_set map fst].
  - constructor; [intros []|constructor].
  - cbn [map fst] in H. apply NoDup_cons_iff in H. destruct H as [H1 H2].
    destruct (Z.eqb_spec k1 k) as [->|N]; cbn [map fst]; constructor; [exact H1|exact H2| |exact (IH H2)].
    rewrite dict_set_keys. intros [->|C]; [apply N; reflexivity|exact (H1 C)].
Qed.

Lemma dict_of_keys {A} (l : list (Z * A)) t k : In k (map fst (dict_of l t)) <-> In k (map fst l) \/ In k (map fst t).
Proof.
  unfold dict_of. revert t. induction l as [|[k1 v1] l IH]; intros t; cbn [fold_left fst snd map In]; [tauto|].
  rewrite IH, dict_set_keys. split; [intros [H|[->|H]]; tauto|intros [[H|H]|H]; [right; left; congruence|left; exact H|right; right; exact H]].
Qed.

Lemma dict_of_nodup {A} (l : list (Z * A)) t : NoDup (map fst t) -> NoDup (map fst (dict_of l t)).
Proof.
  unfold dict_of. revert t. induction l as [|[k1 v1] l IH]; intros t H; cbn [fold_left fst snd]; [exact H|].
  apply IH, dict_set_nodup, H.
Qed.

(** A dictionary has an entry for every key that was assigned. *)
Lemma dict_of_length {A} (l : list (Z * A)) : length (dict_of l []) = length (nodup Z.eq_dec (map fst l)).
Proof.
  rewrite <- (map_length fst (dict_of l [])). apply Nat.le_antisymm.
  - apply NoDup_incl_length; [apply dict_of_nodup; constructor|]. intros k H. apply dict_of_keys in H.
    destruct H as [H|[]]. apply nodup_In. exact H.
  - apply NoDup_incl_length; [apply NoDup_nodup|]. intros k H. apply nodup_In in H. apply dict_of_keys. left. exact H.
Qed.

Lemma dict_get_none {A} (t : dict A) k : ~ In k (map fst t) -> dict_get k t = None.
Proof.
  induction t as [|[k1 v1] t IH]; intros N; [reflexivity|]. cbn [dict_get map fst In] in *.
  destruct (Z.eqb_spec k1 k); [tauto|]. apply IH. tauto.
Qed.

Lemma dict_get_some {A} (t : dict A) k : In k (map fst t) -> exists v, dict_get k t = Some v.
Proof.
  induction t as [|[k1 v1] t IH]; intros H; [destruct H|]. cbn [dict_get map fst In] in *.
  destruct (Z.eqb_spec k1 k); [exists v1; reflexivity|]. apply IH. tauto.
Qed.

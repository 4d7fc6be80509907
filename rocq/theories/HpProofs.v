From Verif Require Import Base HpModel.
From Coq Require Import Permutation Sorted Arith.

Section Facts.
  Variable A : Type.
  Variable key : A -> Z.

  Local Notation "h '#' i" := (nth_error h i) (at level 50).

  Lemma put_length (h : list A) i x : length (put h i x) = length h.
  Proof. revert i. induction h as [|a h IH]; intros [|i]; cbn [put length]; auto. Qed.

  Lemma put_same (h : list A) i x : (i < length h)%nat -> put h i x # i = Some x.
  Proof. revert i. induction h as [|a h IH]; intros [|i] L; cbn [length] in L; try lia; [reflexivity|]. cbn [put nth_error]. apply IH. lia. Qed.

  Lemma put_other (h : list A) i j x : i <> j -> put h i x # j = h # j.
  Proof. revert i j. induction h as [|a h IH]; intros [|i] [|j] N; cbn [put nth_error]; try congruence; try reflexivity. apply IH. congruence. Qed.

  Lemma put_app (a : list A) u b x : put (a ++ u :: b) (length a) x = a ++ x :: b.
  Proof. induction a as [|y a IH]; [reflexivity|]. cbn [app length put]. now rewrite IH. Qed.

  Lemma put_put (h : list A) i x y : put (put h i x) i y = put h i y.
  Proof. revert i. induction h as [|a h IH]; intros [|i]; cbn [put]; [reflexivity|reflexivity|reflexivity|]. now rewrite IH. Qed.

  Lemma put_perm (h : list A) i x u : h # i = Some u -> Permutation (u :: put h i x) (x :: h).
  Proof.
    intros E. apply nth_error_split in E as (a & b & -> & <-). rewrite put_app. 
    transitivity (u :: x :: a ++ b); [apply perm_skip; symmetry; apply Permutation_middle|]. transitivity (x :: u :: a ++ b); [apply perm_swap|]. apply perm_skip, Permutation_middle.
  Qed.

  (** Moving the item at [j] to the hole at [i]. *)
  Lemma move_perm (h : list A) i j x v : i <> j -> (i < length h)%nat -> h # j = Some v -> Permutation (put (put h i v) j x) (put h i x).
  Proof.
    intros N Li E. destruct (h # i) as [u|] eqn:Ei; [|apply nth_error_None in Ei; lia].
    assert (E2 : put h i v # j = Some v) by (rewrite put_other by exact N; exact E).
    pose proof (put_perm (put h i v) j x v E2) as P1. pose proof (put_perm h i v u Ei) as P2. pose proof (put_perm h i x u Ei) as P3.
    apply (Permutation_cons_inv (a := v)). apply (Permutation_cons_inv (a := u)).
    transitivity (u :: x :: put h i v); [apply perm_skip, P1|]. transitivity (x :: u :: put h i v); [apply perm_swap|]. transitivity (x :: v :: h); [apply perm_skip, P2|].
    transitivity (v :: x :: h); [apply perm_swap|]. transitivity (v :: u :: put h i x); [apply perm_skip; symmetry; exact P3|]. apply perm_swap.
  Qed.

  Definition is_heap (h : list A) : Prop := forall i a b, (0 < i)%nat -> h # parent i = Some a -> h # i = Some b -> key a <= key b.

  (** A heap but for the item at [pos]. *)
  Definition hole (h : list A) (pos : nat) : Prop :=
    (forall i a b, (0 < i)%nat -> i <> pos -> parent i <> pos -> h # parent i = Some a -> h # i = Some b -> key a <= key b) /\
    (forall i a b, (0 < i)%nat -> (0 < pos)%nat -> parent i = pos -> h # parent pos = Some a -> h # i = Some b -> key a <= key b).

  Lemma parent_lt i : (0 < i)%nat -> (parent i < i)%nat.
  Proof. intros H. unfold parent. apply Nat.div_lt_upper_bound; lia. Qed.

  Lemma parent_child i : (parent (2 * i + 1) = i)%nat /\ (parent (2 * i + 1 + 1) = i)%nat.
  Proof. unfold parent. split; symmetry; [apply Nat.div_unique with 0%nat|apply Nat.div_unique with 1%nat]; lia. Qed.

  Lemma children i p : (0 < i)%nat -> parent i = p -> (i = 2 * p + 1 \/ i = 2 * p + 1 + 1)%nat.
  Proof. unfold parent. intros H <-. pose proof (Nat.div_mod (i - 1) 2 ltac:(lia)). pose proof (Nat.mod_upper_bound (i - 1) 2 ltac:(lia)). lia. Qed.

  Lemma siftdown_ok fuel : forall h pos x, (pos <= fuel)%nat -> (pos < length h)%nat -> hole h pos -> (forall i b, (0 < i)%nat -> parent i = pos -> h # i = Some b -> key x <= key b) ->
    is_heap (siftdown key fuel h pos x) /\ Permutation (siftdown key fuel h pos x) (put h pos x).
  Proof.
    assert (Stop : forall h pos x, (pos < length h)%nat -> hole h pos -> (forall i b, (0 < i)%nat -> parent i = pos -> h # i = Some b -> key x <= key b) ->
      (forall p, (0 < pos)%nat -> h # parent pos = Some p -> key p <= key x) -> is_heap (put h pos x)).
    { intros h pos x L [H1 H2] H3 H4 i a b Hi Ea Eb. destruct (Nat.eq_dec i pos) as [->|N].
      - rewrite put_same in Eb by exact L. injection Eb as <-. rewrite put_other in Ea by (pose proof (parent_lt pos Hi); lia). apply H4; assumption.
      - rewrite put_other in Eb by congruence. destruct (Nat.eq_dec (parent i) pos) as [E|Np].
        + rewrite E, put_same in Ea by exact L. injection Ea as <-. eapply H3; eassumption.
        + rewrite put_other in Ea by congruence. eapply H1; eassumption. }
    induction fuel as [|fuel IH]; intros h pos x Lf L H H3; cbn [siftdown].
    - split; [|reflexivity]. apply Stop; try assumption. lia.
    - destruct (Nat.ltb_spec 0 pos) as [Hp|Hp]; [|split; [|reflexivity]; apply Stop; try assumption; lia].
      pose proof (parent_lt pos Hp) as Pl. destruct (h # parent pos) as [p|] eqn:E; [|apply nth_error_None in E; lia].
      unfold less. destruct (Z.ltb_spec (key x) (key p)) as [Lt|Ge].
      2:{ split; [|reflexivity]. apply Stop; try assumption. intros p' _ E'. rewrite E in E'. injection E' as <-. exact Ge. }
      destruct H as [H1 H2].
      destruct (IH (put h pos p) (parent pos) x) as [I1 I2]; [lia|rewrite put_length; lia| | |].
      + split.
        * intros i a b Hi N1 N2 Ea Eb. destruct (Nat.eq_dec i pos) as [->|N]; [congruence|]. rewrite put_other in Eb by congruence.
          destruct (Nat.eq_dec (parent i) pos) as [E2|Np].
          -- rewrite E2, put_same in Ea by exact L. injection Ea as <-. eapply H2; eassumption.
          -- rewrite put_other in Ea by congruence. eapply H1; eassumption.
        * intros i a b Hi Hpp Ei Ea Eb. rewrite put_other in Ea by (pose proof (parent_lt (parent pos) Hpp); lia).
          assert (K : key a <= key p). { apply (H1 (parent pos)); try assumption; [lia|pose proof (parent_lt (parent pos) Hpp); lia]. }
          destruct (Nat.eq_dec i pos) as [->|N]; [rewrite put_same in Eb by exact L; injection Eb as <-; exact K|]. rewrite put_other in Eb by congruence.
          assert (key p <= key b); [|lia]. apply (H1 i); try assumption; [lia|congruence].
      + intros i b Hi Ei Eb. destruct (Nat.eq_dec i pos) as [->|N]; [rewrite put_same in Eb by exact L; injection Eb as <-; lia|]. rewrite put_other in Eb by congruence.
        assert (key p <= key b); [|lia]. apply (H1 i); try assumption; [lia|congruence].
      + split; [exact I1|]. rewrite I2. apply move_perm; [lia|exact L|exact E].
  Qed.

  Lemma siftup_ok fuel : forall h pos x, (length h <= pos + fuel)%nat -> (pos < length h)%nat -> hole h pos ->
    is_heap (siftup key fuel h pos x) /\ Permutation (siftup key fuel h pos x) (put h pos x).
  Proof.
    assert (Leaf : forall h pos x, (pos < length h)%nat -> hole h pos -> h # (2 * pos + 1) = None -> is_heap (siftdown key pos h pos x) /\ Permutation (siftdown key pos h pos x) (put h pos x)).
    { intros h pos x L H E. apply siftdown_ok; [lia|exact L|exact H|]. intros i b Hi Ei Eb. exfalso. apply nth_error_None in E. apply children in Ei; [|exact Hi].
      assert (i < length h)%nat by (apply nth_error_Some; congruence). lia. }
    assert (Step : forall h pos c v, (pos < length h)%nat -> hole h pos -> (0 < c)%nat -> parent c = pos -> h # c = Some v -> (forall i b, (0 < i)%nat -> parent i = pos -> h # i = Some b -> key v <= key b) -> hole (put h pos v) c).
    { intros h pos c v L [H1 H2] Hc Pc Ec Min. pose proof (parent_lt c Hc) as Lc. split.
      - intros i a b Hi N1 N2 Ea Eb. destruct (Nat.eq_dec i pos) as [->|N].
        + rewrite put_same in Eb by exact L. injection Eb as <-. rewrite put_other in Ea by (pose proof (parent_lt pos Hi); lia). apply (H2 c); assumption.
        + rewrite put_other in Eb by congruence. destruct (Nat.eq_dec (parent i) pos) as [E|Np].
          * rewrite E, put_same in Ea by exact L. injection Ea as <-. apply (Min i); assumption.
          * rewrite put_other in Ea by congruence. eapply H1; eassumption.
      - intros i a b Hi _ Ei Ea Eb. rewrite Pc, put_same in Ea by exact L. injection Ea as <-. pose proof (parent_lt i Hi). rewrite put_other in Eb by lia.
        apply (H1 i); try assumption; [lia|lia|]. now rewrite Ei. }
    induction fuel as [|fuel IH]; intros h pos x Lf L H; cbn [siftup]; [lia|]. cbv zeta.
    destruct (parent_child pos) as [P1 P2].
    destruct (h # (2 * pos + 1)) as [c|] eqn:Ec; [|apply Leaf; assumption]. assert (Lc : (2 * pos + 1 < length h)%nat) by (apply nth_error_Some; congruence).
    assert (Go : forall j v, (pos < j)%nat -> (j < length h)%nat -> parent j = pos -> h # j = Some v -> (forall i b, (0 < i)%nat -> parent i = pos -> h # i = Some b -> key v <= key b) ->
      is_heap (siftup key fuel (put h pos v) j x) /\ Permutation (siftup key fuel (put h pos v) j x) (put h pos x)).
    { intros j v Lj Lj2 Pj Ej Min. destruct (IH (put h pos v) j x) as [I1 I2]; [rewrite put_length; lia|rewrite put_length; lia| |].
      - apply Step; try assumption. lia.
      - split; [exact I1|]. rewrite I2. apply move_perm; [lia|exact L|exact Ej]. }
    destruct (h # (2 * pos + 1 + 1)) as [r|] eqn:Er.
    - assert (Lr : (2 * pos + 1 + 1 < length h)%nat) by (apply nth_error_Some; congruence). unfold less. destruct (Z.ltb_spec (key c) (key r)) as [Lt|Ge].
      + apply Go; try assumption; [lia|]. intros i b Hi Ei Eb. destruct (children i pos Hi Ei) as [->| ->]; [rewrite Ec in Eb|rewrite Er in Eb]; injection Eb as <-; lia.
      + apply Go; try assumption; [lia|]. intros i b Hi Ei Eb. destruct (children i pos Hi Ei) as [->| ->]; [rewrite Ec in Eb|rewrite Er in Eb]; injection Eb as <-; lia.
    - apply Go; try assumption; [lia|]. intros i b Hi Ei Eb. destruct (children i pos Hi Ei) as [->| ->]; [rewrite Ec in Eb|rewrite Er in Eb]; [injection Eb as <-; lia|discriminate].
  Qed.

  Lemma push_ok h x : is_heap h -> is_heap (heappush key h x) /\ Permutation (heappush key h x) (h ++ [x]).
  Proof.
    intros H. unfold heappush. assert (E : put (h ++ [x]) (length h) x = h ++ [x]) by apply put_app. rewrite <- E at 3.
    assert (No : forall i, (length h < i)%nat -> (h ++ [x]) # i = None). { intros i Hi. apply nth_error_None. rewrite app_length. cbn. lia. }
    apply siftdown_ok; [lia|rewrite app_length; cbn; lia| |].
    - split.
      + intros i a b Hi N1 N2 Ea Eb. destruct (Nat.lt_ge_cases i (length h)) as [L|L]; [|rewrite No in Eb by lia; discriminate]. pose proof (parent_lt i Hi).
        rewrite nth_error_app1 in Ea, Eb by lia. eapply H; eassumption.
      + intros i a b Hi Hp Ei Ea Eb. pose proof (parent_lt i Hi). rewrite No in Eb by lia. discriminate.
    - intros i b Hi Ei Eb. pose proof (parent_lt i Hi). rewrite No in Eb by lia. discriminate.
  Qed.

  Lemma root_min h a : is_heap h -> h # 0 = Some a -> Forall (fun b => key a <= key b) h.
  Proof.
    intros H E. apply Forall_forall. intros b Hb. apply In_nth_error in Hb as [i Ei]. revert b Ei. induction i as [i IH] using lt_wf_ind. intros b Ei.
    destruct (Nat.eq_dec i 0) as [->|N]; [replace b with a by congruence; lia|]. assert (Hi : (0 < i)%nat) by lia. pose proof (parent_lt i Hi) as L.
    assert (i < length h)%nat by (apply nth_error_Some; congruence). destruct (h # parent i) as [p|] eqn:Ep; [|apply nth_error_None in Ep; lia].
    pose proof (IH _ L _ Ep). pose proof (H i p b Hi Ep Ei). lia.
  Qed.

  Lemma pop_ok h x h' : is_heap h -> heappop key h = Some (x, h') -> is_heap h' /\ Permutation (x :: h') h /\ Forall (fun b => key x <= key b) h'.
  Proof.
    intros H. unfold heappop. destruct (rev h) as [|last r] eqn:R; [discriminate|]. assert (Eh : h = rev r ++ [last]) by (rewrite <- (rev_involutive h), R; reflexivity).
    set (l := rev r) in *. destruct l as [|first l'] eqn:El.
    - intros [= <- <-]. rewrite Eh. split; [intros i a b _ Ea; destruct (parent i); discriminate|]. split; [reflexivity|constructor].
    - intros [= <- <-]. pose proof (root_min h first H) as M. rewrite Eh in M. specialize (M eq_refl).
      assert (Hh : is_heap (first :: l')). { intros i a b Hi Ea Eb. apply (H i a b Hi); rewrite Eh, nth_error_app1; try assumption; apply nth_error_Some; congruence. }
      destruct (siftup_ok (length (first :: l')) (put (first :: l') 0 last) 0 last) as [S1 S2]; [rewrite put_length; lia|cbn; lia| |].
      { split; [|lia]. intros i a b Hi N1 N2 Ea Eb. rewrite put_other in Ea, Eb by congruence. eapply Hh; eassumption. }
      rewrite put_put in S2. cbn [put] in S2.
      assert (P : Permutation (first :: siftup key (length (first :: l')) (put (first :: l') 0 last) 0 last) h).
      { rewrite S2, Eh. cbn [app]. apply perm_skip. apply (Permutation_app_comm [last] l'). }
      split; [exact S1|]. split; [exact P|]. rewrite Eh in P. apply Forall_forall. intros b Hb. rewrite Forall_forall in M. apply M. eapply Permutation_in; [exact P|]. right. exact Hb.
  Qed.

  Lemma pop_none h : heappop key h = None -> h = [].
  Proof. unfold heappop. destruct (rev h) as [|last r] eqn:R; [intros _; rewrite <- (rev_involutive h), R; reflexivity|]. destruct (rev r); discriminate. Qed.

  Lemma pop_all_ok fuel : forall h, is_heap h -> length h = fuel -> Permutation (pop_all key fuel h) h /\ StronglySorted (fun a b => key a <= key b) (pop_all key fuel h).
  Proof.
    induction fuel as [|fuel IH]; intros h H L; cbn [pop_all].
    - destruct h; [|discriminate]. split; constructor.
    - destruct (heappop key h) as [[x h']|] eqn:E; [|apply pop_none in E; subst h; discriminate]. destruct (pop_ok h x h' H E) as (H' & P & M).
      pose proof (Permutation_length P) as Lp. cbn [length] in Lp. destruct (IH h' H' ltac:(lia)) as [I1 I2]. split.
      + rewrite I1. exact P.
      + constructor; [exact I2|]. apply Forall_forall. intros b Hb. rewrite Forall_forall in M. apply M. eapply Permutation_in; eassumption.
  Qed.

  Lemma push_all l : forall h, is_heap h -> is_heap (fold_left (heappush key) l h) /\ Permutation (fold_left (heappush key) l h) (h ++ l).
  Proof.
    induction l as [|x l IH]; intros h H; cbn [fold_left]; [rewrite app_nil_r; split; [exact H|reflexivity]|]. destruct (push_ok h x H) as [P1 P2]. destruct (IH _ P1) as [I1 I2]. split; [exact I1|].
    rewrite I2, P2. now rewrite <- app_assoc.
  Qed.

  Lemma sort_ok l : Permutation (sort_entries key l) l /\ StronglySorted (fun a b => key a <= key b) (sort_entries key l).
  Proof.
    unfold sort_entries. destruct (push_all l []) as [H P]; [intros i a b _ E; destruct (parent i); discriminate|]. destruct (pop_all_ok _ _ H eq_refl) as [Q S]. split; [|exact S]. rewrite Q. exact P.
  Qed.
End Facts.

(** Proofs about the class value data maps of a WMI repository. *)

From Verif Require Import Base BaseFacts CoreModel StrModel DictModel WcdModel WcdSpec WcdProofs WcmModel WcmSpec.

Lemma type_size_iff t n : type_size t = n <-> value_size t n.
Proof.
  assert (E : value_size t (type_size t)).
  { unfold type_size, type_sizes. cbn [dict_get].
    repeat match goal with |- context [if ?k =? t then _ else _] => destruct (Z.eqb_spec k t) as [<-|]; [first [apply vs_1|apply vs_2|apply vs_4|apply vs_8]; cbn; tauto|] end.
    apply vs_offset. cbn. intros H. repeat (destruct H as [H|H]; [congruence|]). exact H. }
  split; [intros <-; exact E|]. intros H.
  assert (U : forall a b, value_size t a -> value_size t b -> a = b).
  { clear. intros a b H1 H2. inversion H1; inversion H2; subst; try reflexivity; cbn in *; lia. }
  exact (U _ _ E H).
Qed.

Lemma float_zero_iff d : float_zero d = true <-> exists n b, d = repeat 0 n ++ [b] /\ (b = 0 \/ b = 128).
Proof.
  unfold float_zero. split.
  - destruct (rev d) as [|b r] eqn:E; [discriminate|]. intros H. apply andb_prop in H. destruct H as [H1 H2].
    exists (length r), b. split; [|lia]. rewrite <- (rev_involutive d), E. cbn [rev].
    f_equal. assert (R : r = repeat 0 (length r)).
    { clear -H1. induction r as [|x r IH]; [reflexivity|]. cbn [forallb length repeat] in *. apply andb_prop in H1. destruct H1 as [Hx Hr]. f_equal; [lia|exact (IH Hr)]. }
    rewrite R. clear. rewrite repeat_length. induction (length r) as [|n IH]; [reflexivity|]. cbn. rewrite IH.
    clear. induction n as [|n IH]; [reflexivity|]. cbn. rewrite IH. reflexivity.
  - intros (n & b & -> & H). rewrite rev_app_distr. cbn. apply andb_true_intro. split; [|lia].
    apply forallb_forall. intros x Hx. apply in_rev in Hx. apply repeat_spec in Hx. subst. reflexivity.
Qed.

Lemma truthy_untyped p : truthy (sdict_get (s2z "type") (p_quals p)) = false <-> untyped p.
Proof.
  unfold truthy, untyped. destruct (sdict_get (s2z "type") (p_quals p)) as [[|b|z|d|s]|]; try tauto.
  - destruct b; split; intros; try discriminate; try tauto; reflexivity.
  - destruct z; split; intros; try discriminate; try tauto; reflexivity.
  - rewrite <- float_zero_iff. destruct (float_zero d); split; intros; try discriminate; reflexivity.
  - destruct s as [|c s]; [split; reflexivity || tauto|]. split; [|tauto]. intros H. unfold len in H. cbn [length] in H. lia.
Qed.

Lemma truthy_typed p s : truthy (sdict_get (s2z "type") (p_quals p)) = true /\ sdict_get (s2z "type") (p_quals p) = Some (QStr s) <-> typed p s.
Proof.
  unfold typed. split.
  - intros [H E]. rewrite E in H. split; [|exact E]. intros ->. discriminate H.
  - intros [N E]. split; [|exact E]. rewrite E. destruct s; [congruence|]. reflexivity.
Qed.

Lemma before_colon_spec s : ~ In 58 (before_colon s) /\ (s = before_colon s \/ exists r, s = before_colon s ++ 58 :: r).
Proof.
  induction s as [|c s [N IH]]; cbn [before_colon]; [split; [tauto|left; reflexivity]|].
  destruct (Z.eqb_spec c 58) as [->|Nc].
  - split; [tauto|]. right. exists s. reflexivity.
  - split; [intros [H|H]; [congruence|tauto]|]. destruct IH as [IH|[r IH]]; [left; congruence|right]. exists r. cbn. congruence.
Qed.

Lemma before_colon_none s : ~ In 58 s -> before_colon s = s.
Proof.
  induction s as [|c s IH]; intros N; [reflexivity|]. cbn. destruct (Z.eqb_spec c 58) as [->|]; [destruct N; left; reflexivity|].
  f_equal. apply IH. intros H. apply N. right. exact H.
Qed.

Lemma before_colon_app t r : ~ In 58 t -> before_colon (t ++ 58 :: r) = t.
Proof.
  induction t as [|c t IH]; intros N; [reflexivity|]. cbn. destruct (Z.eqb_spec c 58) as [->|]; [destruct N; left; reflexivity|].
  f_equal. apply IH. intros H. apply N. right. exact H.
Qed.

Lemma type_name_iff low t : (if existsb (Z.eqb 58) low then before_colon low else low) = t <-> type_name low t.
Proof.
  assert (E : (if existsb (Z.eqb 58) low then before_colon low else low) = before_colon low).
  { destruct (existsb (Z.eqb 58) low) eqn:E; [reflexivity|]. symmetry. apply before_colon_none. intros H.
    assert (existsb (Z.eqb 58) low = true) by (apply existsb_exists; exists 58; split; [exact H|reflexivity]). congruence. }
  rewrite E. split; [intros <-; apply before_colon_spec|].
  intros [N [->|[r ->]]]; [apply before_colon_none; exact N|apply before_colon_app; exact N].
Qed.

(** The first of the maps with the largest offset. *)
Definition bigger (big : option pmap) (m : pmap) : option pmap :=
  match big with Some b => if pm_offset b <? pm_offset m then Some m else Some b | None => Some m end.

Lemma declares_before lower b1 b2 l out : (forall x, In x b1 <-> In x b2) -> declares lower b1 l out -> declares lower b2 l out.
Proof.
  intros E H. revert b2 E. induction H; intros b2 E; constructor; try assumption.
  - apply IHdeclares. intros x. cbn. rewrite E. tauto.
  - apply E. assumption.
  - apply IHdeclares. exact E.
Qed.

Definition keys_of {A} (t : sdict A) := map fst t.

Lemma sdict_get_key {A} k (t : sdict A) : (exists v, sdict_get k t = Some v) <-> In k (map fst t).
Proof.
  induction t as [|[k' v'] t IH]; cbn; [split; [intros [v H]; discriminate|tauto]|].
  destruct (list_eqb k' k) eqn:E.
  - apply list_eqb_eq in E. subst. split; [intros _; left; reflexivity|intros _; exists v'; reflexivity].
  - rewrite IH. split; [tauto|]. intros [->|H]; [rewrite list_eqb_refl in E; discriminate|exact H].
Qed.

Lemma sdict_set_in {A} k (v : A) t x : In x (map fst (sdict_set k v t)) <-> x = k \/ In x (map fst t).
Proof.
  rewrite sdict_set_keys. destruct (existsb (list_eqb k) (map fst t)) eqn:E.
  - apply existsb_In_str in E. split; [tauto|]. intros [->|H]; assumption.
  - rewrite in_app_iff. cbn. split; [intros [H|[H|[]]]; auto|intros [H|H]; auto].
Qed.

Lemma build_props_iff lower l t big t2 big2 :
  build_props lower l t big = Ok (t2, big2) <->
  exists out, declares lower (map fst t) l out /\ t2 = sdict_of out t /\ big2 = fold_left bigger (map snd out) big.
Proof.
  revert t big. induction l as [|[k p] l IH]; intros t big; cbn [build_props].
  - split.
    + intros [= <- <-]. exists []. repeat split. constructor.
    + intros (out & D & -> & ->). inversion D; subst. reflexivity.
  - destruct (truthy (sdict_get (s2z "type") (p_quals p))) eqn:T; cbn [negb].
    + destruct (sdict_get (s2z "type") (p_quals p)) as [[|b|z|d|s]|] eqn:Q.
      5: { assert (Ty : typed p s) by (apply truthy_typed; rewrite Q; auto).
        set (m := mkpm (p_name p) (p_type p) (p_offset p) (type_size (p_type p)) _).
        assert (M : mapped lower p m).
        { repeat split. - apply type_size_iff. reflexivity. - exists s. split; [exact Ty|]. apply type_name_iff. reflexivity. }
        change (match big with Some b => if pm_offset b <? p_offset p then Some m else Some b | None => Some m end) with (bigger big m).
        rewrite IH. split.
        - intros (out & D & E1 & E2). exists ((lower k, m) :: out). split; [|split; assumption].
          apply dc_typed; [exact M|]. refine (declares_before _ _ _ _ _ _ D). intros x. rewrite sdict_set_in. cbn. split; intros [H|H]; auto.
        - intros (out & D & E1 & E2). inversion D as [|bf k0 p0 m0 l0 out0 M0 D0|bf k0 p0 l0 out0 U I D0]; subst.
          + assert (m0 = m).
            { destruct M0 as (A1 & A2 & A3 & A4 & s0 & Ts & A5). destruct Ts as [_ Ts]. rewrite Q in Ts. injection Ts as <-.
              apply type_size_iff in A4. apply type_name_iff in A5. destruct m0. cbn in *. subst. reflexivity. }
            subst m0. exists out0. split; [|split; reflexivity]. refine (declares_before _ _ _ _ _ _ D0).
            intros x. rewrite sdict_set_in. cbn. split; intros [H|H]; auto.
          + apply truthy_untyped in U. rewrite Q in U. congruence. }
      all: split; [discriminate|]; intros (out & D & E1 & E2); exfalso;
        inversion D as [|bf k0 p0 m0 l0 out0 M0 D0|bf k0 p0 l0 out0 U I D0]; subst;
        [destruct M0 as (_ & _ & _ & _ & s0 & [_ Ts] & _); congruence|apply truthy_untyped in U; rewrite Q in U; congruence].
    + assert (U : untyped p) by (apply truthy_untyped; exact T).
      destruct (sdict_get (lower (p_name p)) t) as [v|] eqn:G.
      * rewrite IH. assert (I : In (lower (p_name p)) (map fst t)) by (apply sdict_get_key; exists v; exact G). split.
        -- intros (out & D & E1 & E2). exists out. split; [apply dc_untyped; assumption|split; assumption].
        -- intros (out & D & E1 & E2). exists out. split; [|split; assumption].
           inversion D as [|bf k0 p0 m0 l0 out0 M0 D0|bf k0 p0 l0 out0 U0 I0 D0]; subst; [|exact D0].
           destruct M0 as (_ & _ & _ & _ & s0 & Ts & _). apply truthy_typed in Ts. destruct Ts. congruence.
      * split; [discriminate|]. intros (out & D & E1 & E2). exfalso.
        inversion D as [|bf k0 p0 m0 l0 out0 M0 D0|bf k0 p0 l0 out0 U0 I0 D0]; subst.
        -- destruct M0 as (_ & _ & _ & _ & s0 & Ts & _). apply truthy_typed in Ts. destruct Ts. congruence.
        -- apply sdict_get_key in I0. destruct I0. congruence.
Qed.

Lemma build_props_app lower l1 l2 t big :
  build_props lower (l1 ++ l2) t big = do (t, big) <- build_props lower l1 t big; build_props lower l2 t big.
Proof.
  revert t big. induction l1 as [|[k p] l1 IH]; intros t big; [reflexivity|]. cbn [app build_props].
  destruct (negb _); [destruct (sdict_get (lower (p_name p)) t); [apply IH|reflexivity]|].
  destruct (sdict_get _ _) as [[]|]; try reflexivity. apply IH.
Qed.

Lemma build_classes_concat lower l t big : build_classes lower l t big = build_props lower (concat (map c_props l)) t big.
Proof.
  revert t big. induction l as [|c l IH]; intros t big; [reflexivity|]. cbn [build_classes map concat]. rewrite build_props_app.
  destruct (build_props lower (c_props c) t big) as [[t1 b1]|]; cbn; [apply IH|reflexivity].
Qed.

Definition end_of (big : option pmap) : Z := match big with Some m => pm_offset m + pm_size m | None => 0 end.

Definition first_max (l : list pmap) (m : pmap) : Prop :=
  exists before after, l = before ++ m :: after /\ Forall (fun x => pm_offset x < pm_offset m) before /\ Forall (fun x => pm_offset x <= pm_offset m) after.

Lemma fold_bigger l : match fold_left bigger l None with None => l = [] | Some m => first_max l m end.
Proof.
  induction l as [|x l IH] using rev_ind; [reflexivity|]. rewrite fold_left_app. cbn [fold_left].
  destruct (fold_left bigger l None) as [m|]; cbn [bigger].
  - destruct IH as (b & a & -> & Fb & Fa). destruct (Z.ltb_spec (pm_offset m) (pm_offset x)).
    + exists (b ++ m :: a), []. split; [reflexivity|]. split; [|constructor].
      apply Forall_app. split; [|constructor; [assumption|]].
      * apply (Forall_impl _ (P := fun y => pm_offset y < pm_offset m)); [intros; lia|exact Fb].
      * apply (Forall_impl _ (P := fun y => pm_offset y <= pm_offset m)); [intros; lia|exact Fa].
    + exists b, (a ++ [x]). split; [rewrite <- app_assoc; reflexivity|]. split; [exact Fb|].
      apply Forall_app. split; [exact Fa|]. constructor; [lia|constructor].
  - subst. exists [], []. split; [reflexivity|]. split; constructor.
Qed.

Lemma first_max_unique l m m2 : first_max l m -> first_max l m2 -> m = m2.
Proof.
  intros (b & a & E & Fb & Fa) (b2 & a2 & E2 & Fb2 & Fa2).
  assert (L : length b = length b2).
  { rewrite E in E2. clear E. destruct (Nat.lt_trichotomy (length b) (length b2)) as [H|[H|H]]; [exfalso|exact H|exfalso].
    - assert (N : nth_error (b ++ m :: a) (length b) = Some m) by (rewrite nth_error_app2, Nat.sub_diag; [reflexivity|lia]).
      rewrite E2, nth_error_app1 in N by exact H. apply nth_error_In in N. rewrite Forall_forall in Fb2. specialize (Fb2 _ N).
      assert (N2 : In m2 (b ++ m :: a)) by (rewrite E2; apply in_elt). apply in_app_iff in N2.
      rewrite Forall_forall in Fa, Fb. destruct N2 as [N2|[N2|N2]]; [apply Fb in N2; lia|subst; lia|apply Fa in N2; lia].
    - assert (N : nth_error (b2 ++ m2 :: a2) (length b2) = Some m2) by (rewrite nth_error_app2, Nat.sub_diag; [reflexivity|lia]).
      rewrite <- E2, nth_error_app1 in N by exact H. apply nth_error_In in N. rewrite Forall_forall in Fb. specialize (Fb _ N).
      assert (N2 : In m (b2 ++ m2 :: a2)) by (rewrite <- E2; apply in_elt). apply in_app_iff in N2.
      rewrite Forall_forall in Fa2, Fb2. destruct N2 as [N2|[N2|N2]]; [apply Fb2 in N2; lia|subst; lia|apply Fa2 in N2; lia]. }
  rewrite E in E2. apply app_eq_len in E2; [|exact L]. destruct E2 as [_ E2]. congruence.
Qed.

Lemma ends_at_iff l n : end_of (fold_left bigger l None) = n <-> ends_at l n.
Proof.
  pose proof (fold_bigger l) as F. split.
  - intros <-. destruct (fold_left bigger l None) as [m|]; cbn; [|apply ea_none; exact F].
    destruct F as (b & a & E & Fb & Fa). exact (ea_last _ b m a E Fb Fa).
  - intros [E|b m a E Fb Fa].
    + subst. reflexivity.
    + destruct (fold_left bigger l None) as [m2|]; [|rewrite F in E; destruct b; discriminate E].
      assert (m2 = m) by (apply (first_max_unique l); [exact F|exists b, a; auto]). subst. reflexivity.
Qed.

Theorem build_iff lower l m : build lower l = Ok m <-> map_of lower l m.
Proof.
  unfold build, map_of. destruct (rev l) as [|c ps] eqn:R.
  - assert (l = []) by (rewrite <- (rev_involutive l), R; reflexivity). subst. split; [discriminate|].
    intros (a & c & out & E & _). destruct a; discriminate E.
  - assert (L : l = rev ps ++ [c]) by (rewrite <- (rev_involutive l), R; reflexivity).
    rewrite build_classes_concat. split.
    + destruct (build_props lower (concat (map c_props l)) [] None) as [[t big]|e] eqn:B; [|discriminate]. cbn [bind].
      intros [= <-]. apply build_props_iff in B. destruct B as (out & D & Et & Eb).
      exists (rev ps), c, out. cbn [cm_name cm_derivation cm_super cm_dynasty cm_props cm_size].
      split; [exact L|]. split; [reflexivity|]. split; [rewrite map_rev, rev_involutive; reflexivity|].
      split; [destruct (map c_name ps) as [|a [|b r]]; split; reflexivity|]. split; [exact D|].
      split; [apply assigned_iff; exact Et|]. apply ends_at_iff. subst big. reflexivity.
    + intros (a & c0 & out & E & E1 & E2 & E3 & D & A & S). rewrite L in E. apply app_inj_tail in E. destruct E as [<- <-].
      assert (B : build_props lower (concat (map c_props l)) [] None = Ok (cm_props m, fold_left bigger (map snd out) None)).
      { apply build_props_iff. exists out. split; [exact D|]. split; [apply assigned_iff; exact A|reflexivity]. }
      rewrite B. cbn [bind]. apply ends_at_iff in S. unfold end_of in S. rewrite S. rewrite map_rev, rev_involutive in E2.
      destruct m as [n d dy su pr si]. cbn in *. subst. f_equal. f_equal; destruct (map c_name ps) as [|x [|y r]]; destruct E3; cbn; congruence.
Qed.

Lemma build_errors lower l x : build lower l = Err x ->
  x = IndexError /\ l = [] \/
  exists before k p after out, concat (map c_props l) = before ++ (k, p) :: after /\ declares lower [] before out /\
    (x = ParseError /\ untyped p /\ ~ In (lower (p_name p)) (map fst out) \/
     x = AttributeError /\ ~ untyped p /\ forall s, ~ typed p s).
Proof.
  unfold build. destruct (rev l) as [|c ps] eqn:R.
  - intros [= <-]. left. split; [reflexivity|]. rewrite <- (rev_involutive l), R. reflexivity.
  - rewrite build_classes_concat. destruct (build_props lower (concat (map c_props l)) [] None) as [[t big]|e] eqn:B; [discriminate|].
    cbn [bind]. intros [= <-]. right. clear R c ps. revert B. generalize (concat (map c_props l)). clear l. intros l B.
    assert (G : exists before k p after t big, l = before ++ (k, p) :: after /\ build_props lower before [] None = Ok (t, big) /\
      build_props lower [(k, p)] t big = Err e).
    { revert B. generalize (@nil (str * pmap)) (@None pmap). induction l as [|[k p] l IH]; intros t big B; [discriminate|].
      change ((k, p) :: l) with ([(k, p)] ++ l) in B. rewrite build_props_app in B.
      destruct (build_props lower [(k, p)] t big) as [[t1 b1]|e1] eqn:B1; cbn [bind] in B.
      - destruct (IH _ _ B) as (bf & k2 & p2 & af & t2 & b2 & E1 & E2 & E3).
        exists ((k, p) :: bf), k2, p2, af, t2, b2. split; [cbn; congruence|]. split; [|exact E3].
        change ((k, p) :: bf) with ([(k, p)] ++ bf). rewrite build_props_app, B1. exact E2.
      - injection B as <-. exists [], k, p, l, t, big. repeat split. exact B1. }
    destruct G as (bf & k & p & af & t & big & -> & B1 & B2). exists bf, k, p, af.
    apply build_props_iff in B1. destruct B1 as (out & D & -> & ->). exists out. split; [reflexivity|]. split; [exact D|].
    cbn [build_props] in B2. destruct (truthy (sdict_get (s2z "type") (p_quals p))) eqn:T; cbn [negb] in B2.
    + assert (e = AttributeError /\ forall s, sdict_get (s2z "type") (p_quals p) <> Some (QStr s)) as [-> N].
      { destruct (sdict_get (s2z "type") (p_quals p)) as [[]|]; try discriminate B2; split; try congruence; discriminate. }
      right. split; [reflexivity|]. split; [intros U; apply truthy_untyped in U; congruence|]. intros s [_ Ts]. exact (N s Ts).
    + destruct (sdict_get (lower (p_name p)) (sdict_of out [])) eqn:G; [discriminate|]. injection B2 as <-. left.
      split; [reflexivity|]. split; [apply truthy_untyped; exact T|]. intros I.
      assert (I2 : In (lower (p_name p)) (map fst (sdict_of out []))) by (rewrite sdict_of_keys; apply firsts_in; exact I).
      apply sdict_get_key in I2. destruct I2. congruence.
Qed.

(** ** Sizes *)

Lemma value_size_pos t n : value_size t n -> 0 < n.
Proof. destruct 1; lia. Qed.

Lemma declares_pos lower b l out : declares lower b l out -> Forall (fun kv => 0 < pm_size (snd kv)) out.
Proof.
  induction 1; [constructor| |exact IHdeclares]. constructor; [|exact IHdeclares].
  destruct H as (_ & _ & _ & V & _). exact (value_size_pos _ _ V).
Qed.

Lemma covers lower l m out : build lower l = Ok m -> declares lower [] (concat (map c_props l)) out ->
  (forall a b, In a (map snd out) -> In b (map snd out) ->
    pm_offset a = pm_offset b /\ pm_size a = pm_size b \/ pm_offset a + pm_size a <= pm_offset b \/ pm_offset b + pm_size b <= pm_offset a) ->
  forall k p, In (k, p) (cm_props m) -> pm_offset p + pm_size p <= cm_size m.
Proof.
  intros B D N k p I. unfold build in B. destruct (rev l) as [|c ps]; [discriminate|]. rewrite build_classes_concat in B.
  assert (B2 : build_props lower (concat (map c_props l)) [] None = Ok (sdict_of out [], fold_left bigger (map snd out) None)).
  { apply build_props_iff. exists out. repeat split. exact D. }
  rewrite B2 in B. cbn [bind] in B. injection B as <-. cbn [cm_props cm_size] in *.
  assert (Io : In p (map snd out)).
  { apply sdict_get_in in I; [|apply sdict_of_nodup]. apply sdict_of_get in I. destruct I as (b & a & -> & _). rewrite map_app. apply in_elt. }
  pose proof (fold_bigger (map snd out)) as F. destruct (fold_left bigger (map snd out) None) as [g|].
  - pose proof (declares_pos _ _ _ _ D) as P.
    assert (Pp : forall q, In q (map snd out) -> 0 < pm_size q).
    { intros q Hq. apply in_map_iff in Hq. destruct Hq as ([k1 q1] & <- & Hq). rewrite Forall_forall in P. exact (P _ Hq). }
    destruct F as (b & a & E & Fb & Fa). assert (Ig : In g (map snd out)) by (rewrite E; apply in_elt).
    assert (Le : pm_offset p <= pm_offset g).
    { rewrite E in Io. apply in_app_iff in Io. rewrite Forall_forall in Fb, Fa. destruct Io as [H|[H|H]]; [apply Fb in H; lia|subst; lia|apply Fa in H; lia]. }
    pose proof (Pp _ Io). pose proof (Pp _ Ig). destruct (N _ _ Io Ig) as [H1|[H1|H1]]; lia.
  - rewrite F in Io. destruct Io.
Qed.

(** ** Lookup *)

Lemma parents_iff lower hash defs c l l2 :
  (exists fuel, parents fuel lower hash defs c l = Done (Ok l2)) <-> exists a, lineage lower hash defs c (a ++ [c]) /\ l2 = a ++ l.
Proof.
  split.
  - intros [fuel H]. revert c l H. induction fuel as [|fuel IH]; intros c l H; [discriminate|]. cbn [parents] in H.
    destruct (c_super c) as [[|x s]|] eqn:S.
    + injection H as <-. exists []. split; [apply ln_base; auto|reflexivity].
    + unfold class_by_hash in H. destruct (sdict_get (lower (hash (x :: s))) defs) as [p|] eqn:G; [|discriminate].
      destruct (IH _ _ H) as (a & L & ->). exists (a ++ [p]). split; [|rewrite <- app_assoc; reflexivity].
      eapply ln_child; [exact S|discriminate|exact G|exact L].
    + injection H as <-. exists []. split; [apply ln_base; auto|reflexivity].
  - intros (a & L & ->). remember (a ++ [c]) as la eqn:E. revert a l E. induction L as [c B|c s p la S N G L IH]; intros a l E.
    + exists 1%nat. cbn. assert (a = []) by (destruct a as [|y [|]]; [reflexivity|discriminate E|discriminate E]). subst.
      destruct B as [->| ->]; reflexivity.
    + apply app_inj_tail in E. destruct E as [-> _].
      assert (exists a2, a = a2 ++ [p]) as [a2 ->] by (inversion L; [exists []; reflexivity|eexists; reflexivity]).
      destruct (IH a2 (p :: l) eq_refl) as [f Hf]. exists (Datatypes.S f). cbn [parents]. rewrite S. destruct s; [congruence|].
      unfold class_by_hash. rewrite G, Hf, <- app_assoc. reflexivity.
Qed.

Lemma parents_error lower hash defs c l x :
  (exists fuel, parents fuel lower hash defs c l = Done (Err x)) <-> orphan lower hash defs c /\ x = AttributeError.
Proof.
  split.
  - intros [fuel H]. revert c l H. induction fuel as [|fuel IH]; intros c l H; [discriminate|]. cbn [parents] in H.
    destruct (c_super c) as [[|y s]|] eqn:S; try discriminate.
    unfold class_by_hash in H. destruct (sdict_get (lower (hash (y :: s))) defs) as [p|] eqn:G.
    + destruct (IH _ _ H) as [O ->]. split; [|reflexivity]. eapply or_up; [exact S|discriminate|exact G|exact O].
    + injection H as <-. split; [|reflexivity]. eapply or_here; [exact S|discriminate|exact G].
  - intros [O ->]. revert l. induction O as [c s S N G|c s p S N G O IH]; intros l.
    + exists 1%nat. cbn. rewrite S. destruct s; [congruence|]. unfold class_by_hash. rewrite G. reflexivity.
    + destruct (IH (p :: l)) as [f Hf]. exists (Datatypes.S f). cbn. rewrite S. destruct s; [congruence|]. unfold class_by_hash. rewrite G. exact Hf.
Qed.

Lemma lineage_last lower hash defs c l : lineage lower hash defs c l -> exists a, l = a ++ [c].
Proof. intros L. inversion L; [exists []; reflexivity|eexists; reflexivity]. Qed.

Theorem lookup_iff lower hash defs h m :
  (exists fuel, fresh_map fuel lower hash defs h = Done (Ok m)) <->
  exists c l, sdict_get (lower h) defs = Some c /\ lineage lower hash defs c l /\ map_of lower l m.
Proof.
  unfold fresh_map, class_by_hash. destruct (sdict_get (lower h) defs) as [c|].
  - split.
    + intros [fuel H]. destruct (parents fuel lower hash defs c [c]) as [[l|e]|] eqn:P; cbn in H; try discriminate.
      injection H as H. apply build_iff in H. exists c, l. split; [reflexivity|]. split; [|exact H].
      destruct (proj1 (parents_iff lower hash defs c [c] l) (ex_intro _ fuel P)) as (a & L & ->). exact L.
    + intros (c0 & l & [= <-] & L & M). destruct (lineage_last _ _ _ _ _ L) as [a ->].
      destruct (proj2 (parents_iff lower hash defs c [c] (a ++ [c]))) as [f Hf]; [exists a; auto|].
      exists f. rewrite Hf. cbn. apply build_iff in M. rewrite M. reflexivity.
  - split; [intros [f H]; discriminate|]. intros (c & l & H & _). discriminate.
Qed.

Theorem lookup_errors lower hash defs h x :
  (exists fuel, fresh_map fuel lower hash defs h = Done (Err x)) <->
  sdict_get (lower h) defs = None /\ x = RuntimeError \/
  (exists c, sdict_get (lower h) defs = Some c /\ orphan lower hash defs c /\ x = AttributeError) \/
  exists c l, sdict_get (lower h) defs = Some c /\ lineage lower hash defs c l /\ build lower l = Err x.
Proof.
  unfold fresh_map, class_by_hash. destruct (sdict_get (lower h) defs) as [c|].
  - split.
    + intros [fuel H]. right. destruct (parents fuel lower hash defs c [c]) as [[l|e]|] eqn:P; cbn in H; try discriminate.
      * injection H as H. right. exists c, l. split; [reflexivity|]. split; [|exact H].
        destruct (proj1 (parents_iff lower hash defs c [c] l) (ex_intro _ fuel P)) as (a & L & ->). exact L.
      * injection H as ->. left. exists c. split; [reflexivity|]. exact (proj1 (parents_error lower hash defs c [c] x) (ex_intro _ fuel P)).
    + intros [[H _]|[(c0 & [= <-] & O)|(c0 & l & [= <-] & L & B)]]; [discriminate| |].
      * destruct (proj2 (parents_error lower hash defs c [c] x) O) as [f Hf]. exists f. rewrite Hf. reflexivity.
      * destruct (lineage_last _ _ _ _ _ L) as [a ->]. destruct (proj2 (parents_iff lower hash defs c [c] (a ++ [c]))) as [f Hf]; [exists a; auto|].
        exists f. rewrite Hf. cbn. rewrite B. reflexivity.
  - split.
    + intros [f [= <-]]. left. split; reflexivity.
    + intros [[_ ->]|[(c & H & _)|(c & l & H & _)]]; try discriminate. exists O. reflexivity.
Qed.

(** If there is a rank that is smaller for the parent class the lookup ends. *)
Lemma parents_ends lower hash defs (rank : cdef -> nat) :
  (forall k c s p, In (k, c) defs -> c_super c = Some s -> sdict_get (lower (hash s)) defs = Some p -> (rank p < rank c)%nat) ->
  forall fuel c l k, In (k, c) defs -> (rank c < fuel)%nat -> parents fuel lower hash defs c l <> OutOfFuel.
Proof.
  intros R. induction fuel as [|fuel IH]; intros c l k I H; [lia|]. cbn [parents].
  destruct (c_super c) as [[|x s]|] eqn:S; try discriminate. unfold class_by_hash.
  destruct (sdict_get (lower (hash (x :: s))) defs) as [p|] eqn:G; [|discriminate].
  pose proof (R _ _ _ _ I S G) as Rp.
  assert (Ip : In (lower (hash (x :: s)), p) defs).
  { clear -G. induction defs as [|[k v] t IH]; [discriminate|]. cbn in G. destruct (list_eqb k (lower (hash (x :: s)))) eqn:E.
    - injection G as <-. apply list_eqb_eq in E. left. congruence.
    - right. exact (IH G). }
  apply (IH p (p :: l) _ Ip). lia.
Qed.

Lemma sdict_get_some {A} k (v : A) t : sdict_get k t = Some v -> In (k, v) t.
Proof.
  induction t as [|[k1 v1] t IH]; [discriminate|]. cbn. destruct (list_eqb k1 k) eqn:E.
  - intros [= <-]. apply list_eqb_eq in E. left. congruence.
  - intros H. right. exact (IH H).
Qed.

Theorem lookup_ends lower hash defs (rank : cdef -> nat) fuel h :
  (forall k c s p, In (k, c) defs -> c_super c = Some s -> sdict_get (lower (hash s)) defs = Some p -> (rank p < rank c)%nat) ->
  (forall k c, In (k, c) defs -> (rank c < fuel)%nat) ->
  fresh_map fuel lower hash defs h <> OutOfFuel.
Proof.
  intros R F. unfold fresh_map, class_by_hash. destruct (sdict_get (lower h) defs) as [c|] eqn:G; [|discriminate].
  apply sdict_get_some in G. pose proof (parents_ends lower hash defs rank R fuel c [c] _ G (F _ _ G)) as P.
  destruct (parents fuel lower hash defs c [c]) as [[l|e]|]; cbn; congruence.
Qed.

(** ** Class value maps that are kept *)

Lemma fresh_lower fuel lower hash defs h h2 : lower h = lower h2 -> fresh_map fuel lower hash defs h = fresh_map fuel lower hash defs h2.
Proof. intros E. unfold fresh_map, class_by_hash. rewrite E. reflexivity. Qed.

Theorem lookups_kept fuel lower hash defs l : lookups fuel lower hash defs [] l = map (fresh_map fuel lower hash defs) l.
Proof.
  assert (G : forall kept, (forall h m, sdict_get (lower h) kept = Some m -> fresh_map fuel lower hash defs h = Done (Ok m)) ->
    lookups fuel lower hash defs kept l = map (fresh_map fuel lower hash defs) l).
  { induction l as [|h l IH]; intros kept K; [reflexivity|]. cbn [lookups map]. unfold map_by_hash.
    destruct (sdict_get (lower h) kept) as [m|] eqn:S.
    - rewrite (K _ _ S). f_equal. apply IH. exact K.
    - destruct (fresh_map fuel lower hash defs h) as [[m|e]|] eqn:F; f_equal; apply IH; try exact K.
      intros h2 m2. rewrite sdict_get_set. destruct (list_eqb (lower h) (lower h2)) eqn:E; [|apply K].
      intros [= <-]. apply list_eqb_eq in E. rewrite <- F. apply fresh_lower. congruence. }
  apply G. discriminate.
Qed.

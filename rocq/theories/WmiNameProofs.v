From Verif Require Import Base BaseFacts StrModel StrFacts WmiModel WmiSpec.

(** ** Names *)

Definition ascii_alpha (c : Z) : Prop := ascii_upper c \/ ascii_lower c.

Definition ascii_case (isalpha : Z -> bool) (upper lower : Z -> str) : Prop :=
  forall c, 0 <= c < 128 ->
    (isalpha c = true <-> ascii_alpha c) /\
    (ascii_upper c -> upper c = [c] /\ lower c = [c + 32]) /\
    (ascii_lower c -> upper c = [c - 32] /\ lower c = [c]).

Lemma glob_cons isalpha upper lower c r :
  glob_of isalpha upper lower (c :: r) = (if isalpha c then [91] ++ upper c ++ lower c ++ [93] else [c]) ++ glob_of isalpha upper lower r.
Proof. reflexivity. Qed.

Lemma set_match u l p s : u <> 33 -> ~ In 93 [u; l] -> ~ In 45 [u; l] ->
  (gmatch (91 :: u :: l :: 93 :: p) s <-> exists x s', s = x :: s' /\ (x = u \/ x = l) /\ gmatch p s').
Proof.
  intros N1 N2 N3. split.
  - intros H. inversion H as [|c p' s' C H' E1 E2| | |x m p' s' M1 M2 M3 M4 M5 H' E1 E2]; subst.
    + exfalso. apply C. cbn. auto.
    + assert (X : m = [u; l] /\ p' = p).
      { destruct m as [|a [|b [|c m]]]; cbn [app] in E1.
        - contradiction.
        - injection E1 as -> E _. exfalso. apply N2. cbn. auto.
        - injection E1 as -> -> ->. auto.
        - injection E1 as _ _ -> _. exfalso. apply M3. cbn. auto. }
      destruct X as [-> ->]. exists x, s'. split; [reflexivity|]. split; [|exact H']. cbn [In] in M5. intuition.
  - intros (x & s' & -> & Hx & H). change (91 :: u :: l :: 93 :: p) with (91 :: [u; l] ++ 93 :: p). constructor; [discriminate|exact N1|exact N2|exact N3| |exact H].
    cbn [In]. intuition.
Qed.

Lemma char_match c p s : ~ In c [42; 63; 91] -> (gmatch (c :: p) s <-> exists s', s = c :: s' /\ gmatch p s').
Proof.
  intros N. split.
  - intros H. inversion H; subst; try (exfalso; apply N; cbn; auto; fail). eauto.
  - intros (s' & -> & H). constructor; assumption.
Qed.

Lemma nil_match s : gmatch [] s <-> s = [].
Proof. split; [intros H; inversion H; reflexivity|intros ->; constructor]. Qed.

Lemma glob_match isalpha upper lower : ascii_case isalpha upper lower -> forall name, Forall (fun c => 0 <= c < 128 /\ ~ In c [42; 63; 91]) name ->
  forall s, gmatch (glob_of isalpha upper lower name) s <-> Forall2 same_letter name s.
Proof.
  intros Hc. induction 1 as [|c name [Hr Hs] F IH]; intros s.
  - cbn [glob_of flat_map]. rewrite nil_match. split; [intros ->; constructor|intros H; inversion H; reflexivity].
  - rewrite glob_cons. destruct (Hc c Hr) as (Ha & Hu & Hl). unfold ascii_alpha, ascii_upper, ascii_lower in *.
    assert (G : forall x s', s = x :: s' -> (Forall2 same_letter (c :: name) s <-> same_letter c x /\ gmatch (glob_of isalpha upper lower name) s')).
    { intros x s' ->. rewrite IH. split; [intros H; inversion H; auto|intros [? ?]; constructor; assumption]. }
    assert (G0 : Forall2 same_letter (c :: name) s -> exists x s', s = x :: s') by (intros H; inversion H; eauto).
    destruct (isalpha c) eqn:A.
    + assert (U : exists u l, upper c = [u] /\ lower c = [l] /\ 65 <= u <= 90 /\ l = u + 32 /\ (c = u \/ c = l)).
      { destruct (proj1 Ha eq_refl) as [X|X].
        - destruct (Hu X) as [-> ->]. exists c, (c + 32). repeat split; auto; lia.
        - destruct (Hl X) as [-> ->]. exists (c - 32), c. repeat split; auto; lia. }
      destruct U as (u & l & -> & -> & Hu' & -> & Hcu). cbn [app]. rewrite set_match by (cbn [In]; lia). split.
      * intros (x & s' & E & Hx & H). apply (G x s' E). split; [|exact H]. unfold same_letter, ascii_upper. lia.
      * intros H. destruct (G0 H) as (x & s' & E). pose proof (proj1 (G x s' E) H) as [Hx H2]. exists x, s'. split; [exact E|]. split; [|exact H2].
        unfold same_letter, ascii_upper in Hx. lia.
    + cbn [app]. rewrite char_match by exact Hs.
      assert (Na : ~ (65 <= c <= 90 \/ 97 <= c <= 122)) by (intros X; apply Ha in X; discriminate). split.
      * intros (s' & E & H). apply (G c s' E). split; [left; reflexivity|exact H].
      * intros H. destruct (G0 H) as (x & s' & E). pose proof (proj1 (G x s' E) H) as [Hx H2]. exists s'. split; [|exact H2]. rewrite E. f_equal.
        unfold same_letter, ascii_upper in Hx. lia.
Qed.

Lemma glob_long isalpha upper lower name : len name <= len (glob_of isalpha upper lower name).
Proof.
  induction name as [|c r IH]; [cbn; lia|]. rewrite glob_cons, len_app, len_cons. destruct (isalpha c); [|cbn [len length Z.of_nat]; change (len [c]) with 1; lia].
  rewrite !len_app. change (len [91]) with 1. pose proof (len_nonneg (upper c)). pose proof (len_nonneg (lower c)). change (len [93]) with 1. lia.
Qed.

Lemma open_fails {A} isalpha upper lower name (rest : Z -> result A) : 3 <= len name -> open_file isalpha upper lower name rest = Err ValueError.
Proof.
  intros H. pose proof (glob_long isalpha upper lower name) as L. unfold open_file, unpack2.
  destruct (glob_of isalpha upper lower name) as [|a [|b [|c r]]]; try reflexivity. change (len [a; b]) with 2 in L. lia.
Qed.

Lemma repository_fails isalpha upper lower basename cont : repository_open isalpha upper lower basename cont = Err ValueError.
Proof.
  unfold repository_open. destruct (existsb (list_eqb basename) map_names) eqn:E.
  - apply open_fails. apply existsb_exists in E as (x & I & E). apply list_eqb_eq in E. subst x.
    cbn [map_names In] in I. repeat (destruct I as [<-|I]; [vm_compute; discriminate|]). contradiction.
  - destruct (list_eqb _ _); apply open_fails; vm_compute; discriminate.
Qed.

(** ** Keys *)

Lemma split_last c a b : ~ In c b -> last (split_on c (a ++ c :: b)) [] = b.
Proof.
  intros H. induction a as [|x a IH]; cbn [app split_on].
  - rewrite Z.eqb_refl. rewrite split_on_no by exact H. reflexivity.
  - destruct (x =? c).
    + destruct (split_on c (a ++ c :: b)) eqn:E; [exfalso; eapply split_on_nonempty; exact E|]. exact IH.
    + destruct (split_on c (a ++ c :: b)) as [|h t] eqn:E; [exfalso; eapply split_on_nonempty; exact E|].
      destruct t as [|t1 t]; [|exact IH]. cbn [last] in IH. exfalso.
      assert (J : join [c] [h] = a ++ c :: b) by (rewrite <- E; apply join_split). cbn [join] in J.
      pose proof (split_on_no_sep c (a ++ c :: b)) as F. rewrite E in F. inversion F as [|? ? N _]; subst. apply N. rewrite J. apply in_or_app. right. left. reflexivity.
Qed.

Lemma digit_not n c : 0 <= n -> In c [46; 92; 95] -> ~ In c (fmt_d n).
Proof.
  intros Hn Hc I. unfold fmt_d in I. pose proof (fmt_int_nonneg_chars 10 0 n) as F. 
  assert (D : Forall is_digit_char (fmt_int 10 0 n)) by (apply F; lia).
  rewrite Forall_forall in D. apply D in I. unfold is_digit_char in I. cbn [In] in Hc. lia.
Qed.

Lemma key_values pyint lower type hash n id size : (forall k, 0 <= k -> pyint (fmt_d k) = Some k) ->
  ~ In 46 type -> ~ In 95 type -> ~ In 46 hash -> 0 <= n -> 0 <= id -> 0 <= size ->
  key_record pyint lower (type ++ 95 :: hash ++ 46 :: fmt_d n ++ 46 :: fmt_d id ++ 46 :: fmt_d size) = Some (type, lower hash, n, id, size).
Proof.
  intros Hp T1 T2 H1 Hn Hi Hs. unfold key_record.
  replace (type ++ 95 :: hash ++ 46 :: fmt_d n ++ 46 :: fmt_d id ++ 46 :: fmt_d size)
    with ((type ++ 95 :: hash) ++ 46 :: fmt_d n ++ 46 :: fmt_d id ++ 46 :: fmt_d size) by (rewrite <- app_assoc; reflexivity).
  assert (Hc : has_char 46 ((type ++ 95 :: hash) ++ 46 :: fmt_d n ++ 46 :: fmt_d id ++ 46 :: fmt_d size) = true).
  { destruct (has_char _ _) eqn:E; [reflexivity|]. apply has_char_false in E. exfalso. apply E. apply in_or_app. right. left. reflexivity. }
  rewrite Hc. cbn [negb].
  rewrite split_on_app by (rewrite in_app_iff; cbn [In]; intros [?|[?|?]]; [contradiction|discriminate|contradiction]).
  rewrite split_on_app by (apply digit_not; [exact Hn|cbn; auto]).
  rewrite split_on_app by (apply digit_not; [exact Hi|cbn; auto]).
  rewrite split_on_no by (apply digit_not; [exact Hs|cbn; auto]).
  rewrite !Hp by assumption. rewrite split_on_app by exact T2. do 5 f_equal. f_equal. apply join_split.
Qed.

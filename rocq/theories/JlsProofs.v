(** Proofs about the output of the Jump List script. *)

From Verif Require Import Base BaseFacts StrModel StrFacts DictModel DecProofs TextProofs LdbTableProofs SpvSpec SpvProofs LdsModel LdsProofs KcsModel KcsProofs JlsModel JlsSpec.

(** *** Errors *)

Lemma then_snd a b : snd (then_print a b) = match snd a with Ok _ => snd b | Err e => Err e end.
Proof. destruct a as [s [u|e]]; reflexivity. Qed.

Lemma print_all_snd {A} (f : A -> output) e (P : A -> Prop) : (forall x, (snd (f x) = Ok tt /\ P x) \/ (snd (f x) = Err e /\ ~ P x)) ->
  forall l, (snd (print_all f l) = Ok tt /\ forall x, In x l -> P x) \/ (snd (print_all f l) = Err e /\ ~ forall x, In x l -> P x).
Proof.
  intros H. induction l as [|x l IH]; cbn [print_all]; [left; split; [reflexivity|intros x []]|]. rewrite then_snd. destruct (H x) as [[-> Hx]|[-> Hx]].
  - destruct IH as [[-> G]|[-> G]]; [left|right]; split; try reflexivity.
    + intros y [<-|I]; [exact Hx|exact (G y I)].
    + intros N. apply G. intros y I. apply N. right. exact I.
  - right. split; [reflexivity|]. intros N. apply Hx, N. left. reflexivity.
Qed.

Lemma numbered_snd {A} title (f : A -> output) e (P : A -> Prop) : (forall x, (snd (f x) = Ok tt /\ P x) \/ (snd (f x) = Err e /\ ~ P x)) ->
  forall l i, (snd (numbered title f i l) = Ok tt /\ forall x, In x l -> P x) \/ (snd (numbered title f i l) = Err e /\ ~ forall x, In x l -> P x).
Proof.
  intros H. induction l as [|x l IH]; intros i; cbn [numbered]; [left; split; [reflexivity|intros x []]|]. rewrite !then_snd. cbn [printed snd]. destruct (H x) as [[-> Hx]|[-> Hx]].
  - destruct (IH (i + 1)) as [[-> G]|[-> G]]; [left|right]; split; try reflexivity.
    + intros y [<-|I]; [exact Hx|exact (G y I)].
    + intros N. apply G. intros y I. apply N. right. exact I.
  - right. split; [reflexivity|]. intros N. apply Hx, N. left. reflexivity.
Qed.

Section errors.
Context (filetime fat : Z -> option str) (keys : sdict str).

Lemma is_in_iff x l : is_in x l = true <-> In x l.
Proof. unfold is_in. rewrite existsb_exists. split; [intros (y & I & E); apply Z.eqb_eq in E; subst y; exact I|]. intros I. exists x. split; [exact I|apply Z.eqb_refl]. Qed.

Lemma prop_snd i p : (snd (write_prop filetime keys i p) = Ok tt /\ supported (p_type p)) \/ (snd (write_prop filetime keys i p) = Err RuntimeError /\ ~ supported (p_type p)).
Proof.
  unfold write_prop. destruct (prop_value filetime p) as [v|e] eqn:E; [left|right]; (split; [|revert E; unfold prop_value, supported]).
  - reflexivity.
  - destruct (Z.eqb_spec (p_type p) 1) as [->|N1]; [intros _; left; cbn; tauto|].
    destruct (is_in (p_type p) [3; 19; 20; 21]) eqn:I1; [apply is_in_iff in I1; intros _; left; cbn in *; tauto|].
    destruct (is_in (p_type p) [8; 30; 31]) eqn:I2; [apply is_in_iff in I2; intros _; left; cbn in *; tauto|].
    destruct (Z.eqb_spec (p_type p) 11) as [->|N2]; [intros _; left; cbn; tauto|]. destruct (Z.eqb_spec (p_type p) 64) as [->|N3]; [intros _; left; cbn; tauto|].
    destruct (Z.eqb_spec (p_type p) 66) as [->|N4]; [intros _; left; cbn; tauto|]. destruct (Z.eqb_spec (p_type p) 72) as [->|N5]; [intros _; left; cbn; tauto|].
    destruct (Z.eqb_spec (Z.land (p_type p) 61440) 4096) as [N6|N6]; [intros _; right; exact N6|discriminate].
  - revert E. unfold prop_value.
    repeat match goal with |- (if ?b then _ else _) = _ -> _ => destruct b; [discriminate|] end. intros E. injection E as <-. reflexivity.
  - destruct (Z.eqb_spec (p_type p) 1) as [->|N1]; [discriminate|].
    destruct (is_in (p_type p) [3; 19; 20; 21]) eqn:I1; [discriminate|].
    destruct (is_in (p_type p) [8; 30; 31]) eqn:I2; [discriminate|].
    destruct (Z.eqb_spec (p_type p) 11) as [->|N2]; [discriminate|]. destruct (Z.eqb_spec (p_type p) 64) as [->|N3]; [discriminate|].
    destruct (Z.eqb_spec (p_type p) 66) as [->|N4]; [discriminate|]. destruct (Z.eqb_spec (p_type p) 72) as [->|N5]; [discriminate|].
    destruct (Z.eqb_spec (Z.land (p_type p) 61440) 4096) as [N6|N6]; [discriminate|]. intros _ [S|S]; [|congruence].
    assert (I1' : ~ In (p_type p) [3; 19; 20; 21]) by (rewrite <- is_in_iff; congruence). assert (I2' : ~ In (p_type p) [8; 30; 31]) by (rewrite <- is_in_iff; congruence).
    cbn [In] in *. intuition congruence.
Qed.

Lemma store_snd s : (snd (write_store filetime keys s) = Ok tt /\ forall p, in_store p s -> supported (p_type p)) \/
  (snd (write_store filetime keys s) = Err RuntimeError /\ ~ forall p, in_store p s -> supported (p_type p)).
Proof.
  unfold write_store. destruct (print_all_snd (fun t => print_all (write_prop filetime keys (fst t)) (snd t)) RuntimeError (fun t => forall p, In p (snd t) -> supported (p_type p))
    (fun t => print_all_snd (write_prop filetime keys (fst t)) RuntimeError (fun p => supported (p_type p)) (prop_snd (fst t)) (snd t)) s) as [[E H]|[E H]]; [left|right]; (split; [exact E|]).
  - intros p (t & I & J). exact (H t I p J).
  - intros G. apply H. intros t I p J. apply G. exists t. auto.
Qed.

Definition good_item (i : item) : Prop := forall s p, i_data i = IUsers s -> in_store p s -> supported (p_type p).
Definition good_block (b : block) : Prop := b_signature b = 0xa0000009 -> forall p, in_store p (b_store b) -> supported (p_type p).

Lemma numbered_ok {A} title (f : A -> str) : forall l i, snd (numbered title (fun e => printed (f e)) i l) = Ok tt.
Proof. induction l as [|x l IH]; intros i; [reflexivity|]. cbn [numbered]. rewrite !then_snd. cbn [printed snd]. apply IH. Qed.

Lemma item_snd i : (snd (write_item filetime fat keys i) = Ok tt /\ good_item i) \/ (snd (write_item filetime fat keys i) = Err RuntimeError /\ ~ good_item i).
Proof.
  unfold write_item. rewrite !then_snd. cbn [printed snd]. rewrite numbered_ok. unfold good_item. destruct (i_data i) as [ | | | | |s| | ]; cbn [write_data printed snd]; try (left; split; [reflexivity|discriminate]).
  destruct (store_snd s) as [[-> H]|[-> H]]; [left|right]; (split; [reflexivity|]).
  - intros s' p E. injection E as <-. apply H.
  - intros G. apply H. intros p. apply G. reflexivity.
Qed.

Lemma block_snd b : (snd (write_block filetime keys b) = Ok tt /\ good_block b) \/ (snd (write_block filetime keys b) = Err RuntimeError /\ ~ good_block b).
Proof.
  unfold write_block. rewrite !then_snd. cbn [printed snd]. unfold good_block. destruct (is_in (b_signature b) [2684354561; 2684354567; 2684354566]) eqn:I.
  - left. split; [reflexivity|]. intros E. rewrite E in I. discriminate.
  - destruct (Z.eqb_spec (b_signature b) 2684354569) as [E|N]; [|left; split; [reflexivity|intros E; congruence]].
    destruct (store_snd (b_store b)) as [[-> H]|[-> H]]; [left|right]; (split; [reflexivity|]); auto.
Qed.

Lemma shortcut_snd l : (snd (write_shortcut filetime fat keys l) = Ok tt /\ forall p, property_of l p -> supported (p_type p)) \/
  (snd (write_shortcut filetime fat keys l) = Err RuntimeError /\ ~ forall p, property_of l p -> supported (p_type p)).
Proof.
  unfold write_shortcut. rewrite !then_snd. cbn [printed snd]. unfold write_items, property_of.
  pose proof (numbered_snd ([9] ++ s2z "Data block: "%string) (write_block filetime keys) RuntimeError good_block block_snd (l_blocks l) 1) as B.
  destruct (l_items l) as [items|] eqn:L.
  - rewrite then_snd. cbn [printed snd]. destruct (numbered_snd (tabs2 ++ s2z "Shell item: "%string) (write_item filetime fat keys) RuntimeError good_item item_snd items 1) as [[-> H]|[-> H]].
    + destruct B as [[-> G]|[-> G]]; [left|right]; (split; [reflexivity|]).
      * intros p [(its & i & s & E & I & D & J)|(b & I & E & J)]; [injection E as <-; exact (H i I s p D J)|exact (G b I E p J)].
      * intros N. apply G. intros b I E p J. apply N. right. exists b. auto.
    + right. split; [reflexivity|]. intros N. apply H. intros i I s p D J. apply N. left. exists items, i, s. auto.
  - cbn [printed snd]. destruct B as [[-> G]|[-> G]]; [left|right]; (split; [reflexivity|]).
    + intros p [(its & i & s & E & _)|(b & I & E & J)]; [discriminate|exact (G b I E p J)].
    + intros N. apply G. intros b I E p J. apply N. right. exists b. auto.
Qed.

Lemma script_snd entries : (snd (jump_list_script filetime fat keys entries) = Ok tt /\ forall l p, In l entries -> property_of l p -> supported (p_type p)) \/
  (snd (jump_list_script filetime fat keys entries) = Err RuntimeError /\ ~ forall l p, In l entries -> property_of l p -> supported (p_type p)).
Proof.
  unfold jump_list_script. rewrite then_snd. cbn [printed snd].
  destruct (numbered_snd (s2z "Entry: "%string) (write_shortcut filetime fat keys) RuntimeError (fun l => forall p, property_of l p -> supported (p_type p)) shortcut_snd entries 1) as [[-> H]|[-> H]];
    [left|right]; (split; [reflexivity|]).
  - intros l p I J. exact (H l I p J).
  - intros N. apply H. intros l I p J. exact (N l p I J).
Qed.

End errors.

(** *** Numbers *)

Lemma numbered_texts {A} title (f : A -> output) : forall l i s, numbered title f i l = (s, Ok tt) <->
  exists texts, Forall2 (fun x t => f x = (t, Ok tt)) l texts /\ with_numbers title i texts s.
Proof.
  induction l as [|x l IH]; intros i s; cbn [numbered].
  - split.
    + intros H. injection H as <-. exists []. split; constructor.
    + intros (texts & F & W). inversion F; subst. inversion W. reflexivity.
  - rewrite then_ok. split.
    + intros (s1 & s2 & E1 & E2 & ->). apply (f_equal fst) in E1. cbn [printed fst] in E1. subst s1. apply then_ok in E2 as (t & s3 & E3 & E4 & ->).
      apply IH in E4 as (texts & F & W). exists (t :: texts). split; [constructor; assumption|]. rewrite <- !app_assoc. constructor. exact W.
    + intros (texts & F & W). inversion F as [|? t ? ts F1 F2]; subst. inversion W as [|? ? ? s' W']; subst. exists (title ++ fmt_d i ++ [10]), (t ++ s'). split; [reflexivity|].
      split; [|rewrite <- !app_assoc; reflexivity]. apply then_ok. exists t, s'. split; [exact F1|]. split; [|reflexivity]. apply IH. exists ts. auto.
Qed.

(** *** Columns *)

Lemma expand_repeat s : forall m p, expand p (repeat 9 (S m) ++ s) = repeat 32 (8 * (p / 8 + S m) - p) ++ expand (8 * (p / 8 + S m)) s.
Proof.
  assert (G : forall m p, expand p (repeat 9 (S m) ++ s) = repeat 32 (8 - p mod 8) ++ expand (p + (8 - p mod 8)) (repeat 9 m ++ s)) by reflexivity.
  induction m as [|m IH]; intros p.
  - rewrite G. cbn [repeat app]. pose proof (Nat.div_mod p 8 ltac:(lia)). pose proof (Nat.mod_upper_bound p 8 ltac:(lia)). f_equal; f_equal; lia.
  - rewrite G, IH. pose proof (Nat.div_mod p 8 ltac:(lia)) as D. pose proof (Nat.mod_upper_bound p 8 ltac:(lia)).
    replace (p + (8 - p mod 8))%nat with ((p / 8 + 1) * 8)%nat by lia. rewrite Nat.div_mul by lia. rewrite app_assoc, <- repeat_app. f_equal; f_equal; lia.
Qed.

Lemma filter_plain d : plain d -> filter (Z.eqb 9) d = [].
Proof.
  intros [P _]. induction d as [|c d IH]; [reflexivity|]. cbn [filter]. destruct (Z.eqb_spec 9 c) as [<-|]; [destruct P; left; reflexivity|]. apply IH. intros I. apply P. right. exact I.
Qed.

Lemma untabbed_repeat k d : plain d -> untabbed_len (repeat 9 k ++ d) = Z.of_nat (8 * k + length d).
Proof.
  intros P. unfold untabbed_len, len. rewrite filter_app, (filter_plain d P), app_nil_r, app_length, repeat_length.
  assert (E : filter (Z.eqb 9) (repeat 9 k) = repeat 9 k) by (induction k as [|k IH]; [reflexivity|cbn [repeat filter]; change (9 =? 9) with true; cbv iota; f_equal; exact IH]).
  rewrite E, repeat_length. lia.
Qed.

Lemma value_column k d v : plain d -> (8 * k + length d < 72)%nat ->
  expand 0 (write_value (repeat 9 k ++ d) v) = repeat 32 (8 * k) ++ d ++ repeat 32 (72 - (8 * k + length d)) ++ s2z ": "%string ++ expand 74 (v ++ [10]).
Proof.
  intros P L. unfold write_value. rewrite untabbed_repeat by exact P. set (w := (8 * k + length d)%nat) in *.
  replace (Z.to_nat (8 - Z.of_nat w / 8 + 1)) with (S (8 - w / 8)).
  - rewrite <- app_assoc. assert (E : forall s, expand 0 (repeat 9 k ++ s) = repeat 32 (8 * k) ++ expand (8 * k) s).
    { intros s. destruct k as [|k']; [reflexivity|]. rewrite expand_repeat. change (0 / 8)%nat with 0%nat. rewrite Nat.add_0_l, Nat.sub_0_r. reflexivity. }
    rewrite E, expand_plain by exact P. fold w. rewrite expand_repeat. f_equal. f_equal.
    assert (w / 8 < 9)%nat by (apply Nat.div_lt_upper_bound; lia).
    replace (8 * (w / 8 + S (8 - w / 8)))%nat with 72%nat by lia. f_equal.
  - change 8 with (Z.of_nat 8) at 2. rewrite <- Nat2Z.inj_div. assert (w / 8 < 9)%nat by (apply Nat.div_lt_upper_bound; lia). lia.
Qed.

(** *** References *)

Lemma reference_parts r : 2 ^ 48 < r -> reference_text r = fmt_d (r mod 2 ^ 48) ++ s2z "-"%string ++ fmt_d (r / 2 ^ 48).
Proof.
  intros H. unfold reference_text. destruct (Z.ltb_spec 0x1000000000000 r) as [_|N]; [|lia]. change 0xffffffffffff with (Z.ones 48). rewrite Z.land_ones by lia. rewrite Z.shiftr_div_pow2 by lia. reflexivity.
Qed.

Lemma reference_inj r r' : 0 <= r -> 0 <= r' -> reference_text r = reference_text r' -> r = r'.
Proof.
  intros Hr Hr'. destruct (Z_lt_dec (2 ^ 48) r) as [L|L], (Z_lt_dec (2 ^ 48) r') as [L'|L'].
  - rewrite !reference_parts by assumption. intros E. change (s2z "-"%string) with [45] in E. cbn [app] in E.
    apply cut in E as (E1 & E2); [|apply fmt_d_no_dash; apply Z.mod_pos_bound; lia|apply fmt_d_no_dash; apply Z.mod_pos_bound; lia].
    apply fmt_d_inj in E1; [|apply Z.mod_pos_bound; lia|apply Z.mod_pos_bound; lia]. apply fmt_d_inj in E2; [|apply Z.div_pos; lia|apply Z.div_pos; lia].
    rewrite (Z.div_mod r (2 ^ 48)), (Z.div_mod r' (2 ^ 48)) by lia. rewrite E1, E2. reflexivity.
  - rewrite reference_parts by assumption. unfold reference_text. destruct (Z.ltb_spec 0x1000000000000 r'); [lia|]. intros E. exfalso.
    assert (I : In 120 (fmt_d (r mod 2 ^ 48) ++ s2z "-"%string ++ fmt_d (r / 2 ^ 48))) by (rewrite E; right; left; reflexivity).
    rewrite !in_app_iff in I. destruct I as [I|[I|I]]; [revert I; apply fmt_d_no; [lia|apply not_digit; lia]|cbn in I; lia|revert I; apply fmt_d_no; [lia|apply not_digit; lia]].
  - rewrite (reference_parts r') by assumption. unfold reference_text. destruct (Z.ltb_spec 0x1000000000000 r); [lia|]. intros E. exfalso. symmetry in E.
    assert (I : In 120 (fmt_d (r' mod 2 ^ 48) ++ s2z "-"%string ++ fmt_d (r' / 2 ^ 48))) by (rewrite E; right; left; reflexivity).
    rewrite !in_app_iff in I. destruct I as [I|[I|I]]; [revert I; apply fmt_d_no; [lia|apply not_digit; lia]|cbn in I; lia|revert I; apply fmt_d_no; [lia|apply not_digit; lia]].
  - unfold reference_text. destruct (Z.ltb_spec 0x1000000000000 r); [lia|]. destruct (Z.ltb_spec 0x1000000000000 r'); [lia|]. intros E. apply app_inv_head in E.
    unfold fmt_x in E. apply fmt_int_inj in E; auto; lia.
Qed.

(** *** Flags *)

Lemma filter_concat {A} (c : A -> bool) (t : A -> list Z) ls : concat (map (fun l => if c l then [] else t l) ls) = concat (map t (filter (fun l => negb (c l)) ls)).
Proof. induction ls as [|l ls IH]; [reflexivity|]. cbn [map concat filter]. rewrite IH. destruct (c l); reflexivity. Qed.

Lemma flags_filter flags : flags_lines flags = concat (map (fun l : Z * str => (tabs2 ++ snd l) ++ [10]) (filter (fun l => negb (Z.land flags (fst l) =? 0)) flag_lines)).
Proof.
  unfold flags_lines. transitivity (concat (map (fun l : Z * str => tabs2 ++ snd l ++ [10]) (filter (fun l => negb (Z.land flags (fst l) =? 0)) flag_lines))).
  - exact (filter_concat (fun l : Z * str => Z.land flags (fst l) =? 0) (fun l : Z * str => tabs2 ++ snd l ++ [10]) flag_lines).
  - reflexivity.
Qed.

Lemma flag_lines_plain l : In l flag_lines -> ~ In 10 (tabs2 ++ snd l).
Proof.
  intros I. assert (T : forallb (fun l : Z * str => negb (existsb (Z.eqb 10) (tabs2 ++ snd l))) flag_lines = true) by (vm_compute; reflexivity).
  rewrite forallb_forall in T. specialize (T l I). apply negb_true_iff in T. intros J. assert (existsb (Z.eqb 10) (tabs2 ++ snd l) = true) by (apply existsb_exists; exists 10; split; [exact J|reflexivity]). congruence.
Qed.

Lemma flag_lines_text a b : In a flag_lines -> In b flag_lines -> snd a = snd b -> a = b.
Proof.
  intros I J E. unfold flag_lines in I, J. cbn [In] in I, J.
  repeat destruct I as [<-|I]; try destruct I; repeat destruct J as [<-|J]; try destruct J; try reflexivity; vm_compute in E; discriminate.
Qed.

Lemma flags_iff f g : flags_lines f = flags_lines g <-> forall i, In i shown_bits -> Z.testbit f i = Z.testbit g i.
Proof.
  assert (M : map fst flag_lines = map (fun i => 2 ^ i) shown_bits) by (vm_compute; reflexivity).
  assert (B : forall i, In i shown_bits -> exists l, In l flag_lines /\ fst l = 2 ^ i).
  { intros i I. assert (T : In (2 ^ i) (map fst flag_lines)) by (rewrite M; apply (in_map (fun i => 2 ^ i)), I). apply in_map_iff in T as (l & E & J). exists l. auto. }
  assert (B' : forall l, In l flag_lines -> exists i, In i shown_bits /\ fst l = 2 ^ i).
  { intros l I. apply (in_map fst) in I. rewrite M in I. apply in_map_iff in I as (i & E & J). exists i. auto. }
  assert (N : forall i, In i shown_bits -> 0 <= i) by (intros i I; unfold shown_bits in I; cbn [In] in I; lia).
  split.
  - rewrite !flags_filter. intros E. apply (lines_inj (fun l : Z * str => tabs2 ++ snd l) (fun l : Z * str => tabs2 ++ snd l)) in E;
      [|intros l I; apply filter_In in I as [I _]; exact (flag_lines_plain l I)|intros l I; apply filter_In in I as [I _]; exact (flag_lines_plain l I)].
    assert (S : forall a b, Forall2 (fun x y : Z * str => tabs2 ++ snd x = tabs2 ++ snd y) a b -> (forall x, In x a -> In x flag_lines) -> (forall x, In x b -> In x flag_lines) -> a = b).
    { induction 1 as [|x y a b H F IH]; intros Ia Ib; [reflexivity|]. f_equal; [|apply IH; intros z I; [apply Ia|apply Ib]; right; exact I].
      apply app_inv_head in H. apply flag_lines_text; [apply Ia; left; reflexivity|apply Ib; left; reflexivity|exact H]. }
    apply S in E; [|intros l I; apply filter_In in I as [I _]; exact I|intros l I; apply filter_In in I as [I _]; exact I].
    intros i I. destruct (B i I) as (l & J & L). assert (Q : In l (filter (fun l => negb (Z.land f (fst l) =? 0)) flag_lines) <-> In l (filter (fun l => negb (Z.land g (fst l) =? 0)) flag_lines)) by (rewrite E; tauto).
    rewrite !filter_In, L, !land_pow2, !negb_involutive in Q by (apply N, I). destruct (Z.testbit f i), (Z.testbit g i); intuition congruence.
  - intros H. unfold flags_lines. f_equal. apply map_ext_in. intros [m x] I. destruct (B' (m, x) I) as (i & J & E). cbn [fst snd] in *. subst m. rewrite !land_pow2 by (apply N, J). rewrite (H i J). reflexivity.
Qed.

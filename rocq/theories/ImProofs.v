From Verif Require Import Base BaseFacts BitFacts SeqSpec CoreModel StrModel StrFacts UuidModel DictModel LdbProofs TvModel TvProofs AulModel AulSpec CatModel FhModel FhSpec FhProofs ImModel ImSpec.
From Coq Require String.
Import String.StringSyntax.

(** ** References and addresses *)

Lemma truthy_iff o : truthy o = true <-> exists v, o = Some v /\ v <> 0.
Proof.
  destruct o as [v|]; cbn [truthy].
  - destruct (Z.eqb_spec v 0); cbn [negb]; split; try discriminate; [intros (w & E & N); exfalso; apply N; congruence|eauto|auto].
  - split; [discriminate|]. intros (v & E & _). discriminate.
Qed.

Lemma truthy_false o : truthy o = false <-> not_set o.
Proof.
  unfold not_set. destruct o as [v|]; cbn [truthy]; [|split; auto]. destruct (Z.eqb_spec v 0) as [->|N]; cbn [negb]; [split; auto|].
  split; [discriminate|]. intros [H|H]; [discriminate|]. exfalso. apply N. congruence.
Qed.

Lemma first_one o v : first_set [o] v <-> v = or0 o.
Proof.
  split.
  - intros H. inversion H as [|w l N|o' l w [-> | ->] F]; subst; [reflexivity| |]; inversion F; reflexivity.
  - intros ->. destruct o as [w|]; [|apply fs_next; [auto|constructor]]. destruct (Z.eq_dec w 0) as [->|N]; [apply fs_next; [auto|constructor]|apply fs_this; exact N].
Qed.

Lemma first_fun l : forall v w, first_set l v -> first_set l w -> v = w.
Proof.
  induction l as [|o l IH]; intros v w H1 H2; inversion H1 as [|x l' N|o' l' x O F]; inversion H2 as [|y l'' N'|o'' l'' y O' F']; subst; try congruence.
  - destruct O'; [discriminate|]. exfalso. apply N. congruence.
  - destruct O; [discriminate|]. exfalso. apply N'. congruence.
  - auto.
Qed.

Lemma first_two a b v : first_set [a; b] v <-> v = (if truthy a then or0 a else or0 b).
Proof.
  assert (E : first_set [a; b] (if truthy a then or0 a else or0 b)).
  { destruct (truthy a) eqn:T.
    - apply truthy_iff in T as (w & -> & N). apply fs_this. exact N.
    - apply truthy_false in T. apply fs_next; [exact T|]. apply first_one. reflexivity. }
  split; [intros H; exact (first_fun _ _ _ H E)|intros ->; exact E].
Qed.

Lemma dynamic_bit r : 0 <= r < 2 ^ 32 -> (Z.land r 0x80000000 =? 0) = (r <? 2 ^ 31).
Proof.
  intros H. replace (Z.land r 0x80000000) with (if r <? 2 ^ 31 then 0 else 2 ^ 31).
  { destruct (r <? 2 ^ 31); reflexivity. }
  apply Z.bits_inj'. intros n Hn. rewrite Z.land_spec. change 0x80000000 with (2 ^ 31). rewrite (Z.pow2_bits_eqb 31) by lia.
  destruct (Z.eqb_spec 31 n) as [<-|N]; rewrite ?Bool.andb_true_r, ?Bool.andb_false_r.
  - rewrite (Z.testbit_eqb r 31) by lia. destruct (Z.ltb_spec r (2 ^ 31)).
    + rewrite Z.div_small by lia. reflexivity.
    + rewrite Z.pow2_bits_true by lia. symmetry. apply Z.eqb_eq. assert (r / 2 ^ 31 = 1) as ->; [|reflexivity]. symmetry; apply (Z.div_unique r (2 ^ 31) 1 (r - 2 ^ 31)); lia.
  - destruct (r <? 2 ^ 31); [apply Z.bits_0|]. apply Z.pow2_bits_false. lia.
Qed.

Lemma low_bits r : 0 <= r < 2 ^ 32 -> (if negb (Z.land r 0x80000000 =? 0) then Z.land r 0x7fffffff else r) = r mod 2 ^ 31.
Proof.
  intros H. rewrite dynamic_bit by exact H. rewrite (land_mask r 31 0x7fffffff) by (lia || reflexivity).
  destruct (Z.ltb_spec r (2 ^ 31)); cbn [negb]; [|reflexivity]. rewrite Z.mod_small by lia. reflexivity.
Qed.

Lemma format_reference_ok loc r upper : 0 <= r < 2 ^ 32 -> first_set [lo_shared loc; lo_large loc] upper ->
  reference r upper (fst (format_reference loc r)) (snd (format_reference loc r)).
Proof.
  intros H U. apply first_two in U. unfold format_reference, reference. cbn [fst snd]. rewrite low_bits by exact H. pose proof (Z.mod_pos_bound r (2 ^ 31) ltac:(lia)). split.
  - subst upper. destruct (truthy (lo_shared loc)); [rewrite lor_add_shift by lia; lia|].
    destruct (truthy (lo_large loc)) eqn:T; [rewrite lor_add_shift by lia; lia|]. apply truthy_false in T as [-> | ->]; cbn [or0]; lia.
  - rewrite dynamic_bit by exact H. destruct (Z.ltb_spec r (2 ^ 31)); cbn [negb]; split; intros; try discriminate; try lia; reflexivity.
Qed.

Lemma name_reference_ok lower upper r u : 0 <= r < 2 ^ 32 -> first_set [lower] r -> first_set [upper] u ->
  reference r u (fst (name_reference lower upper)) (snd (name_reference lower upper)).
Proof.
  intros H L U. apply first_one in L. apply first_one in U. unfold name_reference, reference. cbn [fst snd]. rewrite <- L. rewrite low_bits by exact H. pose proof (Z.mod_pos_bound r (2 ^ 31) ltac:(lia)). split.
  - subst u. destruct (truthy upper) eqn:T; [rewrite lor_add_shift by lia; lia|]. apply truthy_false in T as [-> | ->]; cbn [or0]; lia.
  - rewrite dynamic_bit by exact H. destruct (Z.ltb_spec r (2 ^ 31)); cbn [negb]; split; intros; try discriminate; try lia; reflexivity.
Qed.

Lemma joined_iff a s b c : 0 <= s -> (0 <= a /\ 0 <= b /\ 0 <= c) -> (joined a s b c <-> c = Z.lor a (Z.shiftl b s)).
Proof.
  intros Hs (Ha & Hb & Hc). assert (B : forall i, 0 <= i -> Z.testbit (Z.lor a (Z.shiftl b s)) i = true <-> Z.testbit a i = true \/ (s <= i /\ Z.testbit b (i - s) = true)).
  { intros i Hi. rewrite Z.lor_spec, Bool.orb_true_iff, Z.shiftl_spec by exact Hi. destruct (Z_le_gt_dec s i) as [L|L].
    - split; [intros [H|H]; auto|]. intros [H|[_ H]]; auto.
    - rewrite (Z.testbit_neg_r b (i - s)) by lia. split; [intros [H|H]; [auto|discriminate]|]. intros [H|[H _]]; [auto|lia]. }
  split; [|intros ->; exact B]. intros J. apply Z.bits_inj'. intros i Hi. specialize (J i Hi). specialize (B i Hi).
  destruct (Z.testbit c i), (Z.testbit (Z.lor a (Z.shiftl b s)) i); try reflexivity; [symmetry; apply B, J; reflexivity|apply J, B; reflexivity].
Qed.

Lemma base_address loc : stored_location loc -> Z.lor (Z.shiftl (or0 (lo_upper loc)) 32) (lo_lower loc) = lo_lower loc + 2 ^ 32 * or0 (lo_upper loc).
Proof. intros (H & _). rewrite lor_shiftl by lia. lia. Qed.

Lemma opt_or0 n o : 0 <= n -> opt_in n o -> 0 <= or0 o < 2 ^ n.
Proof. intros Hn H. destruct o; cbn in *; [exact H|]. pose proof (Z.pow_pos_nonneg 2 n). lia. Qed.

Lemma program_counter_ok loc text a : stored_location loc -> 0 <= a -> (load_address loc a <-> program_counter loc text = a - text).
Proof.
  intros S Pa. unfold program_counter. rewrite base_address by exact S. destruct S as (Hl & Hg & Hu & Hs).
  pose proof (opt_or0 16 _ ltac:(lia) Hg) as G. pose proof (opt_or0 16 _ ltac:(lia) Hu) as U. pose proof (opt_or0 16 _ ltac:(lia) Hs) as Sh.
  set (base := lo_lower loc + 2 ^ 32 * or0 (lo_upper loc)). assert (Hb : 0 <= base) by (unfold base; lia).
  rewrite shiftr_div by lia. change (2 ^ 1) with 2.
  assert (F : forall x, x - text = a - text <-> a = x) by lia.
  assert (UU : forall x, first_set [lo_upper loc] x -> lo_lower loc + 2 ^ 32 * x = base) by (intros x Hx; apply first_one in Hx; subst x; reflexivity).
  assert (UE : first_set [lo_upper loc] (or0 (lo_upper loc))) by (apply first_one; reflexivity).
  assert (NN : forall o v, not_set o -> o = Some v -> v <> 0 -> False) by (intros o v [-> | ->] E N; [discriminate|apply N; congruence]).
  destruct (truthy (lo_shared loc)) eqn:TS.
  - apply truthy_iff in TS as (v & Ev & Nv). rewrite Ev in *. cbn [or0] in *.
    destruct (truthy (lo_large loc) && negb (or0 (lo_large loc) =? v / 2)) eqn:TL.
    + apply andb_true_iff in TL as [TL N]. apply truthy_iff in TL as (w & Ew & Nw). rewrite Ew in *. cbn [or0] in *. destruct (Z.eqb_spec w (v / 2)); [discriminate|].
      rewrite F, <- joined_iff by (lia || (repeat split; lia)). split.
      * intros L. inversion L as [x A B C|x a' y A B C D E|x a' y A B C D E|x w' a' y A B C D D' E J]; subst.
        -- exfalso. eapply NN; eassumption.
        -- exfalso. eapply NN; eassumption.
        -- destruct C as [C|C]; [exfalso; eapply NN; eassumption|]. exfalso. assert (x = v) by congruence. subst x. congruence.
        -- rewrite (UU _ E) in J. assert (w' = w) by congruence. subst w'. exact J.
      * intros J. eapply la_invalid; eauto.
    + assert (L' : not_set (lo_large loc) \/ lo_large loc = Some (v / 2)).
      { apply andb_false_iff in TL as [TL|TL]; [left; apply truthy_false; exact TL|]. destruct (lo_large loc) as [w|]; [|left; left; reflexivity]. cbn [or0] in TL. destruct (Z.eqb_spec w (v / 2)); [right; congruence|discriminate]. }
      rewrite F, <- joined_iff by (lia || (repeat split; lia)). split.
      * intros L. inversion L as [x A B C|x a' y A B C D E|x a' y A B C D E|x w' a' y A B C D D' E J]; subst.
        -- exfalso; exact (NN _ _ A Ev Nv).
        -- exfalso; exact (NN _ _ A Ev Nv).
        -- rewrite (UU _ D) in E. assert (x = v) by congruence. subst x. exact E.
        -- exfalso. destruct L' as [L'|L']; [eapply NN; eassumption|]. assert (x = v) by congruence. subst x. congruence.
      * intros J. eapply la_shared; eauto.
  - apply truthy_false in TS. destruct (truthy (lo_large loc)) eqn:TL.
    + apply truthy_iff in TL as (w & Ew & Nw). rewrite Ew in *. cbn [or0] in *. rewrite F, <- joined_iff by (lia || (repeat split; lia)). split.
      * intros L. inversion L as [x A B C|x a' y A B C D E|x a' y A B C D E|x w' a' y A B C D D' E J]; subst; try (exfalso; eapply NN; eassumption).
        rewrite (UU _ D) in E. assert (x = w) by congruence. subst x. exact E.
      * intros J. eapply la_large; eauto.
    + apply truthy_false in TL. rewrite F. split.
      * intros L. inversion L as [x A B C|x a' y A B C D E|x a' y A B C D E|x w' a' y A B C D D' E J]; subst; try (exfalso; first [exact (NN _ _ TS A B)|exact (NN _ _ TL B C)]).
        exact (UU _ C).
      * intros ->. apply la_plain; assumption.
Qed.

(** ** Names of files *)

Definition hex_chars : str := s2z "0123456789ABCDEF"%string.

Lemma hex_char v : 0 <= v < 16 -> nth_error hex_chars (Z.to_nat v) = Some (upper_char (digit_char v)).
Proof.
  intros H. assert (G : forall n, (n < 16)%nat -> nth_error hex_chars n = Some (upper_char (digit_char (Z.of_nat n)))) by (intros n Hn; do 16 (destruct n as [|n]; [reflexivity|]); lia).
  specialize (G (Z.to_nat v) ltac:(lia)). rewrite Z2Nat.id in G by lia. exact G.
Qed.

Lemma hex_char_inj v w : 0 <= v < 16 -> 0 <= w < 16 -> upper_char (digit_char v) = upper_char (digit_char w) -> v = w.
Proof.
  intros Hv Hw E. assert (N : NoDup hex_chars) by (unfold hex_chars; repeat constructor; cbn; intuition discriminate).
  rewrite NoDup_nth_error in N. assert (Z.to_nat v = Z.to_nat w); [|lia]. apply N; [change (length hex_chars) with 16%nat; lia|]. rewrite !hex_char by assumption. congruence.
Qed.

Lemma uuid_key_cons b l : uuid_key (b :: l) = upper_char (digit_char (b / 16)) :: upper_char (digit_char (b mod 16)) :: uuid_key l.
Proof. reflexivity. Qed.

Lemma byte_halves b : is_byte b -> 0 <= b / 16 < 16 /\ 0 <= b mod 16 < 16.
Proof. intros H. unfold is_byte in H. split; [|apply Z.mod_pos_bound; lia]. split; [apply Z.div_pos; lia|apply Z.div_lt_upper_bound; lia]. Qed.

Lemma hex_iff u s : is_bytes u -> (hex_of u s <-> s = uuid_key u).
Proof.
  intros Hb. revert s. induction Hb as [|b l B F IH]; intros s.
  - split; [intros H; inversion H; reflexivity|]. intros ->. constructor.
  - destruct (byte_halves b B) as [B1 B2]. rewrite uuid_key_cons. split.
    + intros H. inversion H as [|b' l' s' c d H' C D]; subst. apply IH in H' as ->. fold hex_chars in C, D. rewrite hex_char in C, D by assumption. congruence.
    + intros ->. constructor; [apply IH; reflexivity| |]; apply hex_char; assumption.
Qed.

Lemma uuid_key_inj u w : is_bytes u -> is_bytes w -> uuid_key u = uuid_key w -> u = w.
Proof.
  intros Hu. revert w. induction Hu as [|b l B F IH]; intros w Hw E; destruct Hw as [|b' l' B' F']; [reflexivity|rewrite uuid_key_cons in E; discriminate|rewrite uuid_key_cons in E; discriminate|].
  rewrite !uuid_key_cons in E. destruct (byte_halves b B) as [B1 B2]. destruct (byte_halves b' B') as [B3 B4].
  assert (b / 16 = b' / 16) by (apply hex_char_inj; [assumption..|congruence]). assert (b mod 16 = b' mod 16) by (apply hex_char_inj; [assumption..|congruence]).
  f_equal; [|apply IH; [exact F'|congruence]]. rewrite (Z.div_mod b 16), (Z.div_mod b' 16) by lia. congruence.
Qed.

Lemma uuid_key_len u : len (uuid_key u) = 2 * len u.
Proof. induction u as [|b l IH]; [reflexivity|]. rewrite uuid_key_cons. unfold len in *. cbn [length]. lia. Qed.

Lemma image_key_inj u w r r' : is_bytes u -> is_bytes w -> len u = len w -> 0 <= r -> 0 <= r' -> image_key u r = image_key w r' -> u = w /\ r = r'.
Proof.
  intros Hu Hw L R R' E. unfold image_key in E. apply app_same_len in E as [E1 E2]; [|rewrite !uuid_key_len; lia]. split; [apply uuid_key_inj; assumption|].
  apply app_inv_head in E2. unfold fmt_x in E2. apply fmt_int_inj in E2; [exact E2|lia].
Qed.

(** ** Files *)

Lemma text_iff utf8 fs u f : is_bytes u -> 0 < len u -> (open_text utf8 fs (uuid_key u) = Ok f <-> text_file utf8 fs u f).
Proof.
  intros Hb L. destruct u as [|b l]; [cbn in L; lia|]. assert (K : forall s, hex_of (b :: l) s <-> s = uuid_key (b :: l)) by (intros s; apply hex_iff; exact Hb).
  rewrite uuid_key_cons in *. unfold open_text. cbn [firstn skipn]. set (c := upper_char (digit_char (b / 16))) in *. set (d := upper_char (digit_char (b mod 16))) in *. unfold bytes, str in *. split.
  - match goal with |- context [fs ?p] => destruct (fs p) as [content|] eqn:E end.
    + destruct (read_uuidtext utf8 content) as [[es path]|x] eqn:R; cbn [bind]; [|discriminate]. intros H. assert (f = Some (mkuf content es path)) as -> by congruence.
      eapply tf_file; [apply K; reflexivity|exact E|exact R].
    + intros H. assert (f = None) as -> by congruence. eapply tf_none; [apply K; reflexivity|exact E].
  - intros H. destruct H as [c' d' s H E|c' d' s content es path H E R]; apply K in H; assert (c' = c /\ d' = d /\ s = uuid_key l) as (-> & -> & ->) by (repeat split; congruence); rewrite E; [reflexivity|].
    rewrite R. reflexivity.
Qed.

Lemma dsc_iff utf8 fs u f : is_bytes u -> (open_dsc utf8 fs (uuid_key u) = Ok f <-> shared_file utf8 fs u f).
Proof.
  intros Hb. assert (K : forall s, hex_of u s <-> s = uuid_key u) by (intros s; apply hex_iff; exact Hb). unfold open_dsc. split.
  - match goal with |- context [fs ?p] => destruct (fs p) as [content|] eqn:E end.
    + destruct (read_dsc utf8 content) as [l|x] eqn:R; cbn [bind]; [|discriminate]. intros H. assert (f = Some (mkdf content l)) as -> by congruence.
      eapply sf_file; [apply K; reflexivity|exact E|exact R].
    + intros H. assert (f = None) as -> by congruence. eapply sf_none; [apply K; reflexivity|exact E].
  - intros H. destruct H as [s H E|s content l H E R]; apply K in H; subst s; rewrite E; [reflexivity|]. rewrite R. reflexivity.
Qed.

(** ** Strings files *)

Lemma land_bit flags k : 0 <= k -> Z.land flags (2 ^ k) = if Z.testbit flags k then 2 ^ k else 0.
Proof.
  intros Hk. apply Z.bits_inj'. intros i Hi. rewrite Z.land_spec. rewrite Z.pow2_bits_eqb by lia. destruct (Z.eqb_spec k i) as [->|N].
  - destruct (Z.testbit flags i); [now rewrite Z.pow2_bits_true by lia|]. now rewrite Z.bits_0.
  - rewrite andb_false_r. destruct (Z.testbit flags k); [|now rewrite Z.bits_0]. now rewrite Z.pow2_bits_false by lia.
Qed.

Lemma type_value flags : Z.land flags 0x000e =
  Z.lor (if Z.testbit flags 1 then 2 else 0) (Z.lor (if Z.testbit flags 2 then 4 else 0) (if Z.testbit flags 3 then 8 else 0)).
Proof.
  change 0x000e with (Z.lor (2 ^ 1) (Z.lor (2 ^ 2) (2 ^ 3))). rewrite !Z.land_lor_distr_r, !land_bit by lia. reflexivity.
Qed.

Definition stored_entries (k : option known) : Prop :=
  match k with Some k => Forall stored_entry (pr_uuids (kn_process k)) | None => True end.

Lemma entry_cond upper lower e : 0 <= ue_size e -> (negb (upper =? ue_upper e) || (lower <? ue_lower e) = false /\ (lower <=? ue_lower e + ue_size e) = true) <->
  entry_has upper lower e \/ entry_ends upper lower e.
Proof.
  intros Hs. unfold entry_has, entry_ends. rewrite orb_false_iff, negb_false_iff, Z.eqb_eq, Z.ltb_ge, Z.leb_le. split; [|lia]. intros [[-> H] H'].
  destruct (Z_lt_ge_dec lower (ue_lower e + ue_size e)); [left; lia|right; lia].
Qed.

Lemma find_entry_iff uuids upper lower l : Forall stored_entry l ->
  (find_entry uuids upper lower l = Ok None <-> Forall (fun e => ~ entry_has upper lower e /\ ~ entry_ends upper lower e) l) /\
  (forall u text, find_entry uuids upper lower l = Ok (Some (u, text)) <-> exists pre e post, l = pre ++ e :: post /\
     (entry_has upper lower e \/ entry_ends upper lower e) /\ Forall (fun e => ~ entry_has upper lower e /\ ~ entry_ends upper lower e) pre /\
     nth_error uuids (Z.to_nat (ue_index e)) = Some u /\ text = ue_lower e + 2 ^ 32 * ue_upper e).
Proof.
  induction 1 as [|e l (I & Si & L) F [IH1 IH2]]; cbn [find_entry].
  - split; [split; [constructor|reflexivity]|]. intros u text. split; [discriminate|]. intros (pre & e & post & E & _). destruct pre; discriminate.
  - pose proof (entry_cond upper lower e Si) as C.
    assert (Skip : ~ (entry_has upper lower e \/ entry_ends upper lower e) ->
      (find_entry uuids upper lower l = Ok None <-> Forall (fun e => ~ entry_has upper lower e /\ ~ entry_ends upper lower e) (e :: l)) /\
      (forall u text, find_entry uuids upper lower l = Ok (Some (u, text)) <-> exists pre e' post, e :: l = pre ++ e' :: post /\
         (entry_has upper lower e' \/ entry_ends upper lower e') /\ Forall (fun e => ~ entry_has upper lower e /\ ~ entry_ends upper lower e) pre /\
         nth_error uuids (Z.to_nat (ue_index e')) = Some u /\ text = ue_lower e' + 2 ^ 32 * ue_upper e')).
    { intros N. split.
      - rewrite IH1. split; [intros H; constructor; [split; intros X; apply N; auto|exact H]|]. intros H. inversion H; assumption.
      - intros u text. rewrite IH2. split.
        + intros (pre & e' & post & -> & H & P & Q). exists (e :: pre), e', post. split; [reflexivity|]. split; [exact H|]. split; [constructor; [split; intros X; apply N; auto|exact P]|exact Q].
        + intros (pre & e' & post & E & H & P & Q). destruct pre as [|e'' pre]; cbn [app] in E.
          * assert (e' = e) as -> by congruence. contradiction.
          * assert (e'' = e /\ l = pre ++ e' :: post) as [-> ->] by (split; congruence). exists pre, e', post. split; [reflexivity|]. split; [exact H|]. split; [inversion P; assumption|exact Q]. }
    destruct (negb (upper =? ue_upper e) || (lower <? ue_lower e)) eqn:C1; [apply Skip; intros X; apply C in X as [X _]; discriminate|].
    destruct (lower <=? ue_lower e + ue_size e) eqn:C2; [|apply Skip; intros X; apply C in X as [_ X]; discriminate].
    assert (H : entry_has upper lower e \/ entry_ends upper lower e) by (apply C; auto). clear Skip.
    assert (T : Z.lor (ue_lower e) (Z.shiftl (ue_upper e) 32) = ue_lower e + 2 ^ 32 * ue_upper e) by (rewrite lor_add_shift by lia; lia). rewrite T. clear T.
    assert (Ix : pyindex uuids (ue_index e) = match nth_error uuids (Z.to_nat (ue_index e)) with Some u => Ok u | None => Err IndexError end).
    { unfold pyindex. assert (LT : (ue_index e <? 0) = false) by (apply Z.ltb_ge; exact I). rewrite !LT, znth_error_nth by lia. reflexivity. }
    rewrite Ix. split.
    + split; [destruct (nth_error uuids (Z.to_nat (ue_index e))); discriminate|]. intros X. inversion X as [|? ? [N1 N2]]. destruct H; contradiction.
    + intros u text. destruct (nth_error uuids (Z.to_nat (ue_index e))) as [w|] eqn:N; cbn [bind].
      * split.
        -- intros E. exists [], e, l. split; [reflexivity|]. split; [exact H|]. split; [constructor|]. split; congruence.
        -- intros (pre & e' & post & E & H' & P & Q & R). destruct pre as [|e'' pre]; cbn [app] in E; [assert (e' = e) as -> by congruence; congruence|].
           assert (e'' = e) as -> by congruence. inversion P as [|? ? [N1 N2]]. destruct H; contradiction.
      * split; [discriminate|]. intros (pre & e' & post & E & H' & P & Q & R). destruct pre as [|e'' pre]; cbn [app] in E; [assert (e' = e) as -> by congruence; congruence|].
        assert (e'' = e) as -> by congruence. inversion P as [|? ? [N1 N2]]. destruct H; contradiction.
Qed.

Lemma strings_file_iff q o : stored_entries (rq_process q) ->
  (strings_file (rq_flags q) (rq_process q) (rq_uuids q) (rq_loc q) = Ok o <-> strings_of q o).
Proof.
  intros S. unfold strings_file. rewrite type_value.
  assert (G : forall b1 b2 b3 c1 c2 c3, type_bits (rq_flags q) b1 b2 b3 -> type_bits (rq_flags q) c1 c2 c3 -> b1 = c1 /\ b2 = c2 /\ b3 = c3) by (intros b1 b2 b3 c1 c2 c3 (A1 & A2 & A3) (B1 & B2 & B3); repeat split; congruence).
  assert (T : type_bits (rq_flags q) (Z.testbit (rq_flags q) 1) (Z.testbit (rq_flags q) 2) (Z.testbit (rq_flags q) 3)) by (repeat split).
  destruct (Z.testbit (rq_flags q) 1), (Z.testbit (rq_flags q) 2), (Z.testbit (rq_flags q) 3);
    match goal with |- context [one_of ?v ?l] => let x := eval vm_compute in (one_of v l) in change (one_of v l) with x end; cbn [guard bind];
    try (split; [discriminate|]; intros H; inversion H as [k u A|b k u A|k pre e post u upper A|k upper A|u A]; destruct (G _ _ _ _ _ _ A T) as (? & ? & ?); discriminate).
  - (* own identifier *) change (Z.lor 2 (Z.lor 0 8) =? 2) with false. change (one_of (Z.lor 2 (Z.lor 0 8)) [4; 12]) with false. change (Z.lor 2 (Z.lor 0 8) =? 8) with false. cbn iota. split.
    + destruct (lo_uuid (rq_loc q)) as [u|] eqn:U; [|discriminate]. intros H. assert (o = Some (u, 0)) as -> by congruence. apply so_own; assumption.
    + intros H; inversion H as [k u A|b k u A|k pre e post u upper A|k upper A|u A U]; destruct (G _ _ _ _ _ _ A T) as (? & ? & ?); try discriminate. rewrite U. reflexivity.
  - (* main *) change (Z.lor 2 (Z.lor 0 0) =? 2) with true. cbn iota. split.
    + unfold attribute. destruct (rq_process q) as [k|] eqn:P; [|discriminate]. destruct (kn_main k) as [u|] eqn:U; [|discriminate]. cbn [bind]. intros H. assert (o = Some (u, 0)) as -> by congruence. eapply so_main; eassumption.
    + intros H; inversion H as [k u A P U|b k u A|k pre e post u upper A|k upper A|u A]; destruct (G _ _ _ _ _ _ A T) as (? & ? & ?); try discriminate. unfold attribute. rewrite P, U. reflexivity.
  - change (Z.lor 0 (Z.lor 4 8) =? 2) with false. change (one_of (Z.lor 0 (Z.lor 4 8)) [4; 12]) with true. cbn iota. split.
    + unfold attribute. destruct (rq_process q) as [k|] eqn:P; [|discriminate]. destruct (kn_dsc k) as [u|] eqn:U; [|discriminate]. cbn [bind]. intros H. assert (o = Some (u, 0)) as -> by congruence. eapply so_dsc; eassumption.
    + intros H; inversion H as [k u A|b k u A P U|k pre e post u upper A|k upper A|u A]; destruct (G _ _ _ _ _ _ A T) as (? & ? & ?); try discriminate. unfold attribute. rewrite P, U. reflexivity.
  - change (Z.lor 0 (Z.lor 4 0) =? 2) with false. change (one_of (Z.lor 0 (Z.lor 4 0)) [4; 12]) with true. cbn iota. split.
    + unfold attribute. destruct (rq_process q) as [k|] eqn:P; [|discriminate]. destruct (kn_dsc k) as [u|] eqn:U; [|discriminate]. cbn [bind]. intros H. assert (o = Some (u, 0)) as -> by congruence. eapply so_dsc; eassumption.
    + intros H; inversion H as [k u A|b k u A P U|k pre e post u upper A|k upper A|u A]; destruct (G _ _ _ _ _ _ A T) as (? & ? & ?); try discriminate. unfold attribute. rewrite P, U. reflexivity.
  - change (Z.lor 0 (Z.lor 0 8) =? 2) with false. change (one_of (Z.lor 0 (Z.lor 0 8)) [4; 12]) with false. change (Z.lor 0 (Z.lor 0 8) =? 8) with true. cbn iota. split.
    + unfold stored_entries in S. destruct (rq_process q) as [k|] eqn:P; [|discriminate].
      destruct (find_entry_iff (rq_uuids q) (or0 (lo_upper (rq_loc q))) (lo_lower (rq_loc q)) _ S) as [F1 F2]. intros H. destruct o as [[u text]|].
      * apply F2 in H as (pre & e & post & E & He & Pre & N & ->). eapply so_absolute; [exact T|exact P|apply first_one; reflexivity|exact E|exact He|exact Pre|exact N].
      * apply F1 in H. eapply so_nowhere; [exact T|exact P|apply first_one; reflexivity|exact H].
    + intros H; inversion H as [k u A|b k u A|k pre e post u upper A P Fi E He Pre N|k upper A P Fi Fa|u A]; destruct (G _ _ _ _ _ _ A T) as (? & ? & ?); try discriminate.
      * rewrite P in *. cbn [stored_entries] in S. apply first_one in Fi. subst upper. destruct (find_entry_iff (rq_uuids q) (or0 (lo_upper (rq_loc q))) (lo_lower (rq_loc q)) _ S) as [F1 F2].
        apply F2. exists pre, e, post. auto.
      * rewrite P in *. cbn [stored_entries] in S. apply first_one in Fi. subst upper. destruct (find_entry_iff (rq_uuids q) (or0 (lo_upper (rq_loc q))) (lo_lower (rq_loc q)) _ S) as [F1 F2].
        apply F1. exact Fa.
Qed.

(** ** Caches *)

Definition all_sound {A} (P : str -> A -> Prop) (l : sdict A) : Prop := Forall (fun x => P (fst x) (snd x)) l.

Lemma all_sound_get {A} (P : str -> A -> Prop) k l v : all_sound P l -> sdict_get k l = Some v -> P k v.
Proof.
  induction 1 as [|[k' v'] l H F IH]; cbn [sdict_get]; [discriminate|]. destruct (list_eqb k' k) eqn:E; [|exact IH]. apply list_eqb_eq in E as ->. intros [= <-]. exact H.
Qed.

Lemma all_sound_drop {A} (P : str -> A -> Prop) k l : all_sound P l -> all_sound P (drop_key k l).
Proof. induction 1 as [|[k' v'] l H F IH]; cbn [drop_key]; [constructor|]. destruct (list_eqb k' k); [exact F|constructor; [exact H|exact IH]]. Qed.

Lemma all_sound_removelast {A} (P : str -> A -> Prop) l : all_sound P l -> all_sound P (removelast l).
Proof.
  intros F. destruct l as [|x l]; [exact F|]. assert (N : x :: l <> []) by discriminate. unfold all_sound in *. rewrite (app_removelast_last x N) in F. apply Forall_app in F as [F _]. exact F.
Qed.

Lemma drop_key_len {A} k (l : sdict A) : len (drop_key k l) <= len l /\ (sdict_get k l <> None -> len (drop_key k l) < len l).
Proof.
  induction l as [|[k' v'] l [IH1 IH2]]; cbn [drop_key sdict_get]; [split; [lia|congruence]|]. destruct (list_eqb k' k); unfold len in *; cbn [length]; split; try lia.
Qed.

Lemma removelast_len {A} (l : list A) : len (removelast l) = if len l =? 0 then 0 else len l - 1.
Proof.
  induction l as [|x l IH]; [reflexivity|]. cbn [removelast]. destruct l as [|y l]; [reflexivity|]. cbn [removelast] in *. unfold len in *. cbn [length] in *.
  rewrite Nat2Z.inj_succ, IH. destruct (Z.eqb_spec (Z.of_nat (S (length l))) 0), (Z.eqb_spec (Z.of_nat (S (S (length l)))) 0); lia.
Qed.

(** A cache of which all values satisfy [P]. *)
Lemma cached_sound {A} (P : str -> A -> Prop) max ready open k (l : sdict A) v l' : 0 < max -> all_sound P l -> len l <= max ->
  (forall x, open = Ok x -> P k x) -> cached max ready open k l = Ok (v, l') -> P k v /\ all_sound P l' /\ len l' <= max.
Proof.
  intros M F L O H. unfold cached in H.
  assert (Miss : (do v <- open; let l := if max <=? len l then removelast l else l in Ok (v, (k, v) :: drop_key k l)) = Ok (v, l') -> P k v /\ all_sound P l' /\ len l' <= max).
  { destruct open as [x|e]; cbn [bind]; [|discriminate]. intros E. cbv zeta in E. injection E as Ex <-. subst x.
    specialize (O v eq_refl). split; [exact O|]. set (m := if max <=? len l then removelast l else l). assert (Fm : all_sound P m) by (unfold m; destruct (max <=? len l); [apply all_sound_removelast|]; exact F).
    assert (Lm : len m < max). { unfold m. destruct (Z.leb_spec max (len l)); [|lia]. rewrite removelast_len. destruct (Z.eqb_spec (len l) 0); lia. }
    split; [constructor; [exact O|apply all_sound_drop; exact Fm]|]. destruct (drop_key_len k m) as [D _]. unfold len in *. cbn [length]. lia. }
  destruct (sdict_get k l) as [x|] eqn:G; [|apply Miss; exact H]. destruct (ready x); [|apply Miss; exact H].
  assert (x = v) as -> by congruence. assert (l' = (k, v) :: drop_key k l) as -> by congruence. pose proof (all_sound_get P k l v F G) as Pv. split; [exact Pv|].
  split; [constructor; [exact Pv|apply all_sound_drop; exact F]|]. destruct (drop_key_len k l) as [_ D]. rewrite G in D. specialize (D ltac:(discriminate)). unfold len in *. cbn [length]. lia.
Qed.

(** A cache of values that were determined in the same way does not matter. *)
Lemma cached_same {A} (find : str -> result A) max ready k (l : sdict A) : all_sound (fun k v => find k = Ok v) l ->
  match cached max ready (find k) k l with Ok (v, _) => find k = Ok v | Err e => find k = Err e end.
Proof.
  intros F. unfold cached. destruct (sdict_get k l) as [x|] eqn:G.
  - pose proof (all_sound_get _ k l x F G) as Px. cbn beta in Px. rewrite Px. cbn [bind]. destruct (ready x); reflexivity.
  - destruct (find k); reflexivity.
Qed.

Definition files_ok (utf8 : bytes -> option str) (fs : list str -> option bytes) (st : caches) : Prop :=
  all_sound (fun k v => open_text utf8 fs k = Ok v) (cc_texts st) /\ len (cc_texts st) <= 64 /\
  all_sound (fun k v => open_dsc utf8 fs k = Ok v) (cc_dscs st) /\ len (cc_dscs st) <= 64.

Lemma get_text_ok utf8 fs u st : files_ok utf8 fs st ->
  match get_text utf8 fs u st with
  | Ok (f, st') => open_text utf8 fs (uuid_key u) = Ok f /\ files_ok utf8 fs st' /\ cc_images st' = cc_images st
  | Err e => open_text utf8 fs (uuid_key u) = Err e
  end.
Proof.
  intros (F1 & L1 & F2 & L2). unfold get_text. pose proof (cached_same (open_text utf8 fs) 64 is_some (uuid_key u) (cc_texts st) F1) as C.
  destruct (cached 64 is_some (open_text utf8 fs (uuid_key u)) (uuid_key u) (cc_texts st)) as [[f l]|e] eqn:E; cbn [bind]; [|exact C].
  split; [exact C|]. apply (cached_sound (fun k v => open_text utf8 fs k = Ok v)) in E as (_ & S & L); [|lia|exact F1|exact L1|auto]. split; [repeat split; assumption|reflexivity].
Qed.

Lemma get_dsc_ok utf8 fs u st : files_ok utf8 fs st ->
  match get_dsc utf8 fs u st with
  | Ok (f, st') => open_dsc utf8 fs (uuid_key u) = Ok f /\ files_ok utf8 fs st' /\ cc_images st' = cc_images st
  | Err e => open_dsc utf8 fs (uuid_key u) = Err e
  end.
Proof.
  intros (F1 & L1 & F2 & L2). unfold get_dsc. pose proof (cached_same (open_dsc utf8 fs) 64 is_some (uuid_key u) (cc_dscs st) F2) as C.
  destruct (cached 64 is_some (open_dsc utf8 fs (uuid_key u)) (uuid_key u) (cc_dscs st)) as [[f l]|e] eqn:E; cbn [bind]; [|exact C].
  split; [exact C|]. apply (cached_sound (fun k v => open_dsc utf8 fs k = Ok v)) in E as (_ & S & L); [|lia|exact F2|exact L2|auto]. split; [repeat split; assumption|reflexivity].
Qed.

Lemma by_dsc_iff flags : In (Z.land flags 0x000e) [2; 4; 8; 10; 12] -> (by_dsc flags <-> one_of (Z.land flags 0x000e) [0x0002; 0x0008; 0x000a] = false).
Proof.
  intros I. unfold by_dsc, type_bits. rewrite type_value in *. split.
  - intros (b & -> & -> & ->). destruct b; reflexivity.
  - intros H. exists (Z.testbit flags 3). split; [|split; [|reflexivity]]; destruct (Z.testbit flags 1), (Z.testbit flags 2), (Z.testbit flags 3); try reflexivity; try discriminate H; exfalso;
      repeat (destruct I as [I|I]; [discriminate I|]); exact I.
Qed.

Lemma invalid_iff loc : invalid_pointer loc <-> negb (or0 (lo_large loc) =? 0) && truthy (lo_shared loc) && negb (or0 (lo_large loc) =? Z.shiftr (or0 (lo_shared loc)) 1) = true.
Proof.
  unfold invalid_pointer. rewrite !andb_true_iff, !negb_true_iff, !Z.eqb_neq, truthy_iff. rewrite Z.shiftr_div_pow2 by lia. change (2 ^ 1) with 2. split.
  - intros (v & w & E1 & N1 & E2 & N2 & N3). rewrite E1, E2. cbn [or0]. split; [split; [exact N2|exists v; auto]|exact N3].
  - intros ((N & (v & E & Nv)) & D). rewrite E in *. cbn [or0] in D. destruct (lo_large loc) as [w|]; cbn [or0] in *; [|congruence]. exists v, w. auto.
Qed.

(** The image without caches. *)
Definition fresh_image (utf8 : bytes -> option str) (fs : list str -> option bytes) (type : Z) (u : bytes) (text : Z) (loc : location) (r : Z) (dynamic : bool) : result image :=
  do (i, st) <- load_image utf8 fs type u text loc r dynamic (mkca [] [] []); Ok i.

Lemma load_image_ok utf8 fs type u text loc r dynamic st : files_ok utf8 fs st ->
  match load_image utf8 fs type u text loc r dynamic st with
  | Ok (i, st') => fresh_image utf8 fs type u text loc r dynamic = Ok i /\ files_ok utf8 fs st' /\ cc_images st' = cc_images st
  | Err e => fresh_image utf8 fs type u text loc r dynamic = Err e
  end.
Proof.
  intros S. assert (S0 : files_ok utf8 fs (mkca [] [] [])) by (repeat split; cbn; try constructor; lia). unfold fresh_image, load_image. destruct (one_of type [2; 8; 10]).
  - pose proof (get_text_ok utf8 fs u st S) as G. pose proof (get_text_ok utf8 fs u _ S0) as G0.
    destruct (get_text utf8 fs u st) as [[f st1]|e], (get_text utf8 fs u (mkca [] [] [])) as [[f0 st0]|e0]; cbn [bind].
    + destruct G as (G & K & C), G0 as (G0 & _ & _). assert (f0 = f) as -> by congruence. destruct f as [f|]; [|split; [reflexivity|split; [exact K|exact C]]].
      destruct dynamic; [split; [reflexivity|split; [exact K|exact C]]|]. destruct (get_string utf8 (uf_content f) (uf_entries f) r) as [[s|]|e]; cbn [bind]; try (split; [reflexivity|split; [exact K|exact C]]). reflexivity.
    + destruct G as (G & _). congruence.
    + destruct G0 as (G0 & _). congruence.
    + congruence.
  - pose proof (get_dsc_ok utf8 fs u st S) as G. pose proof (get_dsc_ok utf8 fs u _ S0) as G0.
    destruct (get_dsc utf8 fs u st) as [[f st1]|e], (get_dsc utf8 fs u (mkca [] [] [])) as [[f0 st0]|e0]; cbn [bind].
    + destruct G as (G & K & C), G0 as (G0 & _ & _). assert (f0 = f) as -> by congruence.
      destruct (match f with Some f => get_image_values utf8 (df_content f) (df_ranges f) r dynamic | None => Ok None end) as [v|e]; cbn [bind]; [|reflexivity].
      destruct (negb (or0 (lo_large loc) =? 0) && truthy (lo_shared loc) && negb (or0 (lo_large loc) =? Z.shiftr (or0 (lo_shared loc)) 1)); cbn [bind]; split; try reflexivity; split; assumption.
    + destruct G as (G & _). congruence.
    + destruct G0 as (G0 & _). congruence.
    + congruence.
Qed.

Lemma get_text_new utf8 fs u : get_text utf8 fs u (mkca [] [] []) = do f <- open_text utf8 fs (uuid_key u); Ok (f, mkca [(uuid_key u, f)] [] []).
Proof. unfold get_text, cached. cbn [cc_texts sdict_get]. destruct (open_text utf8 fs (uuid_key u)); reflexivity. Qed.
Lemma get_dsc_new utf8 fs u : get_dsc utf8 fs u (mkca [] [] []) = do f <- open_dsc utf8 fs (uuid_key u); Ok (f, mkca [] [(uuid_key u, f)] []).
Proof. unfold get_dsc, cached. cbn [cc_dscs sdict_get]. destruct (open_dsc utf8 fs (uuid_key u)); reflexivity. Qed.

Lemma fresh_iff utf8 fs q u text i : is_bytes u -> 0 < len u -> In (Z.land (rq_flags q) 0x000e) [2; 4; 8; 10; 12] ->
  (fresh_image utf8 fs (Z.land (rq_flags q) 0x000e) u text (rq_loc q) (rq_ref q) (rq_dynamic q) = Ok i <-> image_for utf8 fs q u text i).
Proof.
  intros Hu L T. pose proof (by_dsc_iff (rq_flags q) T) as B. pose proof (invalid_iff (rq_loc q)) as I.
  unfold fresh_image, load_image. destruct (one_of (Z.land (rq_flags q) 14) [2; 8; 10]).
  - assert (NB : ~ by_dsc (rq_flags q)) by (intros X; apply B in X; discriminate). rewrite get_text_new. split.
    + destruct (open_text utf8 fs (uuid_key u)) as [[f|]|e] eqn:O; cbn [bind]; [| |discriminate].
      * apply (text_iff utf8 fs u _ Hu L) in O. destruct (rq_dynamic q) eqn:D.
        -- cbn [bind]. intros H. assert (i = mkim u (Some (uf_path f)) (Some (s2z "%s"%string)) text) as -> by congruence. apply if_dynamic; assumption.
        -- destruct (get_string utf8 (uf_content f) (uf_entries f) (rq_ref q)) as [[s|]|e] eqn:Gs; cbn [bind]; [| |discriminate].
           ++ intros H. assert (i = mkim u (Some (uf_path f)) (Some s) text) as -> by congruence. apply if_string; assumption.
           ++ intros H. assert (i = mkim u (Some (uf_path f)) None (Z.shiftl (or0 (lo_large (rq_loc q))) 31)) as -> by congruence. rewrite Z.shiftl_mul_pow2, Z.mul_comm by lia.
              apply if_bounds; try assumption. apply first_one. reflexivity.
      * apply (text_iff utf8 fs u _ Hu L) in O. intros H. assert (i = mkim u None None text) as -> by congruence. apply if_missing; assumption.
    + intros H. destruct H as [X O|f X O D|f s X O D Gs|f v X O D Gs V|f v X Y O Gv|f X Y O Gv|X Y O|f v X Y O Gv|X Y O]; try contradiction; apply (text_iff utf8 fs u _ Hu L) in O; rewrite O; cbn [bind]; [reflexivity| | |].
      * rewrite D. reflexivity.
      * rewrite D, Gs. reflexivity.
      * rewrite D, Gs. cbn [bind]. apply first_one in V. subst v. rewrite Z.shiftl_mul_pow2, Z.mul_comm by lia. reflexivity.
  - assert (YB : by_dsc (rq_flags q)) by (apply B; reflexivity). rewrite get_dsc_new.
    set (c := negb (or0 (lo_large (rq_loc q)) =? 0) && truthy (lo_shared (rq_loc q)) && negb (or0 (lo_large (rq_loc q)) =? Z.shiftr (or0 (lo_shared (rq_loc q))) 1)) in *. split.
    + destruct (open_dsc utf8 fs (uuid_key u)) as [[f|]|e] eqn:O; cbn [bind]; [| |discriminate].
      * apply (dsc_iff utf8 fs u _ Hu) in O. destruct (get_image_values utf8 (df_content f) (df_ranges f) (rq_ref q) (rq_dynamic q)) as [v|e] eqn:Gv; cbn [bind]; [|discriminate]. destruct c eqn:Ec; cbn [bind].
        -- intros H. assert (i = mkim u (Some []) (match v with Some v => Some (iv_string v) | None => None end) 0) as -> by (destruct v; cbn [im_string] in H; congruence).
           apply if_invalid with (f := f); try assumption. apply I. reflexivity.
        -- assert (NI : ~ invalid_pointer (rq_loc q)) by (intros X; apply I in X; discriminate). destruct v as [v|]; intros H.
           ++ assert (i = mkim (iv_id v) (Some (iv_path v)) (Some (iv_string v)) (iv_text_offset v)) as -> by congruence. apply if_shared with (f := f); assumption.
           ++ assert (i = mkim u None None text) as -> by congruence. apply if_not_shared with (f := f); assumption.
      * apply (dsc_iff utf8 fs u _ Hu) in O. destruct c eqn:Ec; cbn [bind im_string]; intros H.
        -- assert (i = mkim u (Some []) None 0) as -> by congruence. apply if_invalid_none; try assumption. apply I. reflexivity.
        -- assert (i = mkim u None None text) as -> by congruence. apply if_no_cache; try assumption. intros X; apply I in X; discriminate.
    + intros H. destruct H as [X O|f X O D|f s X O D Gs|f v X O D Gs V|f v X Y O Gv|f X Y O Gv|X Y O|f v X Y O Gv|X Y O]; try contradiction; apply (dsc_iff utf8 fs u _ Hu) in O; rewrite O; cbn [bind]; try rewrite Gv; cbn [bind].
      * destruct c; [exfalso; apply Y, I; reflexivity|reflexivity].
      * destruct c; [exfalso; apply Y, I; reflexivity|reflexivity].
      * destruct c; [exfalso; apply Y, I; reflexivity|reflexivity].
      * apply I in Y. rewrite Y. destruct v; reflexivity.
      * apply I in Y. rewrite Y. reflexivity.
Qed.

(** ** Histories *)

Lemma stored_request_entries q : stored_request q -> stored_entries (rq_process q).
Proof. intros (_ & _ & _ & H). unfold stored_entries. destruct (rq_process q); [apply H|exact H]. Qed.

Lemma strings_of_uuid q u text : stored_request q -> strings_of q (Some (u, text)) -> is_uuid u.
Proof.
  intros (S1 & S2 & _ & S3) H. inversion H as [k w A P U|b k w A P U|k pre e post w upper A P Fi E He Pre N|k upper A P Fi Fa|w A U]; subst.
  - rewrite P in S3. destruct S3 as (M & _ & _). rewrite U in M. exact M.
  - rewrite P in S3. destruct S3 as (_ & M & _). rewrite U in M. exact M.
  - apply nth_error_In in N. rewrite Forall_forall in S1. apply S1, N.
  - rewrite U in S2. exact S2.
Qed.

Lemma strings_of_fun q o o' : stored_request q -> strings_of q o -> strings_of q o' -> o = o'.
Proof. intros S H H'. apply stored_request_entries in S. apply strings_file_iff in H, H'; try exact S. congruence. Qed.

Lemma strings_of_type q u text : strings_of q (Some (u, text)) -> In (Z.land (rq_flags q) 0x000e) [2; 4; 8; 10; 12].
Proof.
  intros H. rewrite type_value. inversion H as [k w (A1 & A2 & A3)|b k w (A1 & A2 & A3)|k pre e post w upper (A1 & A2 & A3)|k upper A P Fi Fa|w (A1 & A2 & A3)]; subst; rewrite ?A1, ?A2, ?A3; try (cbn; tauto).
  destruct (Z.testbit (rq_flags q) 3); cbn; tauto.
Qed.

Definition inv (utf8 : bytes -> option str) (fs : list str -> option bytes) (P : request -> Prop) (st : caches) : Prop :=
  files_ok utf8 fs st /\ len (cc_images st) <= 8192 /\
  all_sound (fun k i => exists q u text, stored_request q /\ P q /\ strings_of q (Some (u, text)) /\ k = image_key u (rq_ref q) /\ image_for utf8 fs q u text i) (cc_images st).

Lemma get_image_step utf8 fs (P Q : request -> Prop) q st : stored_request q -> (forall q', P q' -> Q q') -> Q q -> inv utf8 fs P st ->
  match get_image utf8 fs (rq_uuids q) (rq_process q) (rq_flags q) (rq_loc q) (rq_ref q) (rq_dynamic q) st with
  | Ok (o, st') => gives utf8 fs Q q o /\ inv utf8 fs Q st'
  | Err _ => ~ strings_of q None /\ forall u text, strings_of q (Some (u, text)) -> forall i, ~ image_for utf8 fs q u text i
  end.
Proof.
  intros S PQ Qq (F & L & A). unfold get_image. pose proof (fun o => strings_file_iff q o (stored_request_entries q S)) as SF.
  destruct (strings_file (rq_flags q) (rq_process q) (rq_uuids q) (rq_loc q)) as [[[u text]|]|e] eqn:Es; cbn [bind].
  2: { split; [apply strings_file_iff; [apply stored_request_entries; exact S|exact Es]|]. split; [exact F|]. split; [exact L|]. eapply Forall_impl; [|exact A]. cbn beta. intros x (q' & u & text & H1 & H2 & H3). exists q', u, text. auto. }
  2: { split; [intros X; apply SF in X; discriminate|]. intros u text X. apply SF in X. discriminate. }
  assert (H : strings_of q (Some (u, text))) by (apply SF; reflexivity). clear SF. pose proof (strings_of_uuid q u text S H) as [Ub Ul]. pose proof (strings_of_type q u text H) as T.
  assert (A' : all_sound (fun k i => exists q u text, stored_request q /\ Q q /\ strings_of q (Some (u, text)) /\ k = image_key u (rq_ref q) /\ image_for utf8 fs q u text i) (cc_images st)).
  { eapply Forall_impl; [|exact A]. cbn beta. intros x (q' & w & t & H1 & H2 & H3). exists q', w, t. auto. }
  destruct (sdict_get (image_key u (rq_ref q)) (cc_images st)) as [i|] eqn:G; cbn [fst snd].
  - pose proof (all_sound_get _ _ _ _ A' G) as (q' & w & t & S' & Q' & H' & K & I). pose proof (strings_of_uuid q' w t S' H') as [Wb Wl].
    destruct S as (_ & _ & R & _). destruct S' as (S1' & S2' & R' & S3'). apply image_key_inj in K as [<- Rr]; try assumption; [|congruence]. split.
    + exists u, text, q', t. auto.
    + split; [exact F|]. cbn [cc_images]. split.
      * destruct (drop_key_len (image_key u (rq_ref q)) (cc_images st)) as [_ D]. rewrite G in D. specialize (D ltac:(discriminate)). unfold len in *. cbn [length]. lia.
      * constructor; [|exact (all_sound_drop _ _ _ A')]. cbn [fst snd]. exists q', u, t. split; [exact (conj S1' (conj S2' (conj R' S3')))|]. split; [exact Q'|]. split; [exact H'|]. split; [congruence|exact I].
  - pose proof (load_image_ok utf8 fs (Z.land (rq_flags q) 14) u text (rq_loc q) (rq_ref q) (rq_dynamic q) st F) as Li.
    destruct (load_image utf8 fs (Z.land (rq_flags q) 14) u text (rq_loc q) (rq_ref q) (rq_dynamic q) st) as [[i st']|e]; cbn [bind].
    + destruct Li as (Fi & F' & C'). apply fresh_iff in Fi; [|exact Ub|lia|exact T]. rewrite C'. unfold cached. rewrite G. cbn [bind]. cbv zeta.
      split; [exists u, text, q, text; auto|]. split; [exact F'|]. cbn [cc_images].
      assert (E : cached 8192 (fun _ => true) (Ok i) (image_key u (rq_ref q)) (cc_images st) = Ok (i, (image_key u (rq_ref q), i) :: drop_key (image_key u (rq_ref q)) (if 8192 <=? len (cc_images st) then removelast (cc_images st) else cc_images st)))
        by (unfold cached; rewrite G; reflexivity).
      eapply cached_sound in E as (_ & B1 & B2); [split; [exact B2|exact B1]|lia|exact A'|exact L|]. cbn beta. intros x [= <-]. exists q, u, text. auto.
    + split; [intros X; apply strings_of_fun with (o := Some (u, text)) in X; [discriminate|exact S|exact H]|].
      intros w t X i I. apply strings_of_fun with (o := Some (u, text)) in X; [|exact S|exact H]. assert (w = u /\ t = text) as [-> ->] by (split; congruence).
      apply fresh_iff in I; [congruence|exact Ub|lia|exact T].
Qed.

Lemma requests_ok utf8 fs l : forall P st, Forall stored_request l -> inv utf8 fs P st ->
  match requests utf8 fs l st with
  | Ok (is, st') => inv utf8 fs (fun q => P q \/ In q l) st' /\ length is = length l /\
      forall n q o, nth_error l n = Some q -> nth_error is n = Some o -> gives utf8 fs (fun q' => P q' \/ In q' (firstn (S n) l)) q o
  | Err _ => exists q, In q l /\ ~ strings_of q None /\ forall u text, strings_of q (Some (u, text)) -> forall i, ~ image_for utf8 fs q u text i
  end.
Proof.
  induction l as [|q l IH]; intros P st S I; cbn [requests].
  - split; [|split; [reflexivity|intros [|n] q o H; discriminate]]. destruct I as (F & L & A). split; [exact F|]. split; [exact L|]. eapply Forall_impl; [|exact A]. cbn beta. intros x (q' & w & t & H1 & H2 & H3). exists q', w, t. auto.
  - inversion S as [|? ? Sq Sl]; subst. pose proof (get_image_step utf8 fs P (fun q' => P q' \/ q' = q) q st Sq (fun q' H => or_introl H) (or_intror eq_refl) I) as G.
    destruct (get_image utf8 fs (rq_uuids q) (rq_process q) (rq_flags q) (rq_loc q) (rq_ref q) (rq_dynamic q) st) as [[o st1]|e]; cbn [bind].
    + destruct G as [G I1]. specialize (IH _ st1 Sl I1). destruct (requests utf8 fs l st1) as [[is st2]|e]; cbn [bind].
      * destruct IH as (I2 & Ln & N). split; [|split; [cbn [length]; lia|]].
        -- destruct I2 as (F & L & A). split; [exact F|]. split; [exact L|]. eapply Forall_impl; [|exact A]. cbn beta. intros x (q' & w & t & H1 & H2 & H3). exists q', w, t. split; [exact H1|]. split; [|exact H3]. cbn [In]. intuition.
        -- intros [|n] q' o'; cbn [nth_error]; intros E1 E2.
           ++ assert (q' = q /\ o' = o) as [-> ->] by (split; congruence). unfold gives in *. destruct o as [i|]; [|exact G]. destruct G as (u & text & q' & t' & G1 & G2 & G3). exists u, text, q', t'. split; [exact G1|]. split; [|exact G3]. cbn. intuition.
           ++ specialize (N n q' o' E1 E2). unfold gives in *. destruct o' as [i|]; [|exact N]. destruct N as (u & text & q'' & t' & G1 & G2 & G3). exists u, text, q'', t'. split; [exact G1|]. split; [|exact G3].
              change (firstn (Datatypes.S (Datatypes.S n)) (q :: l)) with (q :: firstn (Datatypes.S n) l). cbn [In]. intuition.
      * destruct IH as (q' & H1 & H2). exists q'. split; [right; exact H1|exact H2].
    + exists q. split; [left; reflexivity|exact G].
Qed.

Lemma image_for_alike utf8 fs q q' u text text' i : alike q q' text text' -> rq_ref q' = rq_ref q -> image_for utf8 fs q' u text' i -> image_for utf8 fs q u text i.
Proof.
  intros (B & <- & D & L & Sh) R H. assert (I : invalid_pointer (rq_loc q) <-> invalid_pointer (rq_loc q')) by (unfold invalid_pointer; rewrite L, Sh; reflexivity).
  destruct H as [X O|f X O Dy|f s X O Dy Gs|f v X O Dy Gs V|f v X Y O Gv|f X Y O Gv|X Y O|f v X Y O Gv|X Y O].
  - apply if_missing; tauto.
  - apply if_dynamic; try tauto. congruence.
  - apply if_string; try tauto; congruence.
  - apply if_bounds; try tauto; congruence.
  - apply if_shared with (f := f); try tauto. congruence.
  - apply if_not_shared with (f := f); try tauto. congruence.
  - apply if_no_cache; tauto.
  - apply if_invalid with (f := f); try tauto. congruence.
  - apply if_invalid_none; tauto.
Qed.

Lemma inv_start utf8 fs : inv utf8 fs (fun _ => False) (mkca [] [] []).
Proof. repeat split; cbn; try constructor; lia. Qed.

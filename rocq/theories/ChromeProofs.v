(** Proofs about ChromeModel.v. *)

From Verif Require Import Base BaseFacts BitFacts CoreModel CoreProofs StrModel StrFacts TextModel
  CpioModel HashProofs StructFacts ChromeModel ChromeSpec.

(** ** Cache addresses *)

Lemma mask_bits v lo w m : 0 <= lo -> 0 <= w -> Z.shiftr m lo = 2 ^ w - 1 ->
  Z.shiftr (Z.land v m) lo = bits lo w v.
Proof.
  intros Hlo Hw Hm. rewrite Z.shiftr_land, Hm, (land_mask _ w) by (auto; lia).
  rewrite shiftr_div by lia. reflexivity.
Qed.

Lemma mask_low v w m : 0 <= w -> m = 2 ^ w - 1 -> Z.land v m = bits 0 w v.
Proof. intros Hw ->. rewrite (land_mask _ w) by (auto; lia). unfold bits. rewrite Z.div_1_r. reflexivity. Qed.

Lemma bits_bound lo w v : 0 <= w -> 0 <= bits lo w v < 2 ^ w.
Proof. intros H. apply Z.mod_pos_bound. lia. Qed.

Lemma init_bit v : 0 <= v < 2 ^ 32 ->
  (negb (Z.land v 2147483648 =? 0) = true <-> doc_initialized v).
Proof.
  intros Hv. unfold doc_initialized.
  assert (E : Z.land v 2147483648 = bits 31 1 v * 2 ^ 31).
  { rewrite <- (mask_bits v 31 1 2147483648) by (try lia; reflexivity).
    rewrite <- Z.shiftl_mul_pow2 by lia.
    rewrite <- Z.ldiff_ones_r by lia. apply Z.bits_inj'. intros n Hn.
    rewrite Z.ldiff_spec, !Z.land_spec.
    destruct (Z.ltb_spec n 31).
    - rewrite Z.ones_spec_low by lia. cbn [negb]. rewrite andb_false_r.
      change 2147483648 with (2 ^ 31). rewrite Z.pow2_bits_false by lia. apply andb_false_r.
    - rewrite Z.ones_spec_high by lia. cbn [negb]. rewrite andb_true_r. reflexivity. }
  rewrite E. pose proof (bits_bound 31 1 v ltac:(lia)) as B.
  destruct (Z.eqb_spec (bits 31 1 v * 2 ^ 31) 0); cbn [negb]; split; intros; try discriminate; try lia; auto.
Qed.

Lemma digit_char_zero d : 0 <= d < 16 -> digit_char d = 48 -> d = 0.
Proof. unfold digit_char. intros H. destruct (Z.ltb_spec d 10); lia. Qed.

Lemma fmt_names prefix base w n : 2 <= base <= 16 -> 0 <= n ->
  names_number prefix base w n (prefix ++ fmt_int base w n).
Proof.
  intros Hb Hn. exists (fmt_int base w n). split; [reflexivity|].
  split; [|split].
  - apply parse_int_nat; [apply fmt_int_nonneg_chars; lia|apply parse_fmt_int; lia].
  - apply fmt_int_width.
  - unfold fmt_int. rewrite (proj2 (Z.ltb_ge n 0)) by lia. cbn [app]. rewrite Z.abs_eq by lia.
    rewrite len_nil, Z.sub_0_r.
    destruct (digits_head base n) as (h & t & E & Hh); [lia|lia|].
    destruct (Z.leb_spec w (len (map digit_char (digits base n)))).
    + replace (Z.to_nat (w - len (map digit_char (digits base n)))) with 0%nat by lia. cbn [repeat app].
      destruct Hh as [-> | Hh].
      * left. replace (digits base 0) with [0].
        2:{ unfold digits. cbn. destruct (Z.ltb_spec 0 base); [reflexivity|lia]. }
        assert (len (map digit_char (digits base 0)) = 1).
        { replace (digits base 0) with [0]; [reflexivity|].
          unfold digits. cbn. destruct (Z.ltb_spec 0 base); [reflexivity|lia]. }
        cbn. lia.
      * right. rewrite E. cbn [map hd]. intros C. apply Hh. apply digit_char_zero; [|exact C].
        pose proof (digits_spec base n ltac:(lia) Hn) as (F & _). rewrite E in F. apply Forall_inv in F. lia.
    + left. rewrite len_app, len_repeat. pose proof (len_nonneg (map digit_char (digits base n))).
      assert (1 <= len (map digit_char (digits base n))) by (rewrite E; cbn [map]; rewrite len_cons; pose proof (len_nonneg (map digit_char t)); lia).
      lia.
Qed.

Lemma type_bits v : Z.shiftr (Z.land v 1879048192) 28 = doc_type v.
Proof. apply mask_bits; try lia. reflexivity. Qed.

Lemma type_bound v : 0 <= doc_type v < 8.
Proof. apply (bits_bound 28 3). lia. Qed.

Lemma cache_address_zero : cache_address 0 = mkcaddr 0 false 0 None None.
Proof. reflexivity. Qed.

Lemma cache_address_separate v : v <> 0 -> doc_type v = 0 ->
  cache_address v = mkcaddr v (negb (Z.land v 2147483648 =? 0)) 0
    (Some (s2z "f_" ++ fmt_x 6 (doc_separate_number v))) None.
Proof.
  intros Hv Ht. unfold cache_address. rewrite type_bits, Ht, (proj2 (Z.eqb_neq v 0)) by exact Hv.
  rewrite (mask_low v 28 268435455) by (try lia; reflexivity). reflexivity.
Qed.

Lemma cache_address_block v bs : In (doc_type v, bs) doc_block_sizes ->
  cache_address v = mkcaddr v (negb (Z.land v 2147483648 =? 0)) (doc_type v)
    (Some (s2z "data_" ++ fmt_d (doc_file_number v)))
    (Some (mkcblock (doc_block_number v) (bits 24 2 v * bs) (8192 + doc_block_number v * bs))).
Proof.
  intros Hin.
  assert (Hr : 1 <= doc_type v <= 4 /\ file_block_size (doc_type v) = bs).
  { unfold doc_block_sizes in Hin. cbn [In] in Hin.
    destruct Hin as [E | [E | [E | [E | []]]]]; injection E as <- <-; split; try lia; reflexivity. }
  assert (Hv : v <> 0) by (intros ->; change (doc_type 0) with 0 in Hr; lia).
  unfold cache_address. rewrite type_bits, (proj2 (Z.eqb_neq v 0)) by exact Hv.
  rewrite (proj2 (Z.eqb_neq (doc_type v) 0)) by lia.
  rewrite (proj2 (Z.leb_le 1 (doc_type v))), (proj2 (Z.leb_le (doc_type v) 4)) by lia. cbn [andb].
  destruct Hr as [_ ->].
  rewrite (mask_low v 16 65535), (mask_bits v 16 8 16711680), (mask_bits v 24 2 50331648) by (try lia; reflexivity). reflexivity.
Qed.

Lemma cache_address_unknown v : 4 < doc_type v ->
  cache_address v = mkcaddr v (negb (Z.land v 2147483648 =? 0)) (doc_type v) None None.
Proof.
  intros Ht. assert (Hv : v <> 0) by (intros ->; change (doc_type 0) with 0 in Ht; lia).
  unfold cache_address. rewrite type_bits, (proj2 (Z.eqb_neq v 0)) by exact Hv.
  rewrite (proj2 (Z.eqb_neq (doc_type v) 0)) by lia.
  rewrite (proj2 (Z.leb_gt (doc_type v) 4)) by lia. rewrite andb_false_r. reflexivity.
Qed.

Lemma type_cases v : (doc_type v = 0) \/ (exists bs, In (doc_type v, bs) doc_block_sizes /\ 0 < bs) \/ 4 < doc_type v.
Proof.
  pose proof (type_bound v). destruct (Z.eq_dec (doc_type v) 0) as [->|]; [auto|].
  destruct (Z.ltb_spec 4 (doc_type v)); [auto|]. right. left.
  assert (C : doc_type v = 1 \/ doc_type v = 2 \/ doc_type v = 3 \/ doc_type v = 4) by lia.
  unfold doc_block_sizes. cbn [In].
  destruct C as [-> | [-> | [-> | ->]]]; eexists; (split; [|shelve]);
    [left|right; left|right; right; left|right; right; right; left]; reflexivity.
  Unshelve. all: lia.
Qed.

(** The bit fields determine the address. *)
Lemma bits_split v : 0 <= v < 2 ^ 32 ->
  v = bits 0 28 v + bits 28 3 v * 2 ^ 28 + bits 31 1 v * 2 ^ 31.
Proof. intros Hv. unfold bits. change (2^0) with 1. change (2^1) with 2. change (2^3) with 8.
  change (2 ^ 28) with 268435456. change (2 ^ 31) with 2147483648. change (2 ^ 32) with 4294967296 in Hv. lia. Qed.

Lemma bits_split_block v : 0 <= v < 2 ^ 32 ->
  v = bits 0 16 v + bits 16 8 v * 2 ^ 16 + bits 24 2 v * 2 ^ 24 + bits 26 2 v * 2 ^ 26
      + bits 28 3 v * 2 ^ 28 + bits 31 1 v * 2 ^ 31.
Proof. intros Hv. unfold bits.
  change (2^0) with 1. change (2^1) with 2. change (2^2) with 4. change (2^3) with 8. change (2^8) with 256.
  change (2 ^ 16) with 65536. change (2 ^ 24) with 16777216. change (2 ^ 26) with 67108864.
  change (2 ^ 28) with 268435456. change (2 ^ 31) with 2147483648. change (2 ^ 32) with 4294967296 in Hv. lia. Qed.

Lemma init_bit_eq v v' : 0 <= v < 2 ^ 32 -> 0 <= v' < 2 ^ 32 ->
  negb (Z.land v 2147483648 =? 0) = negb (Z.land v' 2147483648 =? 0) -> bits 31 1 v = bits 31 1 v'.
Proof.
  intros Hv Hv' E. pose proof (init_bit v Hv) as I. pose proof (init_bit v' Hv') as I'. rewrite E in I.
  unfold doc_initialized in *. pose proof (bits_bound 31 1 v ltac:(lia)). pose proof (bits_bound 31 1 v' ltac:(lia)).
  change (2 ^ 1) with 2 in *.
  destruct (negb (Z.land v' 2147483648 =? 0)).
  - rewrite (proj1 I eq_refl), (proj1 I' eq_refl). reflexivity.
  - assert (bits 31 1 v <> 1) by (intros C; apply I in C; discriminate).
    assert (bits 31 1 v' <> 1) by (intros C; apply I' in C; discriminate). lia.
Qed.

(** ** Allocation bitmap *)

(** The bits of one value and of the bitmap, least significant first. *)
Definition value_bits (v : Z) : list bool := map (fun k => Z.testbit v (Z.of_nat k)) (seq 0 32).
Definition bitmap_bits (l : list Z) : list bool := flat_map value_bits l.

(** The loop over a list of bits. *)
Fixpoint scan (s : bmstate) (bs : list bool) : bmstate * list (Z * Z) :=
  match bs with
  | [] => (s, [])
  | b :: r => let (s1, o1) := bitmap_bit s b in
              let (s2, o2) := scan s1 r in (s2, o1 ++ o2)
  end.

Lemma scan_app s a b :
  scan s (a ++ b) = let (s1, o1) := scan s a in let (s2, o2) := scan s1 b in (s2, o1 ++ o2).
Proof.
  revert s. induction a as [|x a IH]; intros s; cbn [app scan].
  - destruct (scan s b). reflexivity.
  - destruct (bitmap_bit s x) as [s0 o0]. rewrite IH. destruct (scan s0 a) as [s1 o1].
    destruct (scan s1 b) as [s2 o2]. rewrite app_assoc. reflexivity.
Qed.

Lemma land_1_testbit v : negb (Z.land v 1 =? 0) = Z.testbit v 0.
Proof.
  rewrite (land_mask v 1) by (auto; lia). rewrite Z.bit0_odd, Zmod_odd. destruct (Z.odd v); reflexivity.
Qed.

Lemma bitmap_value_scan n : forall s v,
  bitmap_value n s v = scan s (map (fun k => Z.testbit v (Z.of_nat k)) (seq 0 n)).
Proof.
  induction n as [|n IH]; intros s v; [reflexivity|].
  cbn [bitmap_value seq map scan]. rewrite land_1_testbit. change (Z.of_nat 0) with 0.
  destruct (bitmap_bit s (Z.testbit v 0)) as [s1 o1]. rewrite IH.
  rewrite <- seq_shift, map_map.
  replace (map (fun k => Z.testbit (Z.shiftr v 1) (Z.of_nat k)) (seq 0 n))
    with (map (fun x => Z.testbit v (Z.of_nat (S x))) (seq 0 n)); [reflexivity|].
  apply map_ext. intros k. rewrite Z.shiftr_spec by lia. f_equal. lia.
Qed.

Lemma bitmap_loop_scan l : forall s, bitmap_loop s l = scan s (bitmap_bits l).
Proof.
  induction l as [|v l IH]; intros s; [reflexivity|].
  cbn [bitmap_loop bitmap_bits flat_map]. rewrite scan_app, bitmap_value_scan. fold (value_bits v).
  destruct (scan s (value_bits v)) as [s1 o1]. rewrite IH. reflexivity.
Qed.

Lemma value_bits_len v : length (value_bits v) = 32%nat.
Proof. reflexivity. Qed.

Lemma bitmap_bits_len l : len (bitmap_bits l) = 32 * len l.
Proof.
  induction l as [|v l IH]; [reflexivity|]. cbn [bitmap_bits flat_map]. fold (bitmap_bits l).
  unfold len in *. rewrite app_length, value_bits_len. cbn [length]. lia.
Qed.

(** Bit [i] of a list. *)
Definition bset (bs : list bool) (i : Z) : Prop := 0 <= i < len bs /\ nth (Z.to_nat i) bs false = true.

Lemma bset_allocated l i : bset (bitmap_bits l) i <-> allocated l i.
Proof.
  unfold bset, allocated. rewrite bitmap_bits_len.
  enough (E : 0 <= i < 32 * len l -> nth (Z.to_nat i) (bitmap_bits l) false =
              Z.testbit (nth (Z.to_nat (i / 32)) l 0) (i mod 32)).
  { split; intros [H1 H2]; (split; [exact H1|]); [rewrite <- E|rewrite E]; assumption. }
  revert i. induction l as [|v l IH]; intros i Hi; [cbn in Hi; lia|].
  cbn [bitmap_bits flat_map]. fold (bitmap_bits l). rewrite len_cons in Hi.
  destruct (Z.ltb_spec i 32).
  - rewrite app_nth1 by (rewrite value_bits_len; lia).
    replace (i / 32) with 0 by lia. replace (i mod 32) with i by lia. cbn [Z.to_nat nth].
    unfold value_bits. rewrite nth_indep with (d' := (fun k => Z.testbit v (Z.of_nat k)) 0%nat)
      by (rewrite map_length, seq_length; lia).
    rewrite (map_nth (fun k => Z.testbit v (Z.of_nat k))).
    rewrite seq_nth by lia. f_equal. lia.
  - rewrite app_nth2 by (rewrite value_bits_len; lia). rewrite value_bits_len.
    replace (Z.to_nat i - 32)%nat with (Z.to_nat (i - 32)) by lia.
    rewrite IH by lia. replace (Z.to_nat (i / 32)) with (S (Z.to_nat ((i - 32) / 32))) by lia.
    cbn [nth]. f_equal. lia.
Qed.

Definition brun (bs : list bool) (a b : Z) : Prop :=
  0 <= a < b /\ b < len bs /\ (forall i, a <= i < b -> bset bs i) /\ ~ bset bs (a - 1) /\ ~ bset bs b.

Lemma bset_snoc bs x i : bset (bs ++ [x]) i <-> bset bs i \/ (i = len bs /\ x = true).
Proof.
  unfold bset. assert (L : len (bs ++ [x]) = len bs + 1) by (unfold len; rewrite app_length; cbn [length]; lia).
  rewrite L. pose proof (len_nonneg bs).
  destruct (Z.ltb_spec i (len bs)).
  - split.
    + intros [H1 H2]. left. split; [lia|]. rewrite app_nth1 in H2 by (unfold len in *; lia). exact H2.
    + intros [[H1 H2]|[H1 _]]; [|lia]. split; [lia|]. rewrite app_nth1 by (unfold len in *; lia). exact H2.
  - split.
    + intros [H1 H2]. right. assert (i = len bs) by lia. subst i. split; [reflexivity|].
      rewrite app_nth2 in H2 by (unfold len; lia). unfold len in H2. rewrite Nat2Z.id, Nat.sub_diag in H2. exact H2.
    + intros [[H1 _]|[-> ->]]; [lia|]. split; [lia|]. rewrite app_nth2 by (unfold len; lia).
      unfold len. rewrite Nat2Z.id, Nat.sub_diag. reflexivity.
Qed.

(** Ranges in increasing order, none touching the next. *)
Fixpoint ordered (l : list (Z * Z)) : Prop :=
  match l with
  | [] => True
  | r :: t => (forall r', In r' t -> snd r < fst r') /\ ordered t
  end.

Lemma ordered_snoc l r : ordered l -> (forall r', In r' l -> snd r' < fst r) -> ordered (l ++ [r]).
Proof.
  induction l as [|x l IH]; cbn [ordered app]; intros Ho Hr; [split; [intros ? []|exact I]|].
  destruct Ho as [Hx Ho]. split.
  - intros r' Hin. apply in_app_or in Hin. destruct Hin as [Hin|[<-|[]]]; [apply Hx, Hin|apply Hr; left; reflexivity].
  - apply IH; [exact Ho|]. intros r' Hin. apply Hr. right. exact Hin.
Qed.

Lemma scan_inv bs : forall s out, scan (mkbm 0 None) bs = (s, out) ->
  bm_number s = len bs /\
  (forall a b, In (a, b) out <-> brun bs a b) /\
  ordered out /\
  match bm_range s with
  | None => ~ bset bs (len bs - 1)
  | Some (a, b) => b = len bs /\ 0 <= a < b /\ (forall i, a <= i < b -> bset bs i) /\ ~ bset bs (a - 1)
  end.
Proof.
  induction bs as [|x bs IH] using rev_ind; intros s out.
  - cbn. intros H. injection H as <- <-. cbn [bm_number bm_range].
    split; [reflexivity|]. split; [|split; [exact I|intros [H _]; cbn in H; lia]].
    intros a b. split; [intros []|]. intros (H1 & H2 & _). cbn in H2. lia.
  - rewrite scan_app. destruct (scan (mkbm 0 None) bs) as [s0 out0] eqn:E0.
    destruct (IH _ _ eq_refl) as (Hn & Hin & Hord & Hrange). clear IH.
    assert (L : len (bs ++ [x]) = len bs + 1) by (unfold len; rewrite app_length; cbn [length]; lia).
    pose proof (len_nonneg bs) as Hl.
    cbn [scan]. destruct (bitmap_bit s0 x) as [s1 o1] eqn:Eb. intros H. injection H as <- <-.
    rewrite app_nil_r.
    assert (Hold : forall a b, b < len bs -> (brun (bs ++ [x]) a b <-> brun bs a b)).
    { intros a b Hb. unfold brun. rewrite L, !bset_snoc. split.
      - intros (H1 & H2 & H3 & H4 & H5). split; [lia|]. split; [lia|]. split; [|tauto].
        intros i Hi. specialize (H3 i Hi). rewrite bset_snoc in H3. destruct H3 as [H3|[H3 _]]; [exact H3|lia].
      - intros (H1 & H2 & H3 & H4 & H5). split; [lia|]. split; [lia|]. split; [|split].
        + intros i Hi. rewrite bset_snoc. left. auto.
        + intros [C|[C _]]; [auto|lia].
        + intros [C|[C _]]; [auto|lia]. }
    assert (Hlast : forall a b, brun (bs ++ [x]) a b -> b < len bs \/ (b = len bs /\ x = false)).
    { intros a b (H1 & H2 & _ & _ & H5). rewrite L in H2. destruct (Z.ltb_spec b (len bs)); [auto|]. right.
      split; [lia|]. destruct x; [|reflexivity]. exfalso. apply H5. apply bset_snoc. right. split; [lia|reflexivity]. }
    destruct x; unfold bitmap_bit in Eb.
    + (* an allocated block *)
      assert (Hruns : forall a b, In (a, b) out0 <-> brun (bs ++ [true]) a b).
      { intros a b. rewrite Hin. split; intros H.
        - apply Hold; [destruct H as (_ & H & _); exact H|exact H].
        - destruct (Hlast _ _ H) as [H'|[_ H']]; [apply Hold; assumption|discriminate]. }
      destruct (bm_range s0) as [[a b]|] eqn:Er; injection Eb as <- <-; rewrite app_nil_r;
        cbn [bm_number bm_range]; (split; [lia|]); (split; [exact Hruns|]); (split; [exact Hord|]).
      * destruct Hrange as (-> & H2 & H3 & H4). rewrite L. split; [lia|]. split; [lia|]. split.
        -- intros i Hi. apply bset_snoc. destruct (Z.eq_dec i (len bs)); [auto|]. left. apply H3. lia.
        -- rewrite bset_snoc. intros [C|[C _]]; [auto|lia].
      * rewrite L, Hn. split; [lia|]. split; [lia|]. split.
        -- intros i Hi. apply bset_snoc. right. split; [lia|reflexivity].
        -- rewrite bset_snoc. intros [C|[C _]]; [auto|lia].
    + (* a free block *)
      assert (Hend : ~ bset (bs ++ [false]) (len bs)).
      { rewrite bset_snoc. intros [[C _]|[_ C]]; [lia|discriminate]. }
      destruct (bm_range s0) as [[a b]|] eqn:Er; injection Eb as <- <-; cbn [bm_number bm_range];
        (split; [lia|]); rewrite L; replace (len bs + 1 - 1) with (len bs) by lia.
      * destruct Hrange as (-> & H2 & H3 & H4).
        assert (Hrun : brun (bs ++ [false]) a (len bs)).
        { unfold brun. rewrite L. split; [lia|]. split; [lia|]. split; [|split; [|exact Hend]].
          - intros i Hi. apply bset_snoc. left. auto.
          - rewrite bset_snoc. intros [C|[C _]]; [auto|lia]. }
        split; [|split; [|exact Hend]].
        -- intros a' b'. rewrite in_app_iff, Hin. cbn [In]. split.
           ++ intros [H|[E|[]]]; [apply Hold; [destruct H as (_ & H & _); exact H|exact H]|].
              injection E as <- <-. exact Hrun.
           ++ intros H. destruct (Hlast _ _ H) as [Hb|[-> _]]; [left; apply Hold; assumption|].
              right. left. f_equal.
              (* the starts of two runs with the same end agree *)
              destruct H as (G1 & _ & G3 & G4 & _). destruct Hrun as (F1 & _ & F3 & F4 & _).
              destruct (Z.lt_trichotomy a a') as [C|[C|C]]; [|exact C|].
              ** exfalso. apply G4. apply F3. lia.
              ** exfalso. apply F4. apply G3. lia.
        -- apply ordered_snoc; [exact Hord|]. intros [a' b'] Hr'. cbn [fst snd].
           apply Hin in Hr'. destruct Hr' as (G1 & G2 & G3 & G4 & G5).
           destruct (Z.ltb_spec b' a); [assumption|]. exfalso.
           apply G5. apply H3. lia.
      * rewrite app_nil_r. split; [|split; [exact Hord|exact Hend]].
        intros a b. rewrite Hin. split; intros H.
        -- apply Hold; [destruct H as (_ & H & _); exact H|exact H].
        -- destruct (Hlast _ _ H) as [Hb|[-> _]]; [apply Hold; assumption|].
           exfalso. apply Hrange. destruct H as (G1 & _ & G3 & _ & _).
           assert (G : bset (bs ++ [false]) (len bs - 1)) by (apply G3; lia).
           apply bset_snoc in G. destruct G as [G|[G _]]; [exact G|lia].
Qed.

Lemma bitmap_ranges_runs l : (forall a b, In (a, b) (bitmap_ranges l) <-> closed_run l a b) /\
  ordered (bitmap_ranges l).
Proof.
  unfold bitmap_ranges. rewrite bitmap_loop_scan.
  destruct (scan (mkbm 0 None) (bitmap_bits l)) as [s out] eqn:E.
  destruct (scan_inv _ _ _ E) as (_ & Hin & Hord & _). cbn [snd]. split; [|exact Hord].
  intros a b. rewrite Hin. unfold brun, closed_run. rewrite bitmap_bits_len, !bset_allocated.
  split; intros (H1 & H2 & H3 & H4); (split; [exact H1|]); (split; [exact H2|]); (split; [|exact H4]);
    intros i Hi; apply bset_allocated, H3, Hi.
Qed.

(** ** Index table *)

Lemma it_set_get k v t : forall i, assoc_z i (it_set k v t) = if k =? i then Some v else assoc_z i t.
Proof.
  induction t as [|[k' v'] t IH]; intros i; cbn [it_set assoc_z]; [reflexivity|].
  destruct (Z.eqb_spec k' k) as [->|Hk]; cbn [assoc_z].
  - destruct (Z.eqb_spec k i); reflexivity.
  - rewrite IH. destruct (Z.eqb_spec k' i) as [->|]; [|reflexivity].
    destruct (Z.eqb_spec k i); [congruence|reflexivity].
Qed.

Lemma it_set_new k v t : (forall k', In k' (map fst t) -> k' <> k) -> it_set k v t = t ++ [(k, v)].
Proof.
  induction t as [|[k' v'] t IH]; intros H; cbn [it_set app]; [reflexivity|].
  rewrite (proj2 (Z.eqb_neq k' k)) by (apply H; left; reflexivity). rewrite IH; [reflexivity|].
  intros k'' Hin. apply H. right. exact Hin.
Qed.

Lemma read_index_table_get data start : 0 <= start ->
  forall fuel t index t', 0 <= index ->
  read_index_table fuel t index (zskipn (start + 4 * index) data) = Done (Ok t') ->
  forall i, assoc_z i t' =
    match (if i <? index then None else table_entry data start i) with
    | Some v => if v =? 0 then assoc_z i t else Some (cache_address v)
    | None => assoc_z i t
    end.
Proof.
  intros Hs. induction fuel as [|fuel IH]; intros t index t' Hi; [discriminate|].
  cbn [read_index_table].
  assert (L : len (zfirstn 4 (zskipn (start + 4 * index) data)) =
              Z.min 4 (Z.max 0 (len data - (start + 4 * index)))).
  { rewrite len_zfirstn, len_zskipn. lia. }
  destruct (Z.eqb_spec (len (zfirstn 4 (zskipn (start + 4 * index) data))) 4) as [E4|E4].
  - rewrite zskipn_zskipn by lia. replace (start + 4 * index + 4) with (start + 4 * (index + 1)) by lia.
    intros H i. unfold itable in *. assert (Hi1 : 0 <= index + 1) by lia. rewrite (IH _ _ _ Hi1 H i). clear IH H.
    set (v := le_int (zfirstn 4 (zskipn (start + 4 * index) data))).
    assert (Ht : assoc_z i (if v =? 0 then t else it_set index (cache_address v) t) =
                 if (index =? i) && negb (v =? 0) then Some (cache_address v) else assoc_z i t).
    { destruct (Z.eqb_spec v 0); [rewrite andb_false_r; reflexivity|]. rewrite it_set_get, andb_true_r. reflexivity. }
    destruct (Z.ltb_spec i (index + 1)); destruct (Z.ltb_spec i index); try lia.
    + rewrite Ht. rewrite (proj2 (Z.eqb_neq index i)) by lia. reflexivity.
    + assert (i = index) by lia. subst i. rewrite Ht, Z.eqb_refl. cbn [andb].
      unfold table_entry. rewrite (proj2 (Z.leb_le 0 index)), (proj2 (Z.leb_le (start + 4 * index + 4) (len data))) by lia.
      cbn [andb]. fold v. destruct (Z.eqb_spec v 0); reflexivity.
    + rewrite Ht. rewrite (proj2 (Z.eqb_neq index i)) by lia. reflexivity.
  - intros H i. injection H as <-. destruct (Z.ltb_spec i index); [reflexivity|].
    unfold table_entry. destruct (Z.leb_spec (start + 4 * i + 4) (len data)); [lia|].
    rewrite andb_false_r. reflexivity.
Qed.

Fixpoint increasing (l : list Z) : Prop :=
  match l with
  | [] => True
  | x :: t => (forall y, In y t -> x < y) /\ increasing t
  end.

Lemma increasing_snoc l x : increasing l -> (forall y, In y l -> y < x) -> increasing (l ++ [x]).
Proof.
  induction l as [|y l IH]; cbn [increasing app]; intros Ho Hr; [split; [intros ? []|exact I]|].
  destruct Ho as [Hx Ho]. split.
  - intros z Hin. apply in_app_or in Hin. destruct Hin as [Hin|[<-|[]]]; [apply Hx, Hin|apply Hr; left; reflexivity].
  - apply IH; [exact Ho|]. intros z Hin. apply Hr. right. exact Hin.
Qed.

Lemma read_index_table_increasing : forall fuel t index rest t',
  increasing (map fst t) -> (forall y, In y (map fst t) -> y < index) ->
  read_index_table fuel t index rest = Done (Ok t') -> increasing (map fst t').
Proof.
  induction fuel as [|fuel IH]; intros t index rest t' Hinc Hlt; [discriminate|].
  cbn [read_index_table]. destruct (len (zfirstn 4 rest) =? 4); [|intros H; injection H as <-; exact Hinc].
  destruct (le_int (zfirstn 4 rest) =? 0); intros H; apply IH in H; auto.
  - intros y Hy. specialize (Hlt y Hy). lia.
  - rewrite it_set_new by (intros k' Hk; specialize (Hlt k' Hk); lia).
    rewrite map_app. apply increasing_snoc; [exact Hinc|exact Hlt].
  - rewrite it_set_new by (intros k' Hk; specialize (Hlt k' Hk); lia).
    rewrite map_app. intros y Hy. apply in_app_or in Hy. destruct Hy as [Hy|[<-|[]]]; cbn [fst]; [|lia].
    specialize (Hlt y Hy). lia.
Qed.

Lemma read_index_table_total : forall fuel t index rest, (length rest < 4 * fuel)%nat ->
  exists t', read_index_table fuel t index rest = Done (Ok t').
Proof.
  induction fuel as [|fuel IH]; intros t index rest Hf; [lia|].
  cbn [read_index_table]. destruct (Z.eqb_spec (len (zfirstn 4 rest)) 4) as [E|E]; [|eauto].
  apply IH. rewrite len_zfirstn in E. pose proof (len_zskipn rest 4) as L. unfold len in *. lia.
Qed.

(** ** Headers *)

Lemma supported_version_spec major minor : 0 <= major -> 0 <= minor ->
  (supported_version major minor = true <-> major = 2 /\ (minor = 0 \/ minor = 1)).
Proof.
  intros Hma Hmi. unfold supported_version. rewrite orb_true_iff, !list_eqb_eq.
  assert (G : forall v, fmt_d major ++ s2z "." ++ fmt_d minor = fmt_d 2 ++ s2z "." ++ fmt_d v ->
                        0 <= v -> major = 2 /\ minor = v).
  { intros v E Hv. apply (f_equal (split_on 46)) in E.
    assert (D : forall n, 0 <= n -> ~ In 46 (fmt_d n)).
    { intros n Hn C. pose proof (fmt_int_nonneg_chars 10 0 n ltac:(lia) Hn) as F.
      rewrite Forall_forall in F. specialize (F 46 C). unfold is_digit_char in F. lia. }
    cbn [s2z app] in E. change (Z.of_N (N_of_ascii ".")) with 46 in E.
    rewrite !split_on_app in E by (apply D; lia). rewrite !split_on_no in E by (apply D; lia).
    injection E as E1 E2. apply fmt_int_inj in E1; [|lia]. apply fmt_int_inj in E2; [|lia]. auto. }
  split.
  - intros [E|E]; [destruct (G 0 E)|destruct (G 1 E)]; lia.
  - intros [-> [-> | ->]]; auto.
Qed.

Lemma u_at_bounds d off n : is_bytes d -> 0 <= n -> 0 <= u_at d off n < 256 ^ n.
Proof. apply le_int_window_bounds. Qed.

Lemma read_block_file_spec content : is_bytes content ->
  (exists r, read_block_file content = Ok r) /\ block_file_ok content \/
  read_block_file content = Err ParseError /\ ~ block_file_ok content.
Proof.
  intros Hb. unfold read_block_file, block_file_ok, header_ok.
  rewrite read_struct_fields by (try lia; cbn; lia).
  replace (0 + Z.of_nat (struct_size block_header_layout)) with 8192 by reflexivity.
  destruct (Z.leb_spec 8192 (len content)) as [Hl|Hl]; [|right; split; [reflexivity|lia]].
  cbn [bind fields block_header_layout map_field fsize endian_int].
  rewrite !zskipn_zskipn by (cbn; lia). cbn [Z.of_nat Pos.of_succ_nat Pos.succ Z.add Pos.add].
  change (le_int (zfirstn 4 (zskipn 0 content))) with (u_at content 0 4).
  change (le_int (zfirstn 2 (zskipn 4 content))) with (u_at content 4 2).
  change (le_int (zfirstn 2 (zskipn 6 content))) with (u_at content 6 2).
  destruct (Z.eqb_spec (u_at content 0 4) 3238316739) as [E|E]; cbn [negb];
    [|right; split; [reflexivity|intros (_ & C & _); contradiction]].
  pose proof (supported_version_spec (u_at content 6 2) (u_at content 4 2)) as V.
  pose proof (u_at_bounds content 6 2 Hb ltac:(lia)). pose proof (u_at_bounds content 4 2 Hb ltac:(lia)).
  specialize (V ltac:(lia) ltac:(lia)).
  destruct (supported_version (u_at content 6 2) (u_at content 4 2)).
  - left. split; [eauto|]. split; [exact Hl|]. split; [exact E|]. apply V. reflexivity.
  - right. split; [reflexivity|]. intros (_ & _ & C). apply V in C. discriminate.
Qed.

Lemma read_index_file_spec content fuel t : is_bytes content -> (length content < 4 * fuel)%nat ->
  (exists v c t', read_index_file fuel t content = Done (Ok (v, c, t')) /\
     read_index_table fuel t 0 (zskipn 368 content) = Done (Ok t')) /\ index_file_ok content \/
  read_index_file fuel t content = Done (Err ParseError) /\ ~ index_file_ok content.
Proof.
  intros Hb Hf. unfold read_index_file, read_index_header, index_file_ok, header_ok.
  rewrite !read_struct_fields by (try lia; cbn; lia).
  replace (0 + Z.of_nat (struct_size index_header_layout)) with 256 by reflexivity.
  replace (Z.of_nat (struct_size index_header_layout) + Z.of_nat (struct_size lru_layout)) with 368 by reflexivity.
  replace (Z.of_nat (struct_size index_header_layout + struct_size lru_layout)) with 368 by reflexivity.
  destruct (Z.leb_spec 256 (len content)) as [Hl|Hl]; [|right; split; [reflexivity|lia]].
  cbn [bind fields index_header_layout map_field fsize endian_int].
  rewrite !zskipn_zskipn by (cbn; lia). cbn [Z.of_nat Pos.of_succ_nat Pos.succ Z.add Pos.add].
  change (le_int (zfirstn 4 (zskipn 0 content))) with (u_at content 0 4).
  change (le_int (zfirstn 2 (zskipn 4 content))) with (u_at content 4 2).
  change (le_int (zfirstn 2 (zskipn 6 content))) with (u_at content 6 2).
  destruct (Z.eqb_spec (u_at content 0 4) 3238251203) as [E|E]; cbn [negb];
    [|right; split; [reflexivity|intros (_ & C & _); contradiction]].
  pose proof (supported_version_spec (u_at content 6 2) (u_at content 4 2)) as V.
  pose proof (u_at_bounds content 6 2 Hb ltac:(lia)). pose proof (u_at_bounds content 4 2 Hb ltac:(lia)).
  specialize (V ltac:(lia) ltac:(lia)).
  destruct (supported_version (u_at content 6 2) (u_at content 4 2)).
  - cbn [bind]. destruct (Z.leb_spec 368 (len content)) as [Hl2|Hl2].
    + cbn [bind]. destruct (read_index_table_total fuel t 0 (zskipn 368 content)) as [t' Et].
      { pose proof (len_zskipn content 368). unfold len in *. lia. }
      rewrite Et. left. split; [eauto 6|]. split; [lia|]. split; [exact E|]. apply V. reflexivity.
    + right. split; [reflexivity|]. lia.
  - right. split; [reflexivity|]. intros (_ & _ & C). apply V in C. discriminate.
Qed.

(** ** Cache entries *)

Lemma before_nul_spec l : exists rest, ~ In 0 (before_nul l) /\
  (l = before_nul l \/ l = before_nul l ++ 0 :: rest).
Proof.
  induction l as [|c l (rest & Hn & E)]; cbn [before_nul].
  - exists []. split; [intros []|left; reflexivity].
  - destruct (Z.eqb_spec c 0) as [->|Hc]; [exists l; split; [intros []|right; reflexivity]|].
    exists rest. split; [intros [C|C]; [congruence|auto]|].
    destruct E as [E|E]; [left|right]; rewrite E at 1; reflexivity.
Qed.

Lemma read_cache_entry_spec content off : 0 <= off ->
  read_cache_entry content (Some off) =
  if off + 256 <=? len content then
    Ok (mkcentry (u_at content (off + 24) 8) (u_at content off 4)
          (ascii_replace (before_nul (zfirstn 160 (zskipn (off + 96) content))))
          (cache_address (u_at content (off + 4) 4)) (cache_address (u_at content (off + 8) 4)))
  else Err ParseError.
Proof.
  intros Ho. unfold read_cache_entry. rewrite read_struct_fields by (try lia; cbn; lia).
  replace (Z.of_nat (struct_size entry_layout)) with 256 by reflexivity.
  destruct (off + 256 <=? len content); [|reflexivity].
  cbn [bind fields entry_layout map_field fsize endian_int].
  rewrite !zskipn_zskipn by (cbn; lia). cbn [Z.of_nat Pos.of_succ_nat Pos.succ].
  rewrite <- !Z.add_assoc. cbn [Z.add Pos.add]. reflexivity.
Qed.

Lemma walk_chain_bounded decode files n : forall a, (length (fst (walk_chain decode files n a)) <= n)%nat.
Proof.
  induction n as [|n IH]; intros a; cbn [walk_chain].
  - destruct (ca_value a =? 0); cbn; lia.
  - destruct (ca_value a =? 0); [cbn; lia|]. destruct (dbf_get _ _); [|cbn; lia].
    destruct (read_cache_entry _ _) as [e|]; [|cbn; lia]. destruct (decode (ce_key e)); [|cbn; lia].
    specialize (IH (ce_next e)). destruct (walk_chain decode files n (ce_next e)). cbn in *. lia.
Qed.

(** ** The directory parser *)

Lemma walk_chain_prints_nothing files n a : fst (walk_chain str_decode files n a) = [].
Proof.
  destruct n; cbn [walk_chain]; destruct (ca_value a =? 0); try reflexivity.
  destruct (dbf_get _ _); [|reflexivity]. destruct (read_cache_entry _ _) as [e|]; reflexivity.
Qed.

Lemma walk_chains_prints_nothing files l : fst (walk_chains str_decode files l) = [].
Proof.
  induction l as [|a l IH]; [reflexivity|]. cbn [walk_chains].
  pose proof (walk_chain_prints_nothing files 64 a) as E. destruct (walk_chain str_decode files 64 a) as [out [u|e]].
  - cbn [fst] in E. subst out. destruct (walk_chains str_decode files l). exact IH.
  - exact E.
Qed.

Lemma opt_str_eqb_eq a b : opt_str_eqb a b = true <-> a = b.
Proof.
  destruct a, b; cbn [opt_str_eqb]; try (split; congruence). rewrite list_eqb_eq. split; congruence.
Qed.

Lemma dbf_get_app_other name n c l : dbf_get name l <> None -> dbf_get name (l ++ [(n, c)]) <> None.
Proof.
  induction l as [|[n' c'] l IH]; cbn [dbf_get app]; [congruence|].
  destruct (opt_str_eqb n' name); [congruence|exact IH].
Qed.

Lemma dbf_get_app_same n c l : dbf_get n (l ++ [(n, c)]) <> None.
Proof.
  induction l as [|[n' c'] l IH]; cbn [dbf_get app].
  - rewrite (proj2 (opt_str_eqb_eq n n)) by reflexivity. congruence.
  - destruct (opt_str_eqb n' n); [congruence|exact IH].
Qed.

Lemma open_block_files_have join fs path l : forall files have files',
  open_block_files join fs path l files have = Ok (files', true) ->
  have = true /\ (forall n, dbf_get n files <> None -> dbf_get n files' <> None) /\
  Forall (fun a => dbf_get (ca_filename a) files' <> None) l.
Proof.
  induction l as [|a l IH]; intros files have files'; cbn [open_block_files].
  - intros H. injection H as <- ->. auto.
  - destruct (dbf_get (ca_filename a) files) as [c|] eqn:E.
    + intros H. apply IH in H. destruct H as (H1 & H2 & H3). split; [exact H1|]. split; [exact H2|].
      constructor; [|exact H3]. apply H2. congruence.
    + destruct (join path (ca_filename a)) as [p|]; [|discriminate]. cbn [bind].
      destruct (fs p) as [content|].
      * destruct (read_block_file content); [|discriminate]. cbn [bind]. intros H. apply IH in H.
        destruct H as (H1 & H2 & H3). split; [exact H1|]. split.
        -- intros n Hn. apply H2. apply dbf_get_app_other. exact Hn.
        -- constructor; [|exact H3]. apply H2. apply dbf_get_app_same.
      * intros H. apply IH in H. destruct H as (H1 & _). discriminate.
Qed.

Lemma cache_address_value v : ca_value (cache_address v) = v.
Proof.
  unfold cache_address. destruct (v =? 0); [reflexivity|]. destruct (_ =? 0); [reflexivity|].
  destruct (_ && _); reflexivity.
Qed.

Lemma read_index_table_nonzero : forall fuel t index rest t',
  Forall (fun p => ca_value (snd p) <> 0) t ->
  read_index_table fuel t index rest = Done (Ok t') -> Forall (fun p => ca_value (snd p) <> 0) t'.
Proof.
  induction fuel as [|fuel IH]; intros t index rest t' Ht; [discriminate|].
  cbn [read_index_table]. destruct (len (zfirstn 4 rest) =? 4); [|intros H; injection H as <-; exact Ht].
  intros H. apply IH in H; [exact H|]. destruct (Z.eqb_spec (le_int (zfirstn 4 rest)) 0) as [|Hn]; [exact Ht|].
  clear H IH. induction Ht as [|[k a] t Hk Ht IHt]; cbn [it_set].
  - repeat constructor. cbn [snd]. rewrite cache_address_value. exact Hn.
  - destruct (k =? index); constructor; auto. cbn [snd]. rewrite cache_address_value. exact Hn.
Qed.

Lemma walk_chain_fails files a n :
  ca_value a <> 0 -> dbf_get (ca_filename a) files <> None ->
  exists out e, walk_chain str_decode files (S n) a = (out, Err e).
Proof.
  intros Hv Hg. cbn [walk_chain]. rewrite (proj2 (Z.eqb_neq _ _) Hv).
  destruct (dbf_get (ca_filename a) files); [|congruence].
  destruct (read_cache_entry _ _); cbn [str_decode]; eauto.
Qed.

Lemma walk_chains_fails files a l :
  ca_value a <> 0 -> dbf_get (ca_filename a) files <> None ->
  exists e, snd (walk_chains str_decode files (a :: l)) = Err e.
Proof.
  intros Hv Hg. cbn [walk_chains].
  destruct (walk_chain_fails files a 63 Hv Hg) as (out & e & E). rewrite E. cbn. eauto.
Qed.

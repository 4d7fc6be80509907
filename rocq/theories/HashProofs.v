From Verif Require Import Base BaseFacts CoreModel BitFacts LdbProofs LdbTableProofs HashModel HashSpec.

(** ** Prefetch *)

Lemma hash_fold_poly d : forall h,
  fold_left hash_step d h = match d with [] => h | _ => (h * 37 ^ len d + poly37 d) mod 2 ^ 32 end.
Proof.
  induction d as [|b d IH]; intros h; [reflexivity|]. cbn [fold_left]. rewrite IH.
  cbn [poly37]. rewrite len_cons. pose proof (len_nonneg d).
  rewrite Z.pow_add_r by lia. change (37 ^ 1) with 37. unfold hash_step.
  change 4294967296 with (2 ^ 32).
  destruct d as [|c d].
  - cbn [poly37]. rewrite len_nil. change (37 ^ 0) with 1. f_equal. lia.
  - set (P := 37 ^ len (c :: d)). set (Q := poly37 (c :: d)).
    rewrite Z.add_mod, Z.mul_mod_idemp_l, <- Z.add_mod by lia. f_equal. ring.
Qed.

Lemma fold_hash_bounds d h : 0 <= h < 2 ^ 32 -> 0 <= fold_left hash_step d h < 2 ^ 32.
Proof.
  intros H. rewrite hash_fold_poly. destruct d; [exact H|]. apply Z.mod_pos_bound. lia.
Qed.

Lemma pyindex_skip (l : bytes) i x r : 0 <= i -> zskipn i l = x :: r -> pyindex l i = Ok x.
Proof.
  intros Hi E. unfold pyindex. destruct (Z.ltb_spec i 0); [lia|]. destruct (Z.ltb_spec i 0); [lia|].
  rewrite znth_error_skipn by lia. rewrite E. reflexivity.
Qed.

Lemma zskipn_step (l : bytes) i x r : 0 <= i -> zskipn i l = x :: r -> zskipn (i + 1) l = r.
Proof.
  intros Hi E. rewrite <- zskipn_zskipn by lia. rewrite E. cbn [zskipn].
  change (1 <=? 0) with false. cbn iota. apply zskipn_0. lia.
Qed.

Lemma mod_congr a b k : a = b + k * 2 ^ 32 -> a mod 2 ^ 32 = b mod 2 ^ 32.
Proof. intros ->. apply Z_mod_plus_full. Qed.

Lemma block_2008 h b0 b1 b2 b3 b4 b5 b6 b7 :
  (((((((b1 * 37 + b2) * 37 + b3) * 37 + b4) * 37 + b5) * 37 + b6) * 37 + b7) + b0 * 442596621
   - h * 803794207) mod 4294967296 =
  fold_left hash_step [b0; b1; b2; b3; b4; b5; b6; b7] h.
Proof.
  rewrite hash_fold_poly. change 4294967296 with (2 ^ 32). symmetry.
  cbn [poly37]. unfold len. cbn [length].
  change (37 ^ Z.of_nat 8) with 3512479453921. change (37 ^ Z.of_nat 7) with 94931877133.
  change (37 ^ Z.of_nat 6) with 2565726409. change (37 ^ Z.of_nat 5) with 69343957.
  change (37 ^ Z.of_nat 4) with 1874161. change (37 ^ Z.of_nat 3) with 50653.
  change (37 ^ Z.of_nat 2) with 1369. change (37 ^ Z.of_nat 1) with 37. change (37 ^ Z.of_nat 0) with 1.
  apply (mod_congr _ _ (h * 818 + b0 * 22)). change (2 ^ 32) with 4294967296. ring.
Qed.

Lemma zskipn_cons_len (l : bytes) i : 0 <= i < len l -> exists x r, zskipn i l = x :: r.
Proof.
  intros H. destruct (zskipn i l) as [|x r] eqn:E; [|eauto].
  assert (L : len (zskipn i l) = 0) by (rewrite E; reflexivity). rewrite len_zskipn in L. lia.
Qed.

Lemma loop_2008_ok path : forall fuel i h, 0 <= i -> (Z.to_nat (len path - i) <= fuel)%nat ->
  exists i' h', loop_2008 fuel path i h = Done (Ok (i', h')) /\ i <= i' /\
    fold_left hash_step (zskipn i path) h = fold_left hash_step (zskipn i' path) h'.
Proof.
  induction fuel as [|k IH]; intros i h Hi Hf; cbn [loop_2008];
    (destruct (Z.ltb_spec (i + 8) (len path)); [|exists i, h; split; [reflexivity|split; [lia|reflexivity]]]); [lia|].
  destruct (zskipn_cons_len path i ltac:(lia)) as (b0 & r0 & E0).
  pose proof (zskipn_step _ _ _ _ Hi E0) as S0.
  destruct (zskipn_cons_len path (i + 1) ltac:(lia)) as (b1 & r1 & E1).
  pose proof (zskipn_step _ (i + 1) _ _ ltac:(lia) E1) as S1. replace (i + 1 + 1) with (i + 2) in S1 by lia.
  destruct (zskipn_cons_len path (i + 2) ltac:(lia)) as (b2 & r2 & E2).
  pose proof (zskipn_step _ (i + 2) _ _ ltac:(lia) E2) as S2. replace (i + 2 + 1) with (i + 3) in S2 by lia.
  destruct (zskipn_cons_len path (i + 3) ltac:(lia)) as (b3 & r3 & E3).
  pose proof (zskipn_step _ (i + 3) _ _ ltac:(lia) E3) as S3. replace (i + 3 + 1) with (i + 4) in S3 by lia.
  destruct (zskipn_cons_len path (i + 4) ltac:(lia)) as (b4 & r4 & E4).
  pose proof (zskipn_step _ (i + 4) _ _ ltac:(lia) E4) as S4. replace (i + 4 + 1) with (i + 5) in S4 by lia.
  destruct (zskipn_cons_len path (i + 5) ltac:(lia)) as (b5 & r5 & E5).
  pose proof (zskipn_step _ (i + 5) _ _ ltac:(lia) E5) as S5. replace (i + 5 + 1) with (i + 6) in S5 by lia.
  destruct (zskipn_cons_len path (i + 6) ltac:(lia)) as (b6 & r6 & E6).
  pose proof (zskipn_step _ (i + 6) _ _ ltac:(lia) E6) as S6. replace (i + 6 + 1) with (i + 7) in S6 by lia.
  destruct (zskipn_cons_len path (i + 7) ltac:(lia)) as (b7 & r7 & E7).
  pose proof (zskipn_step _ (i + 7) _ _ ltac:(lia) E7) as S7. replace (i + 7 + 1) with (i + 8) in S7 by lia.
  rewrite (pyindex_skip _ i _ _ ltac:(lia) E0), (pyindex_skip _ (i + 1) _ _ ltac:(lia) E1),
    (pyindex_skip _ (i + 2) _ _ ltac:(lia) E2), (pyindex_skip _ (i + 3) _ _ ltac:(lia) E3),
    (pyindex_skip _ (i + 4) _ _ ltac:(lia) E4), (pyindex_skip _ (i + 5) _ _ ltac:(lia) E5),
    (pyindex_skip _ (i + 6) _ _ ltac:(lia) E6), (pyindex_skip _ (i + 7) _ _ ltac:(lia) E7).
  cbn [bind]. rewrite block_2008.
  destruct (IH (i + 8) (fold_left hash_step [b0; b1; b2; b3; b4; b5; b6; b7] h) ltac:(lia) ltac:(lia))
    as (i' & h' & El & Hle & Ef).
  exists i', h'. split; [exact El|]. split; [lia|]. rewrite <- Ef.
  rewrite E0, <- S0, E1, <- S1, E2, <- S2, E3, <- S3, E4, <- S4, E5, <- S5, E6, <- S6, E7, <- S7.
  reflexivity.
Qed.

Lemma loop_2008_rest_ok path : forall fuel i h, 0 <= i -> (Z.to_nat (len path - i) <= fuel)%nat ->
  loop_2008_rest fuel path i h = Done (Ok (fold_left hash_step (zskipn i path) h)).
Proof.
  induction fuel as [|k IH]; intros i h Hi Hf; cbn [loop_2008_rest];
    (destruct (Z.ltb_spec i (len path)); [|rewrite zskipn_all by lia; reflexivity]); [lia|].
  destruct (zskipn_cons_len path i ltac:(lia)) as (b & r & E).
  rewrite (pyindex_skip _ i _ _ ltac:(lia) E). rewrite IH by lia.
  rewrite E. rewrite (zskipn_step _ _ _ _ Hi E). cbn [fold_left]. unfold hash_step at 3.
  do 4 f_equal. lia.
Qed.

Lemma prefetch_2008_is_vista path fuel : (length path <= fuel)%nat ->
  prefetch_2008_bytes fuel path = Done (Ok (prefetch_vista_bytes path)).
Proof.
  intros Hf. unfold prefetch_2008_bytes, prefetch_vista_bytes.
  destruct (loop_2008_ok path fuel 0 314159 ltac:(lia) ltac:(unfold len; lia)) as (i & h & E & Hi & Ef).
  rewrite E. rewrite loop_2008_rest_ok by (unfold len in *; lia). rewrite <- Ef.
  rewrite zskipn_0 by lia. reflexivity.
Qed.

(** The XP hash on the closed form. *)
Lemma prefetch_xp_closed d :
  prefetch_xp_bytes d = Z.abs (s32 (poly37 d * 314159269 mod 2 ^ 32)) mod 1000000007.
Proof.
  unfold prefetch_xp_bytes. rewrite hash_fold_poly. change 4294967296 with (2 ^ 32).
  assert (E : (match d with [] => 0 | _ => (0 * 37 ^ len d + poly37 d) mod 2 ^ 32 end) * 314159269 mod 2 ^ 32 =
              poly37 d * 314159269 mod 2 ^ 32).
  { destruct d; [reflexivity|]. rewrite Z.mul_0_l, Z.add_0_l. apply Z.mul_mod_idemp_l. lia. }
  rewrite E. set (v := poly37 d * 314159269 mod 2 ^ 32).
  assert (Hv : 0 <= v < 2 ^ 32) by (apply Z.mod_pos_bound; lia). clearbody v. clear E.
  change (2 ^ 32) with 4294967296 in *. unfold s32. change (2 ^ 31) with 2147483648. change (2 ^ 32) with 4294967296.
  assert (B : forall x, 0 <= Z.abs x mod 1000000007 < 1000000007) by (intros; apply Z.mod_pos_bound; lia).
  rewrite (Z.mod_small (_ mod _)) by (pose proof (B (if 2147483648 <? v then 4294967296 - v else v)); lia).
  f_equal. destruct (Z.ltb_spec 2147483648 v), (Z.ltb_spec v 2147483648); lia.
Qed.

(** ** SuperFastHash *)

Lemma land_m32 v : Z.land v m32 = u32 v.
Proof. apply (land_mask v 32); [lia|reflexivity]. Qed.

Lemma u32_bounds v : 0 <= u32 v < 2 ^ 32.
Proof. apply Z.mod_pos_bound. lia. Qed.

Lemma shl_w v k : 0 <= k -> Z.land (Z.shiftl v k) m32 = w_shl v k.
Proof. intros H. rewrite land_m32, Z.shiftl_mul_pow2 by exact H. reflexivity. Qed.

Lemma shr_w v k : 0 <= k -> Z.shiftr v k = w_shr v k.
Proof. intros H. apply Z.shiftr_div_pow2. exact H. Qed.

Lemma add_pair h a b : Z.land (h + a + Z.shiftl b 8) m32 = w_add h (le_int [a; b]).
Proof.
  rewrite land_m32, Z.shiftl_mul_pow2 by lia. unfold w_add. f_equal. cbn [le_int]. change (2 ^ 8) with 256. ring.
Qed.

Lemma pair_le a b : a + Z.shiftl b 8 = le_int [a; b].
Proof. rewrite Z.shiftl_mul_pow2 by lia. cbn [le_int]. change (2 ^ 8) with 256. ring. Qed.

Lemma sfh_blocks_ok last key : forall n a h, (0 <= a)%nat -> 4 * Z.of_nat (a + n) <= len key ->
  exists h', sfh_blocks key h (map (fun k => 4 * Z.of_nat k) (seq a n)) = Ok h' /\
    (n = 0%nat -> h' = h) /\ (n <> 0%nat -> 0 <= h' < 2 ^ 32) /\
    sfh_ref_loop last h (zskipn (4 * Z.of_nat a) key) = sfh_ref_loop last h' (zskipn (4 * Z.of_nat (a + n)) key).
Proof.
  induction n as [|n IH]; intros a h Ha Hl; cbn [seq map sfh_blocks].
  - exists h. rewrite Nat.add_0_r. repeat split; auto; congruence.
  - set (i := 4 * Z.of_nat a) in *.
    assert (Hi : 0 <= i /\ i + 4 <= len key) by lia.
    destruct (zskipn_cons_len key i ltac:(lia)) as (b0 & r0 & E0).
    pose proof (zskipn_step _ i _ _ ltac:(lia) E0) as S0.
    destruct (zskipn_cons_len key (i + 1) ltac:(lia)) as (b1 & r1 & E1).
    pose proof (zskipn_step _ (i + 1) _ _ ltac:(lia) E1) as S1. replace (i + 1 + 1) with (i + 2) in S1 by lia.
    destruct (zskipn_cons_len key (i + 2) ltac:(lia)) as (b2 & r2 & E2).
    pose proof (zskipn_step _ (i + 2) _ _ ltac:(lia) E2) as S2. replace (i + 2 + 1) with (i + 3) in S2 by lia.
    destruct (zskipn_cons_len key (i + 3) ltac:(lia)) as (b3 & r3 & E3).
    pose proof (zskipn_step _ (i + 3) _ _ ltac:(lia) E3) as S3. replace (i + 3 + 1) with (i + 4) in S3 by lia.
    unfold sfh_block.
    rewrite (pyindex_skip _ i _ _ ltac:(lia) E0), (pyindex_skip _ (i + 1) _ _ ltac:(lia) E1),
      (pyindex_skip _ (i + 2) _ _ ltac:(lia) E2), (pyindex_skip _ (i + 3) _ _ ltac:(lia) E3). cbn [bind].
    rewrite !add_pair, pair_le. rewrite !shl_w by lia. rewrite !shr_w by lia. rewrite land_m32.
    match goal with |- context [sfh_blocks key ?x _] => set (h1 := x) end.
    destruct (IH (S a) h1 ltac:(lia) ltac:(lia)) as (h' & E & H0 & Hn & Hr).
    exists h'. split; [exact E|]. split; [discriminate|]. split.
    + intros _. destruct n; [rewrite H0 by reflexivity; apply u32_bounds|apply Hn; discriminate].
    + replace (a + S n)%nat with (S a + n)%nat by lia. rewrite <- Hr.
      replace (4 * Z.of_nat (S a)) with (i + 4) by lia.
      rewrite E0, <- S0, E1, <- S1, E2, <- S2, E3, <- S3. cbn [sfh_ref_loop]. reflexivity.
Qed.

Lemma land_3 v : Z.land v 3 = v mod 4.
Proof. apply (land_mask v 2); lia. Qed.

Lemma sfh_rest_ok key h i rem : 0 <= i -> rem = len key - i -> 0 <= rem < 4 ->
  sfh_rest key h i rem = Ok (sfh_ref_loop (fun b => b) h (zskipn i key)).
Proof.
  intros Hi Hr Hb. unfold sfh_rest.
  assert (L : len (zskipn i key) = rem) by (rewrite len_zskipn; lia).
  destruct (Z.eqb_spec rem 3) as [E3|N3].
  { destruct (zskipn i key) as [|b0 r0] eqn:E0; [rewrite len_nil in L; lia|].
    pose proof (zskipn_step _ i _ _ ltac:(lia) E0) as S0.
    destruct r0 as [|b1 r1]; [rewrite len_cons, len_nil in L; lia|].
    pose proof (zskipn_step _ (i + 1) _ _ ltac:(lia) S0) as S1. replace (i + 1 + 1) with (i + 2) in S1 by lia.
    destruct r1 as [|b2 r2]; [rewrite !len_cons, len_nil in L; lia|].
    destruct r2 as [|b3 r3]; [|rewrite !len_cons in L; pose proof (len_nonneg r3); lia].
    rewrite (pyindex_skip _ i _ _ ltac:(lia) E0), (pyindex_skip _ (i + 1) _ _ ltac:(lia) S0),
      (pyindex_skip _ (i + 2) _ _ ltac:(lia) S1). cbn [bind sfh_ref_loop].
    rewrite !add_pair. rewrite !shl_w by lia. rewrite !shr_w by lia. rewrite land_m32. reflexivity. }
  destruct (Z.eqb_spec rem 2) as [E2|N2].
  { destruct (zskipn i key) as [|b0 r0] eqn:E0; [rewrite len_nil in L; lia|].
    pose proof (zskipn_step _ i _ _ ltac:(lia) E0) as S0.
    destruct r0 as [|b1 r1]; [rewrite len_cons, len_nil in L; lia|].
    destruct r1 as [|b2 r2]; [|rewrite !len_cons in L; pose proof (len_nonneg r2); lia].
    rewrite (pyindex_skip _ i _ _ ltac:(lia) E0), (pyindex_skip _ (i + 1) _ _ ltac:(lia) S0). cbn [bind sfh_ref_loop].
    rewrite !add_pair. rewrite !shl_w by lia. rewrite !shr_w by lia. rewrite land_m32. reflexivity. }
  destruct (Z.eqb_spec rem 1) as [E1|N1].
  { destruct (zskipn i key) as [|b0 r0] eqn:E0; [rewrite len_nil in L; lia|].
    destruct r0 as [|b1 r1]; [|rewrite !len_cons in L; pose proof (len_nonneg r1); lia].
    rewrite (pyindex_skip _ i _ _ ltac:(lia) E0). cbn [bind sfh_ref_loop].
    rewrite !shl_w by lia. rewrite !shr_w by lia. rewrite !land_m32. reflexivity. }
  rewrite zskipn_all by lia. reflexivity.
Qed.

Lemma super_fast_hash_ref key : super_fast_hash key = Ok (sfh_ref (fun b => b) key).
Proof.
  destruct key as [|x key']; [reflexivity|]. unfold super_fast_hash, sfh_ref.
  set (key := x :: key'). assert (Hl : 0 < len key) by (unfold key; rewrite len_cons; pose proof (len_nonneg key'); lia).
  clearbody key. rewrite land_3, land_m32.
  set (n := Z.to_nat (len key / 4)).
  assert (Er : range4 (len key - len key mod 4) = map (fun k => 4 * Z.of_nat k) (seq 0 n)).
  { unfold range4. do 3 f_equal. unfold n. lia. }
  rewrite Er.
  destruct (sfh_blocks_ok (fun b => b) key n 0 (u32 (len key)) (le_n _) ltac:(unfold n; lia))
    as (h' & E & _ & _ & Hr).
  rewrite E. cbn [bind]. rewrite sfh_rest_ok by lia. cbn [bind].
  replace (4 * Z.of_nat (0 + n)) with (len key - len key mod 4) in Hr by (unfold n; lia).
  rewrite <- Hr. rewrite zskipn_0 by lia.
  unfold sfh_final. rewrite !shl_w by lia. rewrite !shr_w by lia. rewrite !land_m32.
  reflexivity.
Qed.

Lemma sfh_ref_bounds last key : 0 <= sfh_ref last key < 2 ^ 32.
Proof. destruct key; cbn [sfh_ref]; [lia|]. apply u32_bounds. Qed.

(** Keys whose last single byte is not read as a negative number. *)
Definition tail_positive (key : bytes) : Prop :=
  len key mod 4 = 0 \/ len key mod 4 = 2 \/ List.last key 0 < 128.

Lemma sfh_ref_loop_signed : forall n key h, (length key <= n)%nat -> tail_positive key ->
  sfh_ref_loop signed_char h key = sfh_ref_loop (fun b => b) h key.
Proof.
  induction n as [|n IH]; intros key h Hn Ht.
  - destruct key; [reflexivity|cbn [length] in Hn; lia].
  - unfold tail_positive in Ht.
    destruct key as [|a [|b [|c [|d r]]]]; try reflexivity.
    + cbn [sfh_ref_loop]. unfold signed_char. unfold len in Ht. cbn in Ht.
      destruct (Z.ltb_spec a 128); [reflexivity|]. destruct Ht as [Ht|[Ht|Ht]]; lia.
    + cbn [sfh_ref_loop]. unfold signed_char. unfold len in Ht. cbn in Ht.
      destruct (Z.ltb_spec c 128); [reflexivity|]. destruct Ht as [Ht|[Ht|Ht]]; lia.
    + cbn [sfh_ref_loop]. apply IH; [cbn [length] in Hn; lia|].
      unfold tail_positive. rewrite !len_cons in Ht.
      destruct r as [|e r]; [left; reflexivity|].
      destruct Ht as [Ht|[Ht|Ht]]; [left; lia|right; left; lia|right; right].
      exact Ht.
Qed.

Lemma sfh_ref_signed key : tail_positive key -> sfh_ref signed_char key = sfh_ref (fun b => b) key.
Proof.
  intros H. unfold sfh_ref. destruct key as [|x key]; [reflexivity|].
  rewrite (sfh_ref_loop_signed (length (x :: key))) by auto. reflexivity.
Qed.

(** ** UTF-16 *)

Lemma utf16le_encode_even s d : utf16le_encode s = Ok d -> exists n, length d = (2 * n)%nat.
Proof.
  revert d; induction s as [|c s IH]; intros d; cbn [utf16le_encode].
  - injection 1 as <-. exists 0%nat. reflexivity.
  - destruct (utf16le_encode s) as [r|]; cbn [bind]; [|discriminate].
    destruct (IH r eq_refl) as [n Hn].
    destruct ((55296 <=? c) && (c <=? 57343)); [discriminate|].
    destruct (c <? 65536); injection 1 as <-; cbn [length app utf16_unit]; [exists (S n)|exists (S (S n))]; lia.
Qed.

Definition scalar (c : Z) : Prop := 0 <= c <= 1114111 /\ ~ (55296 <= c <= 57343).

Lemma utf16le_encode_ok s : Forall scalar s -> exists d, utf16le_encode s = Ok d /\ is_bytes d.
Proof.
  induction 1 as [|c s Hc Hs (d & E & Hd)]; cbn [utf16le_encode]; [exists []; split; [reflexivity|constructor]|].
  rewrite E. cbn [bind]. destruct Hc as [Hc Hn].
  destruct (Z.leb_spec 55296 c), (Z.leb_spec c 57343); cbn [andb]; try lia;
    destruct (Z.ltb_spec c 65536); eexists; (split; [reflexivity|]); unfold utf16_unit; cbn [app];
    repeat (constructor; [unfold is_byte; lia|]); exact Hd.
Qed.

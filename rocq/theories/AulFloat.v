(** The floating-point arithmetic of the time conversion: monotonicity and error bounds. *)

From Verif Require Import Base AulModel.

Lemma round_even_near n d : 0 < d ->
  - d <= 2 * (d * round_even n d - n) <= d.
Proof.
  intros Hd. unfold round_even. pose proof (Z.div_mod n d ltac:(lia)) as E.
  pose proof (Z.mod_pos_bound n d Hd) as B.
  set (k := n / d) in *. set (r := n mod d) in *. clearbody k r.
  destruct (Z.ltb_spec (2 * r) d); [nia|]. destruct (Z.ltb_spec d (2 * r)); [nia|].
  destruct (Z.even k); nia.
Qed.

Lemma round_even_tie n d k : 0 < d -> 2 * n = d * (2 * k + 1) ->
  round_even n d = if Z.even k then k else k + 1.
Proof.
  intros Hd H. unfold round_even. pose proof (Z.div_mod n d ltac:(lia)) as E.
  pose proof (Z.mod_pos_bound n d Hd) as B.
  assert (K : n / d = k) by nia.
  assert (R : 2 * (n mod d) = d) by (rewrite K in E; nia).
  rewrite K, R. rewrite !Z.ltb_irrefl. reflexivity.
Qed.

Lemma round_even_mono n1 d1 n2 d2 : 0 < d1 -> 0 < d2 -> n1 * d2 <= n2 * d1 ->
  round_even n1 d1 <= round_even n2 d2.
Proof.
  intros H1 H2 H. pose proof (round_even_near n1 d1 H1) as B1. pose proof (round_even_near n2 d2 H2) as B2.
  set (k1 := round_even n1 d1) in *. set (k2 := round_even n2 d2) in *.
  destruct (Z.le_gt_cases k1 k2) as [|G]; [assumption|exfalso].
  (* both are ties *)
  assert (A1 : d1 * (2 * k2 + 1) <= 2 * n1) by nia.
  assert (A2 : 2 * n2 <= d2 * (2 * k2 + 1)) by nia.
  assert (T1 : 2 * n1 = d1 * (2 * k2 + 1)) by nia.
  assert (T2 : 2 * n2 = d2 * (2 * k2 + 1)) by nia.
  apply round_even_tie in T1; [|lia]. apply round_even_tie in T2; [|lia].
  fold k1 in T1. fold k2 in T2. destruct (Z.even k2); lia.
Qed.

Lemma round_even_exact k d : 0 < d -> round_even (k * d) d = k.
Proof.
  intros Hd. unfold round_even. rewrite Z.div_mul by lia. rewrite Z.mod_mul by lia.
  destruct (Z.ltb_spec (2 * 0) d); [reflexivity|lia].
Qed.

Lemma round_even_bounds n d a b : 0 < d -> a * d <= n -> n <= b * d -> a <= round_even n d <= b.
Proof.
  intros Hd Ha Hb. split.
  - pose proof (round_even_mono (a * d) d n d Hd Hd ltac:(nia)) as M. rewrite round_even_exact in M by exact Hd. exact M.
  - pose proof (round_even_mono n d (b * d) d Hd Hd ltac:(nia)) as M. rewrite round_even_exact in M by exact Hd. exact M.
Qed.

Lemma pow2_pos e : 0 <= e -> 0 < 2 ^ e.
Proof. intros. apply Z.pow_pos_nonneg; lia. Qed.

(** The exponent chosen by [fl_round]. *)
Definition fl_exp (p q : Z) : Z :=
  let e0 := Z.log2 p - Z.log2 q in
  if p * 2 ^ Z.max 0 (- e0) <? q * 2 ^ Z.max 0 e0 then e0 - 1 else e0.

(** p/q * 2^-s as a fraction. *)
Definition sc_num (p s : Z) : Z := p * 2 ^ Z.max 0 (- s).
Definition sc_den (q s : Z) : Z := q * 2 ^ Z.max 0 s.

Lemma shift_eq s k : 0 <= k -> 2 ^ Z.max 0 (- s) * 2 ^ Z.max 0 (s + k) = 2 ^ Z.max 0 (- (s + k)) * 2 ^ Z.max 0 s * 2 ^ k.
Proof. intros. rewrite <- !Z.pow_add_r by lia. f_equal. lia. Qed.

(** 2^s * a <= p/q in the form that is independent of the shift used. *)
Lemma shift_le p q s k a : 0 <= k ->
  (a * 2 ^ k * sc_den q s <= sc_num p s <-> a * sc_den q (s + k) <= sc_num p (s + k)).
Proof.
  intros Hk. unfold sc_num, sc_den. pose proof (shift_eq s k Hk) as E.
  pose proof (pow2_pos (Z.max 0 (- s)) ltac:(lia)). pose proof (pow2_pos (Z.max 0 (- (s + k))) ltac:(lia)).
  pose proof (pow2_pos (Z.max 0 s) ltac:(lia)). pose proof (pow2_pos (Z.max 0 (s + k)) ltac:(lia)).
  set (A := 2 ^ Z.max 0 (- s)) in *. set (B := 2 ^ Z.max 0 (- (s + k))) in *.
  set (C := 2 ^ Z.max 0 s) in *. set (D := 2 ^ Z.max 0 (s + k)) in *. set (K := 2 ^ k) in *.
  clearbody A B C D K.
  (* A * D = B * C * K *)
  split; intros L.
  - apply Z.mul_le_mono_pos_r with A; [lia|]. replace (a * (q * D) * A) with (a * q * (A * D)) by ring.
    rewrite E. replace (a * q * (B * C * K)) with (a * K * (q * C) * B) by ring.
    replace (p * B * A) with (p * A * B) by ring. apply Z.mul_le_mono_nonneg_r; lia.
  - apply Z.mul_le_mono_pos_r with B; [lia|]. replace (a * K * (q * C) * B) with (a * q * (B * C * K)) by ring.
    rewrite <- E. replace (a * q * (A * D)) with (a * (q * D) * A) by ring.
    replace (p * A * B) with (p * B * A) by ring. apply Z.mul_le_mono_nonneg_r; lia.
Qed.

Lemma shift_lt p q s k a : 0 <= k ->
  (sc_num p s < a * 2 ^ k * sc_den q s <-> sc_num p (s + k) < a * sc_den q (s + k)).
Proof. intros Hk. pose proof (shift_le p q s k a Hk). split; intros; apply Z.nle_gt; intros ?; lia. Qed.

Lemma log2_ratio p q : 0 < p -> 0 < q ->
  let e0 := Z.log2 p - Z.log2 q in
  sc_num p e0 < 2 * sc_den q e0 /\ sc_den q e0 < 2 * sc_num p e0.
Proof.
  intros Hp Hq e0. pose proof (Z.log2_spec p Hp) as [P1 P2]. pose proof (Z.log2_spec q Hq) as [Q1 Q2].
  pose proof (Z.log2_nonneg p). pose proof (Z.log2_nonneg q).
  set (a := Z.log2 p) in *. set (b := Z.log2 q) in *.
  assert (E : 2 ^ (a) * 2 ^ Z.max 0 (- e0) = 2 ^ b * 2 ^ Z.max 0 e0).
  { rewrite <- !Z.pow_add_r by lia. f_equal. unfold e0. lia. }
  rewrite !Z.pow_succ_r in * by lia. unfold sc_num, sc_den.
  pose proof (pow2_pos (Z.max 0 (- e0)) ltac:(lia)). pose proof (pow2_pos (Z.max 0 e0) ltac:(lia)).
  set (A := 2 ^ Z.max 0 (- e0)) in *. set (B := 2 ^ Z.max 0 e0) in *.
  set (X := 2 ^ a) in *. set (Y := 2 ^ b) in *. clearbody A B X Y. split; nia.
Qed.

(** 2^e <= p/q < 2^(e+1) *)
Lemma fl_exp_spec p q : 0 < p -> 0 < q ->
  sc_den q (fl_exp p q) <= sc_num p (fl_exp p q) < 2 * sc_den q (fl_exp p q).
Proof.
  intros Hp Hq. pose proof (log2_ratio p q Hp Hq) as [L1 L2]. unfold fl_exp. cbv zeta in *.
  set (e0 := Z.log2 p - Z.log2 q) in *. fold (sc_num p e0). fold (sc_den q e0).
  destruct (Z.ltb_spec (sc_num p e0) (sc_den q e0)) as [H|H]; [|lia].
  pose proof (shift_le p q (e0 - 1) 1 1 ltac:(lia)) as S1.
  pose proof (shift_lt p q (e0 - 1) 1 1 ltac:(lia)) as S2.
  replace (e0 - 1 + 1) with e0 in * by lia. rewrite Z.pow_1_r in *.
  split; [|lia].
  (* lower bound: from the factor of two *)
  clear S1 S2. unfold sc_num, sc_den in *.
  pose proof (shift_eq (e0 - 1) 1 ltac:(lia)) as E. replace (e0 - 1 + 1) with e0 in E by lia. rewrite Z.pow_1_r in E.
  pose proof (pow2_pos (Z.max 0 (- (e0 - 1))) ltac:(lia)). pose proof (pow2_pos (Z.max 0 (e0 - 1)) ltac:(lia)).
  pose proof (pow2_pos (Z.max 0 (- e0)) ltac:(lia)). pose proof (pow2_pos (Z.max 0 e0) ltac:(lia)).
  set (A := 2 ^ Z.max 0 (- (e0 - 1))) in *. set (C := 2 ^ Z.max 0 (e0 - 1)) in *.
  set (B := 2 ^ Z.max 0 (- e0)) in *. set (D := 2 ^ Z.max 0 e0) in *. clearbody A B C D.
  apply Z.mul_le_mono_pos_r with (2 * B); [lia|].
  replace (q * C * (2 * B)) with (q * (B * C * 2)) by ring. rewrite <- E.
  replace (q * (A * D)) with (q * D * A) by ring. replace (p * A * (2 * B)) with (2 * (p * B) * A) by ring.
  apply Z.mul_le_mono_nonneg_r; lia.
Qed.

Lemma fl_round_unfold p q : 0 < p ->
  fl_round p q = mkfl (round_even (sc_num p (fl_exp p q - 52)) (sc_den q (fl_exp p q - 52))) (fl_exp p q - 52).
Proof.
  intros Hp. unfold fl_round. destruct (Z.eqb_spec p 0); [lia|]. reflexivity.
Qed.

Lemma sc_den_pos q s : 0 < q -> 0 < sc_den q s.
Proof. intros. unfold sc_den. pose proof (pow2_pos (Z.max 0 s) ltac:(lia)). nia. Qed.

Lemma fl_mantissa p q : 0 < p -> 0 < q ->
  2 ^ 52 * sc_den q (fl_exp p q - 52) <= sc_num p (fl_exp p q - 52) < 2 ^ 53 * sc_den q (fl_exp p q - 52).
Proof.
  intros Hp Hq. pose proof (fl_exp_spec p q Hp Hq) as [E1 E2].
  pose proof (shift_le p q (fl_exp p q - 52) 52 1 ltac:(lia)) as S1.
  pose proof (shift_lt p q (fl_exp p q - 52) 52 2 ltac:(lia)) as S2.
  replace (fl_exp p q - 52 + 52) with (fl_exp p q) in * by lia.
  rewrite Z.mul_1_l in S1. change (2 * 2 ^ 52) with (2 ^ 53) in S2. split; [apply S1; lia|apply S2; lia].
Qed.

Lemma fl_m_bounds p q : 0 < p -> 0 < q -> 2 ^ 52 <= fl_m (fl_round p q) <= 2 ^ 53.
Proof.
  intros Hp Hq. rewrite fl_round_unfold by exact Hp. cbn [fl_m].
  pose proof (fl_mantissa p q Hp Hq). apply round_even_bounds; [apply sc_den_pos; exact Hq|lia|lia].
Qed.

Definition fl_le (f g : fl) : Prop := fl_num f * fl_den g <= fl_num g * fl_den f.

Lemma fl_den_pos f : 0 < fl_den f.
Proof. unfold fl_den. apply pow2_pos. lia. Qed.

Lemma fl_round_zero q : fl_round 0 q = mkfl 0 0.
Proof. reflexivity. Qed.

Lemma fl_round_nonneg p q : 0 <= p -> 0 < q -> 0 <= fl_num (fl_round p q).
Proof.
  intros Hp Hq. destruct (Z.eq_dec p 0) as [->|]; [cbn; lia|].
  unfold fl_num. pose proof (fl_m_bounds p q ltac:(lia) Hq).
  pose proof (pow2_pos (Z.max 0 (fl_e (fl_round p q))) ltac:(lia)). nia.
Qed.

Lemma fl_exp_mono p1 q1 p2 q2 : 0 < p1 -> 0 < q1 -> 0 < p2 -> 0 < q2 -> p1 * q2 <= p2 * q1 ->
  fl_exp p1 q1 <= fl_exp p2 q2.
Proof.
  intros Hp1 Hq1 Hp2 Hq2 H. pose proof (fl_exp_spec p1 q1 Hp1 Hq1) as [A1 _].
  pose proof (fl_exp_spec p2 q2 Hp2 Hq2) as [_ A2].
  set (e1 := fl_exp p1 q1) in *. set (e2 := fl_exp p2 q2) in *.
  destruct (Z.le_gt_cases e1 e2) as [|G]; [assumption|exfalso].
  (* p2/q2 < 2^(e2+1) <= 2^e1 *)
  assert (S : sc_num p2 e1 < sc_den q2 e1).
  { pose proof (shift_lt p2 q2 e2 (e1 - e2) 1 ltac:(lia)) as S2. replace (e2 + (e1 - e2)) with e1 in S2 by lia.
    rewrite !Z.mul_1_l in S2. apply S2.
    assert (2 <= 2 ^ (e1 - e2)).
    { change 2 with (2 ^ 1) at 1. apply Z.pow_le_mono_r; lia. }
    pose proof (sc_den_pos q2 e2 Hq2). nia. }
  unfold sc_num, sc_den in *.
  pose proof (pow2_pos (Z.max 0 (- e1)) ltac:(lia)). pose proof (pow2_pos (Z.max 0 e1) ltac:(lia)).
  set (X := 2 ^ Z.max 0 (- e1)) in *. set (Y := 2 ^ Z.max 0 e1) in *. clearbody X Y.
  assert (q1 * Y * q2 <= p1 * X * q2) by nia.
  assert (p2 * X * q1 < q2 * Y * q1) by nia.
  assert (p1 * q2 * X <= p2 * q1 * X) by nia. nia.
Qed.

Lemma fl_round_mono p1 q1 p2 q2 : 0 <= p1 -> 0 < q1 -> 0 <= p2 -> 0 < q2 -> p1 * q2 <= p2 * q1 ->
  fl_le (fl_round p1 q1) (fl_round p2 q2).
Proof.
  intros Hp1 Hq1 Hp2 Hq2 H. unfold fl_le.
  destruct (Z.eq_dec p1 0) as [->|N1].
  { rewrite fl_round_zero. cbn [fl_num fl_den fl_m fl_e]. pose proof (fl_round_nonneg p2 q2 Hp2 Hq2).
    pose proof (fl_den_pos (mkfl 0 0)). unfold fl_num at 1. cbn [fl_m]. nia. }
  assert (N2 : 0 < p2) by nia.
  pose proof (fl_exp_mono p1 q1 p2 q2 ltac:(lia) Hq1 N2 Hq2 H) as He.
  pose proof (fl_m_bounds p1 q1 ltac:(lia) Hq1) as M1. pose proof (fl_m_bounds p2 q2 N2 Hq2) as M2.
  rewrite (fl_round_unfold p1 q1 ltac:(lia)) in *. rewrite (fl_round_unfold p2 q2 N2) in *.
  unfold fl_num, fl_den. cbn [fl_m fl_e] in *.
  set (s1 := fl_exp p1 q1 - 52) in *. set (s2 := fl_exp p2 q2 - 52) in *.
  assert (Hs : s1 <= s2) by lia.
  destruct (Z.eq_dec s1 s2) as [E|NE].
  - rewrite <- E in *. 
    assert (L : round_even (sc_num p1 s1) (sc_den q1 s1) <= round_even (sc_num p2 s1) (sc_den q2 s1)).
    { apply round_even_mono; try (apply sc_den_pos; assumption). unfold sc_num, sc_den.
      pose proof (pow2_pos (Z.max 0 (- s1)) ltac:(lia)). pose proof (pow2_pos (Z.max 0 s1) ltac:(lia)).
      set (X := 2 ^ Z.max 0 (- s1)) in *. set (Y := 2 ^ Z.max 0 s1) in *. clearbody X Y.
      replace (p1 * X * (q2 * Y)) with (p1 * q2 * (X * Y)) by ring.
      replace (p2 * X * (q1 * Y)) with (p2 * q1 * (X * Y)) by ring. apply Z.mul_le_mono_nonneg_r; nia. }
    pose proof (pow2_pos (Z.max 0 (- s1)) ltac:(lia)). pose proof (pow2_pos (Z.max 0 s1) ltac:(lia)).
    apply Z.mul_le_mono_nonneg_r; [lia|]. apply Z.mul_le_mono_nonneg_r; lia.
  - set (m1 := round_even (sc_num p1 s1) (sc_den q1 s1)) in *.
    set (m2 := round_even (sc_num p2 s2) (sc_den q2 s2)) in *. clearbody m1 m2.
    assert (E : 2 ^ Z.max 0 s2 * 2 ^ Z.max 0 (- s1) = 2 ^ (s2 - s1) * (2 ^ Z.max 0 s1 * 2 ^ Z.max 0 (- s2))).
    { rewrite <- !Z.pow_add_r by lia. f_equal. lia. }
    rewrite <- !Z.mul_assoc. rewrite E.
    assert (2 <= 2 ^ (s2 - s1)).
    { change 2 with (2 ^ 1) at 1. apply Z.pow_le_mono_r; lia. }
    pose proof (pow2_pos (Z.max 0 s1) ltac:(lia)). pose proof (pow2_pos (Z.max 0 (- s2)) ltac:(lia)).
    set (X := 2 ^ Z.max 0 s1 * 2 ^ Z.max 0 (- s2)) in *. assert (0 < X) by (unfold X; nia). clearbody X.
    change (2 ^ 53) with (2 * 2 ^ 52) in M1. set (h := 2 ^ 52) in *. clearbody h.
    set (t := 2 ^ (s2 - s1)) in *. clearbody t.
    assert (m1 <= m2 * t) by nia. rewrite Z.mul_assoc. apply Z.mul_le_mono_nonneg_r; lia.
Qed.

Lemma fl_int_mono f g : fl_le f g -> fl_int f <= fl_int g.
Proof.
  intros H. unfold fl_le, fl_int in *. pose proof (fl_den_pos f). pose proof (fl_den_pos g).
  set (a := fl_num f) in *. set (b := fl_den f) in *. set (c := fl_num g) in *. set (d := fl_den g) in *.
  clearbody a b c d. apply Z.div_le_lower_bound; [lia|].
  pose proof (Z.mul_div_le a b ltac:(lia)).
  apply Z.mul_le_mono_pos_r with b; [lia|]. nia.
Qed.

(** A float of the code: not negative. *)
Definition fl_nonneg (f : fl) : Prop := 0 <= fl_num f.

Lemma scale_mono tb x y : fl_nonneg tb -> 0 <= x -> x <= y -> scale tb x <= scale tb y.
Proof.
  intros Ht Hx Hxy. unfold scale, fl_mul_int, fl_nonneg in *. apply fl_int_mono.
  pose proof (fl_round_mono x 1 y 1 ltac:(lia) ltac:(lia) ltac:(lia) ltac:(lia) ltac:(lia)) as L.
  pose proof (fl_round_nonneg x 1 ltac:(lia) ltac:(lia)). pose proof (fl_round_nonneg y 1 ltac:(lia) ltac:(lia)).
  pose proof (fl_den_pos tb). pose proof (fl_den_pos (fl_round x 1)). pose proof (fl_den_pos (fl_round y 1)).
  unfold fl_le in L. apply fl_round_mono; try nia.
  replace (fl_num (fl_round x 1) * fl_num tb * (fl_den (fl_round y 1) * fl_den tb))
    with (fl_num (fl_round x 1) * fl_den (fl_round y 1) * (fl_num tb * fl_den tb)) by ring.
  replace (fl_num (fl_round y 1) * fl_num tb * (fl_den (fl_round x 1) * fl_den tb))
    with (fl_num (fl_round y 1) * fl_den (fl_round x 1) * (fl_num tb * fl_den tb)) by ring.
  apply Z.mul_le_mono_nonneg_r; nia.
Qed.

(** Relative error of one rounding: 2^-53. *)
Lemma fl_round_error p q : 0 <= p -> 0 < q ->
  let N := fl_num (fl_round p q) in let D := fl_den (fl_round p q) in
  N * q * 2 ^ 53 <= p * D * (2 ^ 53 + 1) /\ p * D * (2 ^ 53 - 1) <= N * q * 2 ^ 53.
Proof.
  intros Hp Hq. cbv zeta. destruct (Z.eq_dec p 0) as [->|Np].
  { rewrite fl_round_zero. change (fl_num (mkfl 0 0)) with 0. lia. }
  pose proof (fl_mantissa p q ltac:(lia) Hq) as [M _]. rewrite fl_round_unfold by lia.
  set (s := fl_exp p q - 52) in *. unfold fl_num, fl_den. cbn [fl_m fl_e].
  pose proof (round_even_near (sc_num p s) (sc_den q s) (sc_den_pos q s Hq)) as R.
  set (m := round_even (sc_num p s) (sc_den q s)) in *. clearbody m. unfold sc_num, sc_den in *.
  change (2 ^ 53) with (2 * 2 ^ 52) in *. set (h := 2 ^ 52) in *. assert (0 < h) by reflexivity. clearbody h.
  set (X := 2 ^ Z.max 0 (- s)) in *. set (Y := 2 ^ Z.max 0 s) in *. clearbody X Y.
  set (a := p * X) in *. set (b := q * Y) in *.
  replace (m * Y * q) with (m * b) by (unfold b; ring). clearbody a b. split; nia.
Qed.

Lemma scale_error num den x tb : 0 <= num -> 0 < den -> 0 <= x -> fl_div num den = Ok tb ->
  den * scale tb x * 2 ^ 51 <= x * num * (2 ^ 51 + 1) /\
  x * num * (2 ^ 51 - 1) < den * (scale tb x + 1) * 2 ^ 51.
Proof.
  intros Hn Hd Hx. unfold fl_div. destruct (Z.eqb_spec den 0); [lia|]. intros [= <-].
  pose proof (fl_round_error num den Hn Hd) as T. pose proof (fl_round_error x 1 Hx ltac:(lia)) as G.
  pose proof (fl_round_nonneg num den Hn Hd) as TN. pose proof (fl_round_nonneg x 1 Hx ltac:(lia)) as GN.
  pose proof (fl_den_pos (fl_round num den)) as TD. pose proof (fl_den_pos (fl_round x 1)) as GD.
  unfold scale, fl_mul_int. cbv zeta in *.
  set (tn := fl_num (fl_round num den)) in *. set (td := fl_den (fl_round num den)) in *.
  set (gn := fl_num (fl_round x 1)) in *. set (gd := fl_den (fl_round x 1)) in *.
  pose proof (fl_round_error (gn * tn) (gd * td) ltac:(nia) ltac:(nia)) as R. cbv zeta in R.
  unfold fl_int. pose proof (fl_round_nonneg (gn * tn) (gd * td) ltac:(nia) ltac:(nia)) as RN.
  pose proof (fl_den_pos (fl_round (gn * tn) (gd * td))) as RD.
  set (rn := fl_num (fl_round (gn * tn) (gd * td))) in *. set (rd := fl_den (fl_round (gn * tn) (gd * td))) in *.
  clearbody tn td gn gd rn rd. rewrite Z.mul_1_r in G.
  set (w := 2 ^ 53) in *. assert (W : 1 < w) by reflexivity.
  assert (HC : 0 < gd * td) by nia.
  assert (U : rn * den * (w * w * w) <= x * num * rd * ((w + 1) * (w + 1) * (w + 1))).
  { apply Z.mul_le_mono_pos_r with (gd * td); [exact HC|].
    transitivity (gn * tn * rd * (w + 1) * (den * (w * w))).
    - replace (rn * den * (w * w * w) * (gd * td)) with (rn * (gd * td) * w * (den * (w * w))) by ring.
      apply Z.mul_le_mono_nonneg_r; [nia|]. replace (gn * tn * rd * (w + 1)) with (gn * tn * rd * (w + 1)) by ring. lia.
    - replace (gn * tn * rd * (w + 1) * (den * (w * w))) with ((gn * w) * (tn * den * w) * (rd * (w + 1))) by ring.
      replace (x * num * rd * ((w + 1) * (w + 1) * (w + 1)) * (gd * td))
        with ((x * gd * (w + 1)) * (num * td * (w + 1)) * (rd * (w + 1))) by ring.
      apply Z.mul_le_mono_nonneg_r; [nia|]. apply Z.mul_le_mono_nonneg; try nia. }
  assert (L : x * num * rd * ((w - 1) * (w - 1) * (w - 1)) <= rn * den * (w * w * w)).
  { apply Z.mul_le_mono_pos_r with (gd * td); [exact HC|].
    transitivity (gn * tn * rd * (w - 1) * (den * (w * w))).
    - replace (gn * tn * rd * (w - 1) * (den * (w * w))) with ((gn * w) * (tn * den * w) * (rd * (w - 1))) by ring.
      replace (x * num * rd * ((w - 1) * (w - 1) * (w - 1)) * (gd * td))
        with ((x * gd * (w - 1)) * (num * td * (w - 1)) * (rd * (w - 1))) by ring.
      apply Z.mul_le_mono_nonneg_r; [nia|]. apply Z.mul_le_mono_nonneg; try nia.
    - replace (rn * den * (w * w * w) * (gd * td)) with (rn * (gd * td) * w * (den * (w * w))) by ring.
      apply Z.mul_le_mono_nonneg_r; [nia|]. lia. }
  (* weaken the cubes *)
  assert (C1 : (w + 1) * (w + 1) * (w + 1) * 2 ^ 51 <= w * w * w * (2 ^ 51 + 1)) by (unfold w; vm_compute; discriminate).
  assert (C2 : w * w * w * (2 ^ 51 - 1) <= (w - 1) * (w - 1) * (w - 1) * 2 ^ 51) by (unfold w; vm_compute; discriminate).
  assert (W3 : 0 < w * w * w) by reflexivity.
  set (c1 := (w + 1) * (w + 1) * (w + 1)) in *. set (c2 := (w - 1) * (w - 1) * (w - 1)) in *. set (w3 := w * w * w) in *.
  set (h := 2 ^ 51) in *. assert (HH : 1 < h) by reflexivity. clearbody c1 c2 w3 h. clear T G R.
  assert (XN : 0 <= x * num * rd) by nia. set (xn := x * num) in *. assert (XN0 : 0 <= xn) by (unfold xn; nia). clearbody xn.
  assert (U2 : rn * den * h <= xn * rd * (h + 1)).
  { apply Z.mul_le_mono_pos_r with w3; [exact W3|]. nia. }
  assert (L2 : xn * rd * (h - 1) <= rn * den * h).
  { apply Z.mul_le_mono_pos_r with w3; [exact W3|]. nia. }
  pose proof (Z.mul_div_le rn rd RD) as F1. pose proof (Z.mul_succ_div_gt rn rd RD) as F2.
  set (t := rn / rd) in *. clearbody t. split.
  - apply Z.mul_le_mono_pos_r with rd; [exact RD|].
    replace (xn * (h + 1) * rd) with (xn * rd * (h + 1)) by ring. apply Z.le_trans with (2 := U2).
    replace (den * t * h * rd) with (rd * t * (den * h)) by ring. replace (rn * den * h) with (rn * (den * h)) by ring.
    apply Z.mul_le_mono_nonneg_r; [nia|exact F1].
  - apply Z.mul_lt_mono_pos_r with rd; [exact RD|].
    replace (xn * (h - 1) * rd) with (xn * rd * (h - 1)) by ring. apply Z.le_lt_trans with (1 := L2).
    replace (den * (t + 1) * h * rd) with (rd * Z.succ t * (den * h)) by (unfold Z.succ; ring).
    replace (rn * den * h) with (rn * (den * h)) by ring.
    apply Z.mul_lt_mono_pos_r; [nia|exact F2].
Qed.

(** Integers up to 2^53 are exact. *)
Lemma fl_round_int k q : 0 <= k <= 2 ^ 53 -> 0 < q -> fl_num (fl_round (k * q) q) = k * fl_den (fl_round (k * q) q).
Proof.
  intros Hk Hq. destruct (Z.eq_dec k 0) as [->|Nk]; [reflexivity|].
  destruct (Z.eq_dec k (2 ^ 53)) as [->|Nk2].
  - assert (E : fl_exp (2 ^ 53 * q) q = 53).
    { assert (A := fl_exp_mono (2 ^ 53 * q) q (2 ^ 53) 1 ltac:(nia) Hq ltac:(lia) ltac:(lia) ltac:(nia)).
      assert (B := fl_exp_mono (2 ^ 53) 1 (2 ^ 53 * q) q ltac:(lia) ltac:(lia) ltac:(nia) Hq ltac:(nia)).
      change (fl_exp (2 ^ 53) 1) with 53 in *. lia. }
    rewrite fl_round_unfold by nia. rewrite E. unfold fl_num, fl_den. cbn [fl_m fl_e].
    unfold sc_num, sc_den. change (53 - 52) with 1. change (2 ^ Z.max 0 (- (1))) with 1. change (2 ^ Z.max 0 1) with 2.
    replace (2 ^ 53 * q * 1) with (2 ^ 52 * (q * 2)) by (change (2 ^ 53) with (2 ^ 52 * 2); ring).
    rewrite round_even_exact by lia. reflexivity.
  - assert (E : fl_exp (k * q) q <= 52).
    { assert (A := fl_exp_mono (k * q) q (2 ^ 53 - 1) 1 ltac:(nia) Hq ltac:(lia) ltac:(lia) ltac:(nia)).
      change (fl_exp (2 ^ 53 - 1) 1) with 52 in A. exact A. }
    rewrite fl_round_unfold by nia. set (s := fl_exp (k * q) q - 52) in *.
    unfold fl_num, fl_den. cbn [fl_m fl_e]. unfold sc_num, sc_den.
    rewrite (Z.max_l 0 s) by lia. rewrite !Z.pow_0_r, !Z.mul_1_r.
    replace (k * q * 2 ^ Z.max 0 (- s)) with (k * 2 ^ Z.max 0 (- s) * q) by ring.
    rewrite round_even_exact by exact Hq. reflexivity.
Qed.

Lemma scale_exact k d x tb : 0 <= k <= 2 ^ 53 -> 0 < d -> 0 <= x <= 2 ^ 53 -> x * k <= 2 ^ 53 ->
  fl_div (k * d) d = Ok tb -> scale tb x = x * k.
Proof.
  intros Hk Hd Hx Hxk. unfold fl_div. destruct (Z.eqb_spec d 0); [lia|]. intros [= <-].
  unfold scale, fl_mul_int. cbv zeta.
  pose proof (fl_round_int k d Hk Hd) as T. pose proof (fl_round_int x 1 Hx ltac:(lia)) as G. rewrite Z.mul_1_r in G.
  rewrite T, G. pose proof (fl_den_pos (fl_round (k * d) d)). pose proof (fl_den_pos (fl_round x 1)).
  set (a := fl_den (fl_round x 1)) in *. set (b := fl_den (fl_round (k * d) d)) in *. clearbody a b.
  replace (x * a * (k * b)) with (x * k * (a * b)) by ring.
  pose proof (fl_round_int (x * k) (a * b) ltac:(nia) ltac:(nia)) as R.
  unfold fl_int. rewrite R. apply Z.div_mul. pose proof (fl_den_pos (fl_round (x * k * (a * b)) (a * b))). lia.
Qed.

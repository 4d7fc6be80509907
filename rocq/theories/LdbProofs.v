From Verif Require Import Base BaseFacts CoreModel CoreProofs BitFacts VarModel VarFacts
  StrModel StrFacts LdbModel LdbSpec.

(** ** Bytes *)

Lemma byte_forall (P : Z -> bool) :
  forallb P (map Z.of_nat (seq 0 256)) = true -> forall b, 0 <= b < 256 -> P b = true.
Proof.
  intros H b Hb. rewrite forallb_forall in H. apply H. apply in_map_iff.
  exists (Z.to_nat b). split; [lia|]. apply in_seq. lia.
Qed.

Lemma land_128 b : 0 <= b < 256 -> (Z.land b 128 =? 0) = (b <? 128).
Proof.
  intros H. apply Bool.eqb_prop.
  apply (byte_forall (fun b => Bool.eqb (Z.land b 128 =? 0) (b <? 128))); [reflexivity|exact H].
Qed.

Lemma land_127 b : Z.land b 127 = b mod 128.
Proof. apply (land_mask b 7); lia. Qed.

Lemma lor_add_shift a b k : 0 <= k -> 0 <= a < 2 ^ k -> Z.lor a (Z.shiftl b k) = a + b * 2 ^ k.
Proof. intros Hk H. rewrite Z.lor_comm, lor_shiftl by auto. lia. Qed.

(** ** Variable size integers *)

Lemma vint_nonempty v bs : vint v bs -> bs <> [].
Proof. destruct 1; discriminate. Qed.

Lemma vint_len v bs : vint v bs -> 1 <= len bs.
Proof. destruct 1; rewrite len_cons; [rewrite len_nil; lia|]. pose proof (len_nonneg bs). lia. Qed.

Lemma vint_nonneg v bs : vint v bs -> 0 <= v.
Proof. induction 1; lia. Qed.

Lemma vint_bytes v bs : vint v bs -> is_bytes bs.
Proof. induction 1; constructor; auto; unfold is_byte; lia. Qed.

Lemma varint_loop_vint v bs : vint v bs -> forall rest byte shift acc n,
  Z.land byte 128 =? 0 = false -> 0 <= shift -> 0 <= acc < 2 ^ (shift + 7) ->
  varint_loop (bs ++ rest) byte shift acc n = (acc + v * 2 ^ (shift + 7), n + len bs).
Proof.
  induction 1 as [v Hv|g v bs Hg Hb IH]; intros rest byte shift acc n Hby Hs Hacc; cbn [app varint_loop];
    rewrite Hby.
  - rewrite land_127, Z.mod_small, lor_add_shift by lia.
    destruct rest as [|r rest]; cbn [varint_loop]; rewrite ?len_cons, ?len_nil.
    + f_equal; lia.
    + rewrite land_128 by lia. destruct (Z.ltb_spec v 128); [|lia]. f_equal; lia.
  - rewrite land_127, lor_add_shift by lia.
    replace ((g + 128) mod 128) with g
      by (replace (g + 128) with (g + 1 * 128) by lia; rewrite Z.mod_add, Z.mod_small by lia; reflexivity).
    assert (E : 2 ^ (shift + 7 + 7) = 128 * 2 ^ (shift + 7))
      by (rewrite (Z.pow_add_r 2 (shift + 7) 7) by lia; lia).
    rewrite IH; rewrite ?E.
    + rewrite len_cons. f_equal; lia.
    + rewrite land_128 by lia. destruct (Z.ltb_spec (g + 128) 128); [lia|reflexivity].
    + lia.
    + nia.
Qed.

Lemma read_varint_vint v bs rest : vint v bs -> read_varint (bs ++ rest) = Ok (v, len bs).
Proof.
  intros H. inversion H as [v' Hv|g v' bs' Hg Hb]; subst; cbn [app read_varint].
  - rewrite land_127, Z.mod_small by lia.
    destruct rest as [|r rest]; cbn [varint_loop]; [reflexivity|].
    rewrite land_128 by lia. destruct (Z.ltb_spec v 128); [|lia]. reflexivity.
  - rewrite (varint_loop_vint v' bs' Hb).
    + rewrite land_127.
      replace ((g + 128) mod 128) with g
        by (replace (g + 128) with (g + 1 * 128) by lia; rewrite Z.mod_add, Z.mod_small by lia; reflexivity).
      change (2 ^ (0 + 7)) with 128. rewrite len_cons. do 2 f_equal; lia.
    + rewrite land_128 by lia. destruct (Z.ltb_spec (g + 128) 128); [lia|reflexivity].
    + lia.
    + rewrite land_127. change (2 ^ (0 + 7)) with 128. apply Z.mod_pos_bound. lia.
Qed.

Lemma venc_aux_vint fuel : forall v, 0 <= v -> Z.log2 v < Z.of_nat fuel -> vint v (venc_aux fuel v).
Proof.
  induction fuel as [|k IH]; intros v Hv Hl.
  - pose proof (Z.log2_nonneg v). lia.
  - cbn [venc_aux]. destruct (Z.ltb_spec v 128).
    + constructor. lia.
    + rewrite (Z.div_mod v 128) at 1 by lia. rewrite Z.add_comm.
      constructor; [apply Z.mod_pos_bound; lia|].
      apply IH; [apply Z.div_pos; lia|].
      pose proof (log2_div v 128 ltac:(lia) ltac:(lia)). lia.
Qed.

Lemma venc_vint v : 0 <= v -> vint v (venc v).
Proof. intros H. apply venc_aux_vint; [exact H|]. pose proof (Z.log2_nonneg v). lia. Qed.

Lemma varint_loop_bounds d : forall byte shift acc n,
  0 <= acc -> let '(v, m) := varint_loop d byte shift acc n in 0 <= v /\ n <= m <= n + len d.
Proof.
  induction d as [|b d IH]; intros byte shift acc n Ha; cbn [varint_loop].
  - unfold len; cbn [length]; lia.
  - rewrite len_cons. pose proof (len_nonneg d). destruct (Z.land byte 128 =? 0); [lia|].
    specialize (IH b (shift + 7) (Z.lor acc (Z.shiftl (Z.land b 127) (shift + 7))) (n + 1)).
    destruct (varint_loop d b _ _ _) as [v m].
    assert (0 <= Z.lor acc (Z.shiftl (Z.land b 127) (shift + 7))).
    { apply Z.lor_nonneg. split; [exact Ha|]. apply Z.shiftl_nonneg. apply Z.land_nonneg. right. lia. }
    destruct IH; [assumption|]. lia.
Qed.

Lemma read_varint_bounds d v n : read_varint d = Ok (v, n) -> 0 <= v /\ 1 <= n <= len d.
Proof.
  destruct d as [|b d]; cbn [read_varint]; [discriminate|]. intros E.
  pose proof (varint_loop_bounds d b 0 (Z.land b 127) 1) as B.
  assert (0 <= Z.land b 127) by (apply Z.land_nonneg; right; lia).
  destruct (varint_loop d b 0 (Z.land b 127) 1) as [v' m]. injection E as <- <-.
  rewrite len_cons. destruct B; [assumption|]. lia.
Qed.

Lemma read_varint_error d e : read_varint d = Err e <-> d = [] /\ e = IndexError.
Proof.
  destruct d; cbn [read_varint]; split; try discriminate.
  - injection 1 as <-. auto.
  - intros [_ ->]. reflexivity.
  - intros [H _]. discriminate.
Qed.

(** Any two byte strings with the same decoding and length that encode numbers are equal. *)
Lemma vint_unique v bs bs' : vint v bs -> vint v bs' -> len bs = len bs' -> bs = bs'.
Proof.
  intros H. revert bs'. induction H as [v Hv|g v bs Hg Hb IH]; intros bs' H' Hl.
  - inversion H' as [? ?|? ? ? ? Hb']; subst; [reflexivity|].
    rewrite !len_cons, len_nil in Hl. apply vint_len in Hb'. lia.
  - inversion H' as [v' Hv E1 E2|g' v' bs'' Hg' Hb' E1 E2]; subst.
    + rewrite !len_cons, len_nil in Hl. apply vint_len in Hb. lia.
    + change (g' + 128 * v' = g + 128 * v) in E1.
 assert (g = g' /\ v = v') as [-> ->] by lia. f_equal. apply IH; [assumption|].
      rewrite !len_cons in Hl. lia.
Qed.

(** ** Slices *)

Lemma pyslice_app_mid {A} (a b c : list A) i j :
  i = len a -> j = len a + len b -> pyslice (a ++ b ++ c) i j = b.
Proof.
  intros -> ->. pose proof (len_nonneg a). pose proof (len_nonneg b).
  rewrite pyslice_nonneg by lia. rewrite zskipn_app_len by reflexivity.
  apply zfirstn_app_len. lia.
Qed.

Lemma pyslice_from_app {A} (a b : list A) i : i = len a -> pyslice_from (a ++ b) i = b.
Proof.
  intros ->. pose proof (len_nonneg a). rewrite pyslice_from_nonneg by lia.
  apply zskipn_app_len. reflexivity.
Qed.

Lemma pyslice_from_neg {A} (a b : list A) n : 0 < n -> len b = n -> pyslice_from (a ++ b) (- n) = b.
Proof.
  intros Hn Hl. unfold pyslice_from, slice_index. destruct (Z.ltb_spec (- n) 0); [|lia].
  apply zskipn_app_len. rewrite len_app. pose proof (len_nonneg a). lia.
Qed.

Lemma pyslice_to_neg {A} (a b : list A) n : 0 < n -> len b = n -> pyslice_to (a ++ b) (- n) = a.
Proof.
  intros Hn Hl. unfold pyslice_to, slice_index. destruct (Z.ltb_spec (- n) 0); [|lia].
  apply zfirstn_app_len. rewrite len_app. pose proof (len_nonneg a). lia.
Qed.

Lemma read_slice_vslice d bs rest : vslice d bs -> read_slice (bs ++ rest) = Ok (d, len bs).
Proof.
  intros (n & Hn & ->). unfold read_slice. rewrite <- app_assoc.
  rewrite (read_varint_vint _ _ _ Hn). cbn [bind].
  rewrite pyslice_app_mid by lia. rewrite len_app. reflexivity.
Qed.

Lemma vslice_len d bs : vslice d bs -> 1 <= len bs.
Proof. intros (n & Hn & ->). rewrite len_app. apply vint_len in Hn. pose proof (len_nonneg d). lia. Qed.

(** ** Write batches *)

Lemma read_ops_ok ops body : ops_bytes ops body -> forall pre acc fuel,
  (length ops <= fuel)%nat ->
  read_ops fuel (pre ++ body) (len pre) acc = Done (Ok (acc ++ ops)).
Proof.
  induction 1 as [|o l b bs Ho Hl IH]; intros pre acc fuel Hf.
  - rewrite !app_nil_r. destruct fuel; cbn [read_ops]; rewrite Z.ltb_irrefl; reflexivity.
  - cbn [length] in Hf. destruct fuel as [|k]; [lia|]. cbn [read_ops].
    pose proof (len_nonneg pre) as Hp. pose proof (len_nonneg bs) as Hbs.
    destruct Ho as [k0 v kb vb Hk Hv|k0 kb Hk].
    + pose proof (vslice_len _ _ Hk). pose proof (vslice_len _ _ Hv).
      destruct (Z.ltb_spec (len pre) (len (pre ++ ([1] ++ kb ++ vb) ++ bs))) as [_|Hx];
        [|rewrite !len_app, len_cons, len_nil in Hx; lia].
      assert (Ei : pyindex (pre ++ ([1] ++ kb ++ vb) ++ bs) (len pre) = Ok 1).
      { unfold pyindex. destruct (Z.ltb_spec (len pre) 0); [lia|].
        destruct (Z.ltb_spec (len pre) 0); [lia|].
        rewrite znth_error_skipn by lia. rewrite zskipn_app_len by reflexivity. reflexivity. }
      rewrite Ei. change (negb ((1 =? 0) || (1 =? 1))) with false. cbn iota.
      replace (pre ++ ([1] ++ kb ++ vb) ++ bs) with ((pre ++ [1]) ++ kb ++ (vb ++ bs)) at 1
        by (rewrite <- !app_assoc; reflexivity).
      rewrite pyslice_from_app by (rewrite len_app, len_cons, len_nil; lia).
      rewrite (read_slice_vslice _ _ _ Hk). change (1 =? 1) with true. cbn iota.
      replace (pre ++ ([1] ++ kb ++ vb) ++ bs) with (((pre ++ [1]) ++ kb) ++ vb ++ bs) at 1
        by (rewrite <- !app_assoc; reflexivity).
      rewrite pyslice_from_app by (rewrite !len_app, len_cons, len_nil; lia).
      rewrite (read_slice_vslice _ _ _ Hv).
      replace (pre ++ ([1] ++ kb ++ vb) ++ bs) with ((((pre ++ [1]) ++ kb) ++ vb) ++ bs)
        by (rewrite <- !app_assoc; reflexivity).
      replace (len pre + 1 + len kb + len vb) with (len (((pre ++ [1]) ++ kb) ++ vb))
        by (rewrite !len_app, len_cons, len_nil; lia).
      rewrite IH by lia. rewrite <- app_assoc. reflexivity.
    + pose proof (vslice_len _ _ Hk).
      destruct (Z.ltb_spec (len pre) (len (pre ++ ([0] ++ kb) ++ bs))) as [_|Hx];
        [|rewrite !len_app, len_cons, len_nil in Hx; lia].
      assert (Ei : pyindex (pre ++ ([0] ++ kb) ++ bs) (len pre) = Ok 0).
      { unfold pyindex. destruct (Z.ltb_spec (len pre) 0); [lia|].
        destruct (Z.ltb_spec (len pre) 0); [lia|].
        rewrite znth_error_skipn by lia. rewrite zskipn_app_len by reflexivity. reflexivity. }
      rewrite Ei. change (negb ((0 =? 0) || (0 =? 1))) with false. cbn iota.
      replace (pre ++ ([0] ++ kb) ++ bs) with ((pre ++ [0]) ++ kb ++ bs) at 1
        by (rewrite <- !app_assoc; reflexivity).
      rewrite pyslice_from_app by (rewrite len_app, len_cons, len_nil; lia).
      rewrite (read_slice_vslice _ _ _ Hk). change (0 =? 1) with false. cbn iota.
      replace (pre ++ ([0] ++ kb) ++ bs) with (((pre ++ [0]) ++ kb) ++ bs)
        by (rewrite <- !app_assoc; reflexivity).
      replace (len pre + 1 + len kb) with (len ((pre ++ [0]) ++ kb))
        by (rewrite !len_app, len_cons, len_nil; lia).
      rewrite IH by lia. rewrite <- app_assoc. reflexivity.
Qed.

Lemma ops_bytes_length ops body : ops_bytes ops body -> (length ops <= length body)%nat.
Proof.
  induction 1 as [|o l b bs Ho Hl IH]; [cbn; lia|]. cbn [length]. rewrite app_length.
  destruct Ho; cbn [app length]; lia.
Qed.

Lemma read_log_record_ok seq count ops bs fuel :
  batch_bytes seq count ops bs -> (length bs <= fuel)%nat ->
  read_log_record fuel bs = Done (Ok (seq, count, ops)).
Proof.
  intros (Hs & Hc & body & Hb & ->) Hf. unfold read_log_record.
  assert (E : le_enc 8 seq ++ le_enc 4 count ++ body =
              enc_struct log_value_header [VI seq; VI count] ++ body).
  { cbn [enc_struct enc_field log_value_header enc_int]. rewrite app_nil_r, <- app_assoc. reflexivity. }
  rewrite E at 1. rewrite struct_bs_enc; [| |cbn; lia].
  2:{ fvals; lia. }
  rewrite app_assoc.
  rewrite (read_ops_ok ops body Hb (le_enc 8 seq ++ le_enc 4 count) []); [reflexivity|].
  apply ops_bytes_length in Hb. rewrite !app_length in Hf. lia.
Qed.

(** Every data terminates; errors. *)
Lemma read_slice_bounds d v n : read_slice d = Ok (v, n) -> 1 <= n.
Proof.
  unfold read_slice. destruct (read_varint d) as [[s k]|] eqn:E; cbn [bind]; [|discriminate].
  intros H. apply read_varint_bounds in E. assert (n = k + s) by congruence. lia.
Qed.

Lemma read_ops_terminates data : forall fuel off acc, 0 <= off ->
  (Z.to_nat (len data - off) <= fuel)%nat -> read_ops fuel data off acc <> OutOfFuel.
Proof.
  induction fuel as [|k IH]; intros off acc Ho Hf; cbn [read_ops];
    destruct (Z.ltb_spec off (len data)); try discriminate; [lia|].
  destruct (pyindex data off) as [t|]; [|discriminate].
  destruct (negb _); [discriminate|].
  destruct (read_slice (pyslice_from data (off + 1))) as [[key n]|] eqn:E1; [|discriminate].
  apply read_slice_bounds in E1. destruct (t =? 1).
  - destruct (read_slice _) as [[v m]|] eqn:E2; [|discriminate]. apply read_slice_bounds in E2. apply IH; lia.
  - apply IH; lia.
Qed.

(** An operation with another type is rejected at its place. *)
Lemma read_ops_bad_type ops body : ops_bytes ops body -> forall t rest pre acc fuel,
  t <> 0 -> t <> 1 -> (length ops < fuel)%nat ->
  read_ops fuel (pre ++ body ++ t :: rest) (len pre) acc = Done (Err ParseError).
Proof.
  intros Hb t rest. revert ops body Hb.
  assert (Hbase : forall pre acc fuel, t <> 0 -> t <> 1 -> (0 < fuel)%nat ->
     read_ops fuel (pre ++ t :: rest) (len pre) acc = Done (Err ParseError)).
  { intros pre acc fuel H0 H1 Hf. destruct fuel as [|k]; [lia|]. cbn [read_ops].
    pose proof (len_nonneg pre). pose proof (len_nonneg rest).
    destruct (Z.ltb_spec (len pre) (len (pre ++ t :: rest))) as [_|Hx];
      [|rewrite len_app, len_cons in Hx; lia].
    assert (Ei : pyindex (pre ++ t :: rest) (len pre) = Ok t).
    { unfold pyindex. destruct (Z.ltb_spec (len pre) 0); [lia|].
      destruct (Z.ltb_spec (len pre) 0); [lia|].
      rewrite znth_error_skipn by lia. rewrite zskipn_app_len by reflexivity. reflexivity. }
    rewrite Ei. destruct (Z.eqb_spec t 0); [contradiction|]. destruct (Z.eqb_spec t 1); [contradiction|].
    reflexivity. }
  induction 1 as [|o l b bs Ho Hl IH]; intros pre acc fuel H0 H1 Hf.
  - apply Hbase; auto. 
  - cbn [length] in Hf. destruct fuel as [|k]; [lia|]. cbn [read_ops].
    pose proof (len_nonneg pre) as Hp. pose proof (len_nonneg bs) as Hbs.
    destruct Ho as [k0 v kb vb Hk Hv|k0 kb Hk].
    + pose proof (vslice_len _ _ Hk). pose proof (vslice_len _ _ Hv).
      set (post := bs ++ t :: rest).
      assert (Ed : pre ++ (([1] ++ kb ++ vb) ++ bs) ++ t :: rest = pre ++ [1] ++ kb ++ vb ++ post)
        by (unfold post; rewrite <- !app_assoc; reflexivity).
      rewrite Ed. pose proof (len_nonneg post).
      destruct (Z.ltb_spec (len pre) (len (pre ++ [1] ++ kb ++ vb ++ post))) as [_|Hx];
        [|rewrite !len_app, len_cons, len_nil in Hx; lia].
      assert (Ei : pyindex (pre ++ [1] ++ kb ++ vb ++ post) (len pre) = Ok 1).
      { unfold pyindex. destruct (Z.ltb_spec (len pre) 0); [lia|].
        destruct (Z.ltb_spec (len pre) 0); [lia|].
        rewrite znth_error_skipn by lia. rewrite zskipn_app_len by reflexivity. reflexivity. }
      rewrite Ei. change (negb ((1 =? 0) || (1 =? 1))) with false. cbn iota.
      replace (pre ++ [1] ++ kb ++ vb ++ post) with ((pre ++ [1]) ++ kb ++ (vb ++ post)) at 1
        by (rewrite <- !app_assoc; reflexivity).
      rewrite pyslice_from_app by (rewrite len_app, len_cons, len_nil; lia).
      rewrite (read_slice_vslice _ _ _ Hk). change (1 =? 1) with true. cbn iota.
      replace (pre ++ [1] ++ kb ++ vb ++ post) with (((pre ++ [1]) ++ kb) ++ vb ++ post) at 1
        by (rewrite <- !app_assoc; reflexivity).
      rewrite pyslice_from_app by (rewrite !len_app, len_cons, len_nil; lia).
      rewrite (read_slice_vslice _ _ _ Hv).
      replace (pre ++ [1] ++ kb ++ vb ++ post) with ((((pre ++ [1]) ++ kb) ++ vb) ++ bs ++ t :: rest)
        by (unfold post; rewrite <- !app_assoc; reflexivity).
      replace (len pre + 1 + len kb + len vb) with (len (((pre ++ [1]) ++ kb) ++ vb))
        by (rewrite !len_app, len_cons, len_nil; lia).
      apply IH; auto; lia.
    + pose proof (vslice_len _ _ Hk).
      set (post := bs ++ t :: rest).
      assert (Ed : pre ++ (([0] ++ kb) ++ bs) ++ t :: rest = pre ++ [0] ++ kb ++ post)
        by (unfold post; rewrite <- !app_assoc; reflexivity).
      rewrite Ed. pose proof (len_nonneg post).
      destruct (Z.ltb_spec (len pre) (len (pre ++ [0] ++ kb ++ post))) as [_|Hx];
        [|rewrite !len_app, len_cons, len_nil in Hx; lia].
      assert (Ei : pyindex (pre ++ [0] ++ kb ++ post) (len pre) = Ok 0).
      { unfold pyindex. destruct (Z.ltb_spec (len pre) 0); [lia|].
        destruct (Z.ltb_spec (len pre) 0); [lia|].
        rewrite znth_error_skipn by lia. rewrite zskipn_app_len by reflexivity. reflexivity. }
      rewrite Ei. change (negb ((0 =? 0) || (0 =? 1))) with false. cbn iota.
      replace (pre ++ [0] ++ kb ++ post) with ((pre ++ [0]) ++ kb ++ post) at 1
        by (rewrite <- !app_assoc; reflexivity).
      rewrite pyslice_from_app by (rewrite len_app, len_cons, len_nil; lia).
      rewrite (read_slice_vslice _ _ _ Hk). change (0 =? 1) with false. cbn iota.
      replace (pre ++ [0] ++ kb ++ post) with (((pre ++ [0]) ++ kb) ++ bs ++ t :: rest)
        by (unfold post; rewrite <- !app_assoc; reflexivity).
      replace (len pre + 1 + len kb) with (len ((pre ++ [0]) ++ kb))
        by (rewrite !len_app, len_cons, len_nil; lia).
      apply IH; auto; lia.
Qed.

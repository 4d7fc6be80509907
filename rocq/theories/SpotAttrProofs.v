From Verif Require Import Base CoreModel CoreProofs VarModel VarFacts DictModel GzipModel GzipProofs
  BaseFacts BitFacts StructFacts SpotModel SpotSpec SpotProofs SpotRecProofs.

(** ** Property types *)

Lemma land3 pt : Z.land pt 3 = Z.b2z (Z.testbit pt 0) + 2 * Z.b2z (Z.testbit pt 1).
Proof.
  change 3 with (Z.ones 2). rewrite Z.land_ones by lia.
  rewrite !Z.testbit_spec' by lia. change (2 ^ 0) with 1. change (2 ^ 1) with 2. change (2 ^ 2) with 4.
  rewrite Z.div_1_r. Z.div_mod_to_equations. lia.
Qed.

Lemma land2 pt : Z.land pt 2 = if multi pt then 2 else 0.
Proof.
  unfold multi. apply Z.bits_inj'. intros n Hn. rewrite Z.land_spec.
  destruct (Z.eq_dec n 1) as [->|N].
  - destruct (Z.testbit pt 1); reflexivity.
  - assert (E : Z.testbit 2 n = false).
    { change 2 with (2 ^ 1). apply Z.pow2_bits_false. lia. }
    rewrite E, andb_false_r. destruct (Z.testbit pt 1); [symmetry; exact E|symmetry; apply Z.testbit_0_l].
Qed.

Lemma land3_localized pt : (Z.land pt 3 =? 3) = localized pt.
Proof. rewrite land3. unfold localized. destruct (Z.testbit pt 0), (Z.testbit pt 1); reflexivity. Qed.

Lemma land3_multi pt : localized pt = false -> (Z.land pt 3 =? 2) = multi pt.
Proof. rewrite land3. unfold localized, multi. destruct (Z.testbit pt 0), (Z.testbit pt 1); try reflexivity; discriminate. Qed.

Lemma localized_multi pt : multi pt = false -> localized pt = false.
Proof. unfold localized, multi. intros ->. reflexivity. Qed.

(** ** Sequences *)

Lemma chunks_ok w (l : list bytes) : Forall (fun d => length d = w) l -> chunks (length l) w (concat l) = Some l.
Proof.
  induction 1 as [|d l H _ IH]; [reflexivity|]. cbn [length chunks concat].
  destruct (Nat.ltb_spec (length (d ++ concat l)) w) as [C|_]; [rewrite app_length in C; lia|].
  assert (S : skipn w (d ++ concat l) = concat l) by (rewrite <- H, skipn_app, skipn_all, Nat.sub_diag; reflexivity).
  assert (F : firstn w (d ++ concat l) = d) by (rewrite <- H, firstn_app, firstn_all, Nat.sub_diag; apply app_nil_r).
  rewrite S, F, IH. reflexivity.
Qed.

Lemma chunks_bytes d : chunks (length d) 1 d = Some (map (fun b => [b]) d).
Proof.
  induction d as [|b d IH]; [reflexivity|]. cbn [length chunks map skipn firstn]. rewrite IH.
  destruct d; reflexivity.
Qed.

Lemma concat_singletons (d : bytes) : concat (map (fun b => [b]) d) = d.
Proof. induction d as [|b d IH]; [reflexivity|]. cbn [map concat app]. rewrite IH. reflexivity. Qed.

Lemma len_concat_w w (l : list bytes) : Forall (fun d => length d = w) l -> len (concat l) = Z.of_nat w * len l.
Proof.
  induction 1 as [|d l H _ IH]; [cbn; lia|]. cbn [concat]. rewrite len_app, len_cons, IH. unfold len at 1. lia.
Qed.

Lemma map_cstrings_ok utf8 l d : strings_stored utf8 l d -> forall fuel, (length d <= fuel)%nat ->
  map_cstrings fuel utf8 d = Ok l.
Proof.
  induction 1 as [|raw s l d N U _ IH]; intros fuel Hf; [destruct fuel; reflexivity|].
  destruct (raw ++ 0 :: d) as [|c r] eqn:E; [destruct raw; discriminate|].
  rewrite app_length in Hf || (rewrite <- E, app_length in Hf). cbn [length] in Hf.
  destruct fuel as [|fuel]; [lia|]. cbn [map_cstrings]. rewrite <- E.
  rewrite cstring_end_app by exact N. rewrite U. rewrite zskipn_past by reflexivity.
  rewrite IH by lia. reflexivity.
Qed.

Lemma before_language_none s : (forall a b, s <> a ++ [22; 2] ++ b) -> before_language s = s.
Proof.
  induction s as [|c r IH]; intros H; [reflexivity|]. cbn [before_language]. destruct r as [|e q]; [reflexivity|].
  destruct (Z.eqb_spec c 22) as [->|]; [destruct (Z.eqb_spec e 2) as [->|]|]; cbn [andb].
  - exfalso. exact (H [] q eq_refl).
  - rewrite IH; [reflexivity|]. intros a b E. apply (H (22 :: a) b). rewrite E. reflexivity.
  - rewrite IH; [reflexivity|]. intros a b E. apply (H (c :: a) b). rewrite E. reflexivity.
Qed.

Lemma before_language_ok s t : text_of s t -> before_language s = t.
Proof.
  intros [[-> H]|(lang & -> & H)]; [apply before_language_none; exact H|].
  revert H. induction t as [|c t IH]; intros H; [reflexivity|].
  assert (R : before_language (t ++ [22; 2] ++ lang) = t).
  { apply IH. intros a b E. apply (H (c :: a) b). cbn [app]. f_equal. exact E. }
  cbn [app before_language] in *. destruct (t ++ 22 :: 2 :: lang) as [|e q] eqn:E; [destruct t; discriminate|].
  destruct (Z.eqb_spec c 22) as [->|]; [destruct (Z.eqb_spec e 2) as [->|]|]; cbn [andb]; [|rewrite R; reflexivity..].
  exfalso. destruct t as [|e' t]; cbn [app] in E; [discriminate|]. injection E as -> _.
  apply (H [] (t ++ [22])). reflexivity.
Qed.

(** ** Attribute values *)

Lemma slice_vi x d rest : vi_ok x -> vi_v x = len d ->
  pyslice (vi_bytes x ++ d ++ rest) (len (vi_bytes x)) (len (vi_bytes x) + vi_v x) = d.
Proof.
  intros Hx E. pose proof (vi_bytes_pos x Hx). pose proof (len_nonneg d).
  rewrite pyslice_nonneg by lia. rewrite zskipn_app_len by reflexivity. apply zfirstn_app_len. lia.
Qed.

Lemma read_byte_multi pt x d rest : multi pt = true -> vi_ok x -> vi_v x = len d ->
  read_byte_value pt (vi_bytes x ++ d ++ rest) = Ok (ABytes d, len (vi_bytes x) + len d).
Proof.
  intros M Hx E. unfold read_byte_value. rewrite land2, M. cbn [Z.eqb negb].
  rewrite read_vint_ok by exact Hx. cbn [bind]. rewrite slice_vi by assumption. rewrite E.
  unfold len at 1. rewrite Nat2Z.id, chunks_bytes. pose proof (vi_bytes_pos x Hx).
  destruct (Z.eqb_spec (len (vi_bytes x)) 0); [lia|]. cbn [bind]. rewrite concat_singletons. reflexivity.
Qed.

Lemma read_float_single w pt d rest : multi pt = false -> length d = w -> (0 < w)%nat ->
  read_float_value w pt (d ++ rest) = Ok (AFloat d, len d).
Proof.
  intros M E Hw. unfold read_float_value. rewrite land2, M. cbn [Z.eqb bind].
  rewrite pyslice_nonneg by lia. rewrite zskipn_0 by lia. rewrite zfirstn_app_len by (unfold len; lia).
  rewrite Z.div_same by lia. change (Z.to_nat 1) with 1%nat.
  pose proof (chunks_ok w [d] (Forall_cons d E (Forall_nil _))) as C. cbn [concat] in C. rewrite app_nil_r in C.
  match goal with |- context [chunks ?a ?b ?c] => replace (chunks a b c) with (Some [d]) by (symmetry; exact C) end. cbn. do 2 f_equal. unfold len. lia.
Qed.

Lemma read_float_multi w pt x l rest : multi pt = true -> (0 < w)%nat -> Forall (fun d => length d = w) l ->
  vi_ok x -> vi_v x = len (concat l) ->
  read_float_value w pt (vi_bytes x ++ concat l ++ rest) = Ok (AFloats l, len (vi_bytes x) + len (concat l)).
Proof.
  intros M Hw F Hx E. unfold read_float_value. rewrite land2, M. cbn [Z.eqb].
  rewrite read_vint_ok by exact Hx. cbn [bind]. rewrite slice_vi by assumption. rewrite E.
  rewrite (len_concat_w w l F) at 1. rewrite Z.mul_comm, Z.div_mul by lia.
  unfold len at 1. rewrite Nat2Z.id, chunks_ok by exact F. pose proof (vi_bytes_pos x Hx).
  destruct (Z.eqb_spec (len (vi_bytes x)) 0); [lia|]. reflexivity.
Qed.

Lemma read_attribute_ok utf8 tb vt pt key v d rest : key <> accumulated -> stored utf8 tb vt pt v d ->
  read_attribute utf8 tb vt pt key (d ++ rest) = Ok (mkattr key pt vt v, len d).
Proof.
  intros K H. unfold read_attribute.
  destruct (list_eqb key (s2z "kMDStoreAccumulatedSizes")) eqn:EK; [apply list_eqb_eq in EK; contradiction|].
  destruct H as [x T Hx|b T M|x d T M Hx E|w d T M E|w x l T M F Hx E|x s l d T M S Hx E|x s t l d T M S X Hx E
    |x l d T M N S Hx E|x d T Hx E|x name T M Hx E|x l T M N Hx E|x s t l T M Hx E X].
  - destruct T as [T|[-> M]].
    + assert (E : existsb (Z.eqb vt) [0; 2; 6] = true).
      { apply existsb_exists. exists vt. split; [exact T|apply Z.eqb_refl]. }
      rewrite E, read_vint_ok by exact Hx. reflexivity.
    + change (existsb (Z.eqb 7) [0; 2; 6]) with false. change (7 =? 7) with true. cbv iota.
      unfold read_int_value. rewrite read_vint_ok by exact Hx. cbn [bind]. rewrite land2, M. reflexivity.
  - subst vt. change (existsb (Z.eqb 8) [0; 2; 6]) with false. change (8 =? 7) with false. change (8 =? 8) with true. cbv iota.
    unfold read_byte_value. rewrite land2, M. cbn [negb Z.eqb bind].
    rewrite pyslice_nonneg by lia. rewrite zskipn_0 by lia. rewrite zfirstn_app_len by reflexivity. reflexivity.
  - subst vt. change (existsb (Z.eqb 8) [0; 2; 6]) with false. change (8 =? 7) with false. change (8 =? 8) with true. cbv iota.
    rewrite <- app_assoc. rewrite read_byte_multi by assumption. cbn [bind]. rewrite len_app. reflexivity.
  - assert (R : (if vt =? 9 then read_float_value 4 pt (d ++ rest) else read_float_value 8 pt (d ++ rest)) = Ok (AFloat d, len d)).
    { destruct T as [[-> ->]|[T ->]]; [change (9 =? 9) with true; apply read_float_single; [assumption..|lia]|].
      destruct (Z.eqb_spec vt 9) as [->|]; [cbn [In] in T; lia|]. apply read_float_single; [assumption..|lia]. }
    assert (C : vt = 9 \/ vt = 10 \/ vt = 12) by (cbn [In] in T; lia).
    destruct C as [->|[->| ->]]; cbn [existsb Z.eqb Pos.eqb orb] in *; rewrite R; reflexivity.
  - assert (R : (if vt =? 9 then read_float_value 4 pt ((vi_bytes x ++ concat l) ++ rest) else read_float_value 8 pt ((vi_bytes x ++ concat l) ++ rest)) =
      Ok (AFloats l, len (vi_bytes x ++ concat l))).
    { rewrite <- app_assoc, len_app.
      destruct T as [[-> ->]|[T ->]]; [change (9 =? 9) with true; apply read_float_multi; [assumption|lia|assumption..]|].
      destruct (Z.eqb_spec vt 9) as [->|]; [cbn [In] in T; lia|]. apply read_float_multi; [assumption|lia|assumption..]. }
    assert (C : vt = 9 \/ vt = 10 \/ vt = 12) by (cbn [In] in T; lia).
    destruct C as [->|[->| ->]]; cbn [existsb Z.eqb Pos.eqb orb] in *; rewrite R; reflexivity.
  - subst vt. cbn [existsb Z.eqb Pos.eqb orb]. unfold read_string_value. rewrite <- app_assoc.
    rewrite read_vint_ok by exact Hx. cbn [bind]. rewrite slice_vi by assumption.
    rewrite (map_cstrings_ok utf8 (s :: l) d S) by lia. cbn [bind].
    pose proof (localized_multi pt M) as Lo. rewrite land3_localized, Lo, land3_multi, M by exact Lo.
    change (pyindex (s :: l) 0) with (Ok s). cbn [bind]. rewrite E, len_app. reflexivity.
  - subst vt. cbn [existsb Z.eqb Pos.eqb orb]. unfold read_string_value. rewrite <- app_assoc.
    rewrite read_vint_ok by exact Hx. cbn [bind]. rewrite slice_vi by assumption.
    rewrite (map_cstrings_ok utf8 (s :: l) d S) by lia. cbn [bind].
    rewrite land3_localized, M.
    change (pyindex (s :: l) 0) with (Ok s). cbn [bind]. rewrite E, len_app, (before_language_ok s t X). reflexivity.
  - subst vt. cbn [existsb Z.eqb Pos.eqb orb]. unfold read_string_value. rewrite <- app_assoc.
    rewrite read_vint_ok by exact Hx. cbn [bind]. rewrite slice_vi by assumption.
    rewrite (map_cstrings_ok utf8 l d S) by lia. cbn [bind].
    rewrite land3_localized, N, land3_multi, M by exact N. cbn [bind]. rewrite E, len_app. reflexivity.
  - subst vt. cbn [existsb Z.eqb Pos.eqb orb]. rewrite <- app_assoc.
    rewrite read_vint_ok by exact Hx. cbn [bind]. rewrite slice_vi by assumption. rewrite E, len_app. reflexivity.
  - subst vt. cbn [existsb Z.eqb Pos.eqb orb]. unfold read_reference_value.
    rewrite read_vint_ok by exact Hx. cbn [bind].
    pose proof (localized_multi pt M) as Lo. rewrite land3_localized, Lo, land3_multi, M by exact Lo. rewrite E. reflexivity.
  - subst vt. cbn [existsb Z.eqb Pos.eqb orb]. unfold read_reference_value.
    rewrite read_vint_ok by exact Hx. cbn [bind].
    rewrite land3_localized, N, land3_multi, M by exact N. rewrite E. reflexivity.
  - subst vt. cbn [existsb Z.eqb Pos.eqb orb]. unfold read_reference_value.
    rewrite read_vint_ok by exact Hx. cbn [bind].
    rewrite land3_localized, M, E. cbn [values_list]. rewrite (before_language_ok s t X). reflexivity.
Qed.

(** ** Multi-valued integers *)

Lemma read_ints_prefix data size tail : forall (l : list vi) pre fuel, Forall vi_ok l -> 
  data = pre ++ concat (map vi_bytes l) ++ tail -> size = len pre + len (concat (map vi_bytes l)) -> (length l <= fuel)%nat ->
  read_ints fuel data (len pre) size = Ok (map vi_v l).
Proof.
  induction l as [|x l IH]; intros pre fuel H Ed Es Hf; cbn [map concat] in *.
  - rewrite Es, (len_nil (A := Z)), Z.add_0_r. destruct fuel; cbn [read_ints]; rewrite Z.ltb_irrefl; reflexivity.
  - inversion H as [|? ? Hx Hl]; subst x0 l0. destruct fuel as [|fuel]; [cbn [length] in Hf; lia|]. cbn [read_ints].
    pose proof (vi_bytes_pos x Hx). pose proof (len_nonneg (concat (map vi_bytes l))). pose proof (len_nonneg pre).
    rewrite len_app in Es. destruct (Z.ltb_spec (len pre) size); [|lia].
    rewrite pyslice_nonneg by lia. rewrite Ed at 1. rewrite zskipn_app_len by reflexivity.
    rewrite zfirstn_app_len by (rewrite len_app; lia).
    rewrite read_vint_ok by exact Hx. cbn [bind].
    specialize (IH (pre ++ vi_bytes x) fuel Hl). rewrite len_app in IH. rewrite IH; [reflexivity| |lia|cbn [length] in Hf; lia].
    rewrite Ed, <- !app_assoc. reflexivity.
Qed.

(** An integer whose last bytes are cut off cannot be read. *)
Lemma read_vint_cut x n : vi_ok x -> 0 <= n < len (vi_bytes x) -> read_vint (zfirstn n (vi_bytes x)) = Err IndexError.
Proof.
  intros Hx Hn. rewrite read_vint_shape by (apply is_bytes_zfirstn, vi_bytes_bytes, Hx).
  destruct (vi_lead x Hx) as (b & l & E & Hb & Hl & Hw & _). rewrite E in *. rewrite len_cons in Hn.
  destruct (Z.eq_dec n 0) as [->|N]; [reflexivity|].
  assert (Z1 : zfirstn n (b :: l) = b :: zfirstn (n - 1) l).
  { rewrite !zfirstn_firstn. replace (Z.to_nat n) with (S (Z.to_nat (n - 1))) by lia. reflexivity. }
  rewrite Z1. destruct (lead_spec b) as [k v]. cbn [fst] in Hw. subst k.
  destruct (Z.leb_spec (Z.of_nat (vi_w x)) (len (zfirstn (n - 1) l))) as [C|_]; [|reflexivity].
  rewrite len_zfirstn in C. unfold len in *. lia.
Qed.

Lemma read_ints_cut data size : forall (l : list vi) x n pre fuel tail, Forall vi_ok l -> vi_ok x -> 0 < n < len (vi_bytes x) ->
  data = pre ++ concat (map vi_bytes l) ++ vi_bytes x ++ tail -> size = len pre + len (concat (map vi_bytes l)) + n ->
  (length l < fuel)%nat -> read_ints fuel data (len pre) size = Err IndexError.
Proof.
  induction l as [|y l IH]; intros x n pre fuel tail H Hx Hn Ed Es Hf; cbn [map concat] in *;
    (destruct fuel as [|fuel]; [lia|]); cbn [read_ints].
  - rewrite (len_nil (A := Z)) in Es. pose proof (len_nonneg pre). destruct (Z.ltb_spec (len pre) size); [|lia].
    rewrite pyslice_nonneg by lia. rewrite Ed. cbn [app]. rewrite zskipn_app_len by reflexivity.
    replace (size - len pre) with n by lia.
    assert (Z1 : zfirstn n (vi_bytes x ++ tail) = zfirstn n (vi_bytes x)).
    { rewrite !zfirstn_firstn, firstn_app. replace (Z.to_nat n - length (vi_bytes x))%nat with 0%nat by (unfold len in Hn; lia).
      cbn [firstn]. apply app_nil_r. }
    rewrite Z1, read_vint_cut by (try assumption; lia). reflexivity.
  - inversion H as [|? ? Hy Hl]; subst x0 l0. 
    pose proof (vi_bytes_pos y Hy). pose proof (len_nonneg (concat (map vi_bytes l))). pose proof (len_nonneg pre).
    rewrite len_app in Es. destruct (Z.ltb_spec (len pre) size); [|lia].
    rewrite pyslice_nonneg by lia. rewrite Ed at 1. rewrite zskipn_app_len by reflexivity. rewrite <- app_assoc.
    replace (zfirstn (size - len pre) (vi_bytes y ++ concat (map vi_bytes l) ++ vi_bytes x ++ tail))
      with (vi_bytes y ++ zfirstn (size - len pre - len (vi_bytes y)) (concat (map vi_bytes l) ++ vi_bytes x ++ tail)).
    2:{ rewrite !zfirstn_firstn, (firstn_app _ (vi_bytes y)). rewrite (firstn_all2 (vi_bytes y)) by (unfold len in *; lia).
        f_equal. f_equal. unfold len in *. lia. }
    rewrite read_vint_ok by exact Hy. cbn [bind].
    specialize (IH x n (pre ++ vi_bytes y) fuel tail Hl Hx Hn). rewrite len_app in IH. rewrite IH; [reflexivity| |lia|cbn [length] in Hf; lia].
    rewrite Ed, <- !app_assoc. reflexivity.
Qed.

(** Cutting a sequence of integers at a position: between integers or inside one. *)
Lemma cut_cases (l : list vi) n : Forall vi_ok l -> 0 <= n <= len (concat (map vi_bytes l)) ->
  (exists l1 l2, l = l1 ++ l2 /\ len (concat (map vi_bytes l1)) = n) \/
  (exists l1 x l2, l = l1 ++ x :: l2 /\ 0 < n - len (concat (map vi_bytes l1)) < len (vi_bytes x)).
Proof.
  revert n. induction l as [|x l IH]; intros n H Hn; cbn [map concat] in Hn.
  - left. exists [], []. split; [reflexivity|]. cbn [map concat]. rewrite (len_nil (A := Z)) in *. lia.
  - inversion H as [|? ? Hx Hl]; subst. rewrite len_app in Hn.
    destruct (Z.eq_dec n 0) as [->|N0]; [left; exists [], (x :: l); split; reflexivity|].
    destruct (Z_lt_ge_dec n (len (vi_bytes x))) as [C|C].
    + right. exists [], x, l. split; [reflexivity|]. cbn [map concat]. rewrite (len_nil (A := Z)). lia.
    + destruct (IH (n - len (vi_bytes x)) Hl ltac:(lia)) as [(l1 & l2 & -> & E)|(l1 & y & l2 & -> & E)].
      * left. exists (x :: l1), l2. split; [reflexivity|]. cbn [map concat]. rewrite len_app. lia.
      * right. exists (x :: l1), y, l2. split; [reflexivity|]. cbn [map concat]. rewrite len_app. lia.
Qed.

Lemma length_le_bytes (l : list vi) : Forall vi_ok l -> Z.of_nat (length l) <= len (concat (map vi_bytes l)).
Proof.
  induction 1 as [|x l Hx _ IH]; [cbn; lia|]. cbn [length map concat]. rewrite len_app. pose proof (vi_bytes_pos x Hx). lia.
Qed.

(** The integers are read from the size that precedes them. *)
Lemma read_int_multi pt x (l : list vi) l1 l2 rest : multi pt = true -> vi_ok x -> Forall vi_ok l ->
  vi_v x = len (concat (map vi_bytes l)) -> x :: l = l1 ++ l2 ->
  len (concat (map vi_bytes l2)) = len (vi_bytes x) ->
  read_int_value pt (vi_bytes x ++ concat (map vi_bytes l) ++ rest) =
  Ok (AInts (map vi_v l1), len (vi_bytes x) + vi_v x).
Proof.
  intros M Hx Hl E Sp L2. unfold read_int_value. rewrite read_vint_ok by exact Hx. cbn [bind]. rewrite land2, M. cbn [Z.eqb].
  assert (A : vi_bytes x ++ concat (map vi_bytes l) = concat (map vi_bytes l1) ++ concat (map vi_bytes l2)).
  { change (vi_bytes x ++ concat (map vi_bytes l)) with (concat (map vi_bytes (x :: l))). rewrite Sp, map_app, concat_app. reflexivity. }
  assert (F : Forall vi_ok (l1 ++ l2)) by (rewrite <- Sp; constructor; assumption). apply Forall_app in F. destruct F as [F1 F2].
  pose proof (f_equal len A) as B. rewrite !len_app in B. pose proof (length_le_bytes l1 F1).
  pose proof (read_ints_prefix (vi_bytes x ++ concat (map vi_bytes l) ++ rest) (vi_v x) (concat (map vi_bytes l2) ++ rest) l1 []
    (S (length (vi_bytes x ++ concat (map vi_bytes l) ++ rest))) F1) as R.
  cbn [app] in R. change (len (@nil Z)) with 0 in R. rewrite R; [reflexivity| |lia|].
  - rewrite app_assoc, A, <- app_assoc. reflexivity.
  - rewrite !app_length. unfold len in *. lia.
Qed.

Lemma read_int_multi_cut pt x (l : list vi) l1 y l2 rest : multi pt = true -> vi_ok x -> Forall vi_ok l ->
  vi_v x = len (concat (map vi_bytes l)) -> x :: l = l1 ++ y :: l2 ->
  0 < vi_v x - len (concat (map vi_bytes l1)) < len (vi_bytes y) ->
  read_int_value pt (vi_bytes x ++ concat (map vi_bytes l) ++ rest) = Err IndexError.
Proof.
  intros M Hx Hl E Sp L2. unfold read_int_value. rewrite read_vint_ok by exact Hx. cbn [bind]. rewrite land2, M. cbn [Z.eqb].
  assert (A : vi_bytes x ++ concat (map vi_bytes l) = concat (map vi_bytes l1) ++ vi_bytes y ++ concat (map vi_bytes l2)).
  { change (vi_bytes x ++ concat (map vi_bytes l)) with (concat (map vi_bytes (x :: l))). rewrite Sp, map_app, concat_app. reflexivity. }
  assert (F : Forall vi_ok (l1 ++ y :: l2)) by (rewrite <- Sp; constructor; assumption). apply Forall_app in F. destruct F as [F1 F2].
  inversion F2; subst. pose proof (length_le_bytes l1 F1).
  pose proof (read_ints_cut (vi_bytes x ++ concat (map vi_bytes l) ++ rest) (vi_v x) l1 y (vi_v x - len (concat (map vi_bytes l1))) []
    (S (length (vi_bytes x ++ concat (map vi_bytes l) ++ rest))) (concat (map vi_bytes l2) ++ rest) F1) as R.
  cbn [app] in R. change (len (@nil Z)) with 0 in R. rewrite R; [reflexivity|assumption|exact L2| |lia|].
  - rewrite app_assoc, A, <- !app_assoc. reflexivity.
  - rewrite !app_length. unfold len in *. lia.
Qed.

Lemma read_ints_fuel data size : is_bytes data -> forall fuel off, 0 <= off -> (Z.to_nat (len data - off) < fuel)%nat ->
  read_ints fuel data off size <> Err OtherError.
Proof.
  intros Hd. induction fuel as [|fuel IH]; intros off Ho Hf; [lia|]. cbn [read_ints].
  destruct (Z.ltb_spec off size) as [H|H]; [|discriminate].
  rewrite pyslice_nonneg by lia.
  rewrite read_vint_shape by (apply is_bytes_zfirstn, is_bytes_zskipn, Hd).
  destruct (zfirstn (size - off) (zskipn off data)) as [|b r] eqn:E; [discriminate|].
  destruct (lead_spec b) as [n v]. destruct (Z.leb_spec (Z.of_nat n) (len r)) as [C|C]; [|discriminate]. cbn [bind].
  assert (L : len (b :: r) <= len data - off).
  { rewrite <- E, len_zfirstn, len_zskipn. 
    assert (0 < len (zskipn off data)). { destruct (zskipn off data); [rewrite zfirstn_firstn, firstn_nil in E; discriminate|rewrite len_cons; pose proof (len_nonneg l); lia]. }
    rewrite len_zskipn in H0. lia. }
  rewrite len_cons in L. specialize (IH (off + (1 + Z.of_nat n)) ltac:(lia) ltac:(lia)).
  destruct (read_ints fuel data (off + (1 + Z.of_nat n)) size) as [l|e]; cbn [bind]; [discriminate|congruence].
Qed.

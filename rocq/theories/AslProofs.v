From Verif Require Import Base BaseFacts BitFacts CoreModel CoreProofs VarModel VarFacts SeqModel SeqSpec SeqFacts StrModel StrFacts DictModel AslModel AslSpec.

Lemma bit63 a : 0 <= a < 2 ^ 64 -> (Z.land a (Z.shiftl 1 63) =? 0) = (a <? 2 ^ 63).
Proof.
  intros Ha. assert (T : Z.testbit a 63 = negb (a <? 2 ^ 63)).
  { rewrite Z.testbit_odd, Z.shiftr_div_pow2 by lia. destruct (Z.ltb_spec a (2 ^ 63)).
    - rewrite Z.div_small by lia. reflexivity.
    - replace (a / 2 ^ 63) with 1; [reflexivity|]. apply (Z.div_unique _ _ _ (a - 2 ^ 63)); lia. }
  rewrite Z.shiftl_1_l. destruct (a <? 2 ^ 63); cbn [negb] in T.
  - apply Z.eqb_eq. apply Z.bits_inj'. intros n Hn. rewrite Z.land_spec, Z.bits_0, Z.pow2_bits_eqb by lia.
    destruct (Z.eqb_spec 63 n) as [<-|]; [rewrite T; reflexivity|apply andb_false_r].
  - apply Z.eqb_neq. intros E. apply (f_equal (fun z => Z.testbit z 63)) in E. rewrite Z.land_spec, Z.bits_0, Z.pow2_bits_eqb, T in E by lia.
    discriminate E.
Qed.

Lemma inline_value n b : is_bytes b -> length b = 7%nat -> 0 <= n < 16 ->
  let v := 8 * 2 ^ 60 + n * 2 ^ 56 + be_value b in
  Z.shiftr v 60 = 8 /\ Z.land (Z.shiftr v 56) 15 = n /\
  map (fun i => Z.land (Z.shiftr v (8 * i)) 255) [6; 5; 4; 3; 2; 1; 0] = b /\ 2 ^ 63 <= v < 2 ^ 64.
Proof.
  intros Hb Hl Hn v. destruct b as [|c6 [|c5 [|c4 [|c3 [|c2 [|c1 [|c0 [|? b]]]]]]]]; try discriminate Hl.
  unfold is_bytes in Hb. repeat match goal with H : Forall _ (_ :: _) |- _ => apply Forall_cons_iff in H; destruct H end. unfold is_byte in *.
  set (w := be_value [c6; c5; c4; c3; c2; c1; c0]) in v.
  assert (Ew : w = c6 * 281474976710656 + c5 * 1099511627776 + c4 * 4294967296 + c3 * 16777216 + c2 * 65536 + c1 * 256 + c0).
  { unfold w, be_value. cbn [fold_left]. lia. }
  assert (Ev : v = 9223372036854775808 + n * 72057594037927936 + w) by (unfold v; lia). clearbody v w. subst v.
  repeat split.
  - rewrite Z.shiftr_div_pow2 by lia. change (2 ^ 60) with 1152921504606846976. lia.
  - rewrite Z.shiftr_div_pow2 by lia. rewrite (land_mask _ 4) by lia. change (2 ^ 56) with 72057594037927936. change (2 ^ 4) with 16. lia.
  - cbn [map].
    assert (G : forall i, 0 <= i -> forall c hi lo d, d = 256 ^ i -> 9223372036854775808 + n * 72057594037927936 + w = (hi * 256 + c) * d + lo -> 0 <= lo < d -> 0 <= c < 256 ->
                Z.land (Z.shiftr (9223372036854775808 + n * 72057594037927936 + w) (8 * i)) 255 = c).
    { intros i Hi c hi lo d Hd E Hlo Hc. rewrite Z.shiftr_div_pow2 by lia. rewrite (land_mask _ 8) by lia. rewrite E.
      replace (2 ^ (8 * i)) with d by (rewrite Hd, Z.pow_mul_r by lia; reflexivity).
      rewrite Z.div_add_l, (Z.div_small lo) by lia. rewrite Z.add_0_r. change (2 ^ 8) with 256. rewrite Z.add_comm, Z.mod_add by lia. apply Z.mod_small. lia. }
    rewrite (G 6 ltac:(lia) c6 (128 + n) (c5 * 1099511627776 + c4 * 4294967296 + c3 * 16777216 + c2 * 65536 + c1 * 256 + c0) (256 ^ 6) eq_refl) by lia.
    rewrite (G 5 ltac:(lia) c5 ((128 + n) * 256 + c6) (c4 * 4294967296 + c3 * 16777216 + c2 * 65536 + c1 * 256 + c0) (256 ^ 5) eq_refl) by lia.
    rewrite (G 4 ltac:(lia) c4 (((128 + n) * 256 + c6) * 256 + c5) (c3 * 16777216 + c2 * 65536 + c1 * 256 + c0) (256 ^ 4) eq_refl) by lia.
    rewrite (G 3 ltac:(lia) c3 ((((128 + n) * 256 + c6) * 256 + c5) * 256 + c4) (c2 * 65536 + c1 * 256 + c0) (256 ^ 3) eq_refl) by lia.
    rewrite (G 2 ltac:(lia) c2 (((((128 + n) * 256 + c6) * 256 + c5) * 256 + c4) * 256 + c3) (c1 * 256 + c0) (256 ^ 2) eq_refl) by lia.
    rewrite (G 1 ltac:(lia) c1 ((((((128 + n) * 256 + c6) * 256 + c5) * 256 + c4) * 256 + c3) * 256 + c2) c0 (256 ^ 1) eq_refl) by lia.
    rewrite (G 0 ltac:(lia) c0 (((((((128 + n) * 256 + c6) * 256 + c5) * 256 + c4) * 256 + c3) * 256 + c2) * 256 + c1) 0 (256 ^ 0) eq_refl) by lia.
    reflexivity.
  - lia.
  - lia.
Qed.

Lemma rstrip_nul s n : (forall r, s <> r ++ [0]) -> rstrip 0 (s ++ repeat 0 n) = s.
Proof.
  intros H. induction s as [|x s IH].
  - cbn [app]. induction n as [|n IHn]; [reflexivity|]. cbn [repeat rstrip]. rewrite IHn. reflexivity.
  - cbn [app rstrip]. rewrite IH by (intros r E; apply (H (x :: r)); rewrite E; reflexivity).
    destruct s as [|y s]; [|reflexivity]. destruct (Z.eqb_spec x 0) as [->|]; [|reflexivity]. exfalso. apply (H []). reflexivity.
Qed.

Lemma string_ok utf8 content pos v s e : asl_ref utf8 content v s e -> asl_string utf8 content pos v = Ok (s, moved pos e).
Proof.
  intros H. destruct H as [|b pad s Hb Hp Hl Hs|off u b s n Ho Hu Hlb St Hs Hn].
  - reflexivity.
  - unfold asl_string. assert (Lb : 0 <= len b < 8) by (rewrite app_length in Hl; unfold len; lia).
    destruct (inline_value (len b) (b ++ pad)) as (E1 & E2 & E3 & E4); [apply is_bytes_app; split; assumption|exact Hl|lia|].
    cbv zeta in E1, E2, E3, E4. set (v := 8 * 2 ^ 60 + len b * 2 ^ 56 + be_value (b ++ pad)) in *. clearbody v.
    destruct (Z.eqb_spec v 0); [lia|]. rewrite bit63 by lia. destruct (Z.ltb_spec v (2 ^ 63)); [lia|]. cbn [negb].
    rewrite E1. change (8 =? 8) with true. cbn [guard bind]. rewrite E2. destruct (Z.ltb_spec (len b) 8); [|lia]. cbn [guard bind].
    rewrite E3. rewrite zfirstn_app_len by reflexivity. rewrite Hs. reflexivity.
  - unfold asl_string. destruct (Z.eqb_spec off 0); [lia|]. rewrite bit63 by lia. destruct (Z.ltb_spec off (2 ^ 63)); [|lia]. cbn [negb].
    destruct St as (pre & post & E & L). rewrite E.
    replace (pre ++ (be_enc 2 u ++ be_enc 4 (len b) ++ b) ++ post) with (pre ++ enc_struct [FU BE 2; FU BE 4] [VI u; VI (len b)] ++ b ++ post)
      by (cbn [enc_struct enc_field]; rewrite <- !app_assoc; reflexivity).
    rewrite read_var_enc; [|constructor; [exact Hu|constructor; [|constructor]]|lia|reflexivity].
    + cbn [as_parse_error bind]. rewrite Hs. rewrite rstrip_nul by exact Hn. cbn [moved].
      match goal with |- Ok (_, ?a) = Ok (_, ?b) => replace a with b by (change (Z.of_nat (struct_size [FU BE 2; FU BE 4])) with 6; lia) end. reflexivity.
    + cbn [fval_ok]. pose proof (len_nonneg b). change (256 ^ Z.of_nat 4) with (2 ^ 32). lia.
Qed.

Definition pairs_bytes (refs : list (Z * Z)) : bytes := concat (map (fun p => be_enc 8 (fst p) ++ be_enc 8 (snd p)) refs).

Lemma len_pairs refs : len (pairs_bytes refs) = 16 * len refs.
Proof.
  unfold pairs_bytes. induction refs as [|p refs IH]; [reflexivity|]. cbn [map concat]. rewrite len_app, IH, len_app, !len_be_enc, len_cons. lia.
Qed.

Lemma sdict_set_new {A} k (v : A) t : ~ In k (map fst t) -> sdict_set k v t = t ++ [(k, v)].
Proof.
  induction t as [|[k' v'] t IH]; intros H; [reflexivity|]. cbn [sdict_set app map fst In] in *.
  destruct (list_eqb k' k) eqn:E; [apply list_eqb_eq in E; tauto|]. rewrite IH by tauto. reflexivity.
Qed.

Lemma fields_ok utf8 content refs pos l pos' : asl_pairs utf8 content refs pos l pos' -> forall rest extra,
  NoDup (map fst extra ++ map fst (named l)) ->
  asl_fields utf8 content (length refs) (pairs_bytes refs ++ rest) pos extra = Ok (extra ++ named l, pos').
Proof.
  induction 1 as [pos|n v refs pos name value e1 e2 l pos' Hn Hv R1 R2 H IH]; intros rest extra N.
  - cbn [length asl_fields named]. rewrite app_nil_r. reflexivity.
  - cbn [length asl_fields].
    assert (E : pairs_bytes ((n, v) :: refs) ++ rest = enc_struct [FU BE 8; FU BE 8] [VI n; VI v] ++ pairs_bytes refs ++ rest).
    { unfold pairs_bytes. cbn [map concat fst snd enc_struct enc_field]. rewrite <- !app_assoc. reflexivity. }
    rewrite E. rewrite struct_bs_enc; [|constructor; [exact Hn|constructor; [exact Hv|constructor]]|cbn; lia].
    cbn [as_parse_error bind]. rewrite (string_ok _ _ _ _ _ _ R1). cbn [bind]. rewrite (string_ok _ _ _ _ _ _ R2). cbn [bind].
    rewrite zskipn_app_len by reflexivity.
    destruct name as [name|]; cbn [named] in *.
    + cbn [map fst] in N. rewrite sdict_set_new by (intros I; apply NoDup_remove_2 in N; apply N; apply in_or_app; left; exact I).
      rewrite IH; [rewrite <- app_assoc; reflexivity|]. rewrite map_app. cbn [map fst]. rewrite <- app_assoc. exact N.
    + apply IH. exact N.
Qed.

Lemma asl_bytes_enc o next host sender facility message refs :
  asl_bytes o next host sender facility message refs =
  enc_struct asl_layout [VI (ao_unknown o); VI (100 + 16 * len refs); VI next; VI (ao_id o); VI (ao_time o); VI (ao_ns o); VI (ao_level o);
    VI (ao_flags o); VI (ao_pid o); VI (ao_uid o); VI (ao_gid o); VI (ao_ruid o); VI (ao_rgid o); VI (ao_ref o);
    VI host; VI sender; VI facility; VI message] ++ pairs_bytes refs ++ be_enc 8 (ao_previous o).
Proof. unfold asl_bytes, asl_layout, pairs_bytes. cbn [enc_struct enc_field]. rewrite <- !app_assoc. reflexivity. Qed.

Lemma record_ok utf8 content pos off r next pos' : 0 <= pos <= off -> asl_at utf8 content off r next pos' ->
  asl_record utf8 content pos off = Ok (r, next, pos').
Proof.
  intros Hp (o & host & sender & facility & message & refs & l & e1 & e2 & e3 & e4 & St & Oo & U & Hr & R1 & R2 & R3 & R4 & P & N & Ex).
  pose proof (stored_at_inside _ _ _ St) as [I0 I1]. pose proof (len_nonneg (asl_bytes o next host sender facility message refs)).
  pose proof (len_nonneg refs). unfold asl_record.
  unfold asl_read at 1. destruct (Z.leb_spec (-1) (off - pos)); [|lia]. cbn [guard bind]. rewrite read_next_ok by lia. destruct (Z.leb_spec (pos + (off - pos)) (len content)); [|lia]. cbn [bind].
  rewrite asl_bytes_enc in St. destruct St as (pre & post & E & L). rewrite <- app_assoc in E.
  assert (V : Forall2 fval_ok asl_layout [VI (ao_unknown o); VI (100 + 16 * len refs); VI next; VI (ao_id o); VI (ao_time o); VI (ao_ns o);
    VI (ao_level o); VI (ao_flags o); VI (ao_pid o); VI (ao_uid o); VI (ao_gid o); VI (ao_ruid o); VI (ao_rgid o); VI (ao_ref o);
    VI host; VI sender; VI facility; VI message]).
  { destruct Oo as (O1 & O2 & O3 & O4). repeat match goal with H : Forall _ (_ :: _) |- _ => apply Forall_cons_iff in H; destruct H end.
    unfold u64 in *. unfold asl_layout. 
    repeat (constructor; [cbn [fval_ok]; change (256 ^ Z.of_nat 2) with (2 ^ 16); change (256 ^ Z.of_nat 4) with (2 ^ 32);
      change (256 ^ Z.of_nat 8) with (2 ^ 64); change (2 ^ (8 * Z.of_nat 4 - 1)) with (2 ^ 31); lia|]). constructor. }
  replace (read_struct content asl_layout off) with (@Ok (list fval) [VI (ao_unknown o); VI (100 + 16 * len refs); VI next; VI (ao_id o); VI (ao_time o); VI (ao_ns o);
    VI (ao_level o); VI (ao_flags o); VI (ao_pid o); VI (ao_uid o); VI (ao_gid o); VI (ao_ruid o); VI (ao_rgid o); VI (ao_ref o);
    VI host; VI sender; VI facility; VI message]) by (symmetry; rewrite E; apply read_struct_enc; [exact V|lia]).
  cbn [bind]. rewrite (string_ok _ _ _ _ _ _ R1). cbn [bind]. rewrite (string_ok _ _ _ _ _ _ R2). cbn [bind].
  rewrite (string_ok _ _ _ _ _ _ R3). cbn [bind]. rewrite (string_ok _ _ _ _ _ _ R4). cbn [bind].
  replace (100 + 16 * len refs + 6 - 98) with (8 + 16 * len refs) by lia.
  replace ((8 + 16 * len refs) mod 8 =? 0) with true
    by (symmetry; apply Z.eqb_eq; replace (8 + 16 * len refs) with ((1 + 2 * len refs) * 8) by lia; apply Z.mod_mul; lia).
  cbn [guard bind].
  assert (S2 : stored_at content (off + 98) (pairs_bytes refs ++ be_enc 8 (ao_previous o))).
  { exists (pre ++ enc_struct asl_layout [VI (ao_unknown o); VI (100 + 16 * len refs); VI next; VI (ao_id o); VI (ao_time o); VI (ao_ns o);
      VI (ao_level o); VI (ao_flags o); VI (ao_pid o); VI (ao_uid o); VI (ao_gid o); VI (ao_ruid o); VI (ao_rgid o); VI (ao_ref o);
      VI host; VI sender; VI facility; VI message]), post. split; [rewrite E, <- !app_assoc; reflexivity|].
    rewrite len_app. unfold len at 2. rewrite enc_struct_length by exact V. change (Z.of_nat (struct_size asl_layout)) with 98. lia. }
  pose proof (stored_at_inside _ _ _ S2) as [J0 J1].
  assert (L2 : len (pairs_bytes refs ++ be_enc 8 (ao_previous o)) = 8 + 16 * len refs) by (rewrite len_app, len_pairs, len_be_enc; lia).
  assert (Rn : asl_read content (off + 98) (8 + 16 * len refs) = Ok (pairs_bytes refs ++ be_enc 8 (ao_previous o), off + 98 + (8 + 16 * len refs))).
  { unfold asl_read. destruct (Z.leb_spec (-1) (8 + 16 * len refs)); [|lia]. cbn [guard bind]. apply read_next_iff; [lia|lia|]. split; [exact S2|]. split; [exact L2|reflexivity]. }
  rewrite Rn. cbn [bind].
  replace (range16 (8 + 16 * len refs - 8)) with (length refs).
  - replace (off + 98 + (8 + 16 * len refs)) with (off + 106 + 16 * len refs) by lia.
    rewrite (fields_ok _ _ _ _ _ _ P) by exact N. cbn [bind app]. rewrite <- Ex. destruct r. reflexivity.
  - unfold range16. replace (8 + 16 * len refs - 8 + 15) with (15 + len refs * 16) by lia. rewrite Z.div_add by lia. 
    change (15 / 16) with 0. unfold len. lia.
Qed.

Lemma pairs_pos utf8 content refs pos l pos' : 0 <= pos -> asl_pairs utf8 content refs pos l pos' -> 0 <= pos'.
Proof.
  intros Hp H. induction H as [pos|n v refs pos name value e1 e2 l pos' Hn Hv R1 R2 H IH]; [exact Hp|]. apply IH.
  assert (M : forall p w s e, 0 <= p -> asl_ref utf8 content w s e -> 0 <= moved p e).
  { intros p w s e Hp' R. destruct R as [| |off u b s n0 Ho Hu Hlb St Hs Hn0]; cbn [moved]; try lia. pose proof (len_nonneg b). lia. }
  eapply M; [|exact R2]. eapply M; [|exact R1]. exact Hp.
Qed.

Lemma at_pos utf8 content off r next pos' : asl_at utf8 content off r next pos' -> 0 <= pos'.
Proof.
  intros (o & host & sender & facility & message & refs & l & e1 & e2 & e3 & e4 & St & _ & _ & _ & _ & _ & _ & _ & P & _).
  apply stored_at_inside in St. pose proof (len_nonneg refs). eapply pairs_pos; [|exact P]. lia.
Qed.

Lemma chain_ok utf8 content pos off rs : asl_chain utf8 content pos off rs -> 0 <= pos ->
  exists fuel, forall k, asl_records (fuel + k) utf8 content pos off = Done (Ok rs).
Proof.
  induction 1 as [pos off L|pos off r pos' Hp R|pos off r next pos' rs Hp R N H IH]; intros P.
  - exists 0%nat. intros k. destruct k as [|k]; cbn [Nat.add asl_records]; destruct (Z.ltb_spec off (len content)); (reflexivity || lia).
  - exists 1%nat. intros k. cbn [Nat.add asl_records]. destruct (Z.ltb_spec off (len content)); [|lia].
    rewrite (record_ok _ _ _ _ _ _ _ (conj P (proj1 Hp)) R). reflexivity.
  - destruct IH as [fuel IH]; [eapply at_pos; exact R|]. exists (S fuel). intros k. cbn [Nat.add asl_records].
    destruct (Z.ltb_spec off (len content)); [|lia]. rewrite (record_ok _ _ _ _ _ _ _ (conj P (proj1 Hp)) R).
    destruct (Z.eqb_spec next 0); [contradiction|]. rewrite IH. reflexivity.
Qed.

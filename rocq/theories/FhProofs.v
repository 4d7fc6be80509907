From Verif Require Import Base BaseFacts SeqSpec SeqFacts CoreModel CoreProofs StrModel StrFacts DictModel RdModel RdSpec RdFacts TvModel TvSpec TvProofs CatModel CatSpec CatProofs FhModel FhSpec.

(** ** Members *)

Lemma fields_nil d : fields [] d <-> d = [].
Proof. unfold fields. split; [intros (ds & F & ->); inversion F; reflexivity|]. intros ->. exists []. split; constructor. Qed.

Lemma fields_cons P l d : fields (P :: l) d <-> exists d1 d2, P d1 /\ fields l d2 /\ d = d1 ++ d2.
Proof.
  unfold fields. split.
  - intros (ds & F & ->). inversion F as [|? x ? xs H F']; subst. exists x, (concat xs). split; [exact H|]. split; [eauto|reflexivity].
  - intros (d1 & d2 & H & (ds & F & ->) & ->). exists (d1 :: ds). split; [constructor; assumption|reflexivity].
Qed.

Lemma fields_app a b d : fields (a ++ b) d <-> exists d1 d2, fields a d1 /\ fields b d2 /\ d = d1 ++ d2.
Proof.
  revert d. induction a as [|P a IH]; intros d; cbn [app].
  - split; [intros H; exists [], d; split; [now apply fields_nil|auto]|]. intros (d1 & d2 & H & H2 & ->). apply fields_nil in H as ->. exact H2.
  - rewrite fields_cons. split.
    + intros (d1 & d2 & H & H2 & ->). apply IH in H2 as (d3 & d4 & A & B & ->). exists (d1 ++ d3), d4. split; [apply fields_cons; eauto|]. split; [exact B|]. apply app_assoc.
    + intros (d1 & d2 & H & H2 & ->). apply fields_cons in H as (d3 & d4 & A & B & ->). exists d3, (d4 ++ d2). split; [exact A|]. split; [apply IH; eauto|]. symmetry. apply app_assoc.
Qed.

Lemma reads_opt {A} b (r : reader A) e (c : Prop) : reads r e -> (b = true <-> c) -> reads (rd_opt b r) (when c e).
Proof.
  intros R C. unfold rd_opt. destruct b.
  - eapply reads_iff; [eapply reads_bind; [exact R|intros a; apply reads_ret]|]. intros o d _. cbv beta. split.
    + intros (a & d1 & d2 & H & [-> ->] & ->). rewrite app_nil_r. split; [now apply C|exact H].
    + destruct o as [a|]; intros [H1 H2]; [|exfalso; apply H1, C; reflexivity]. exists a, d, []. rewrite app_nil_r. auto.
  - eapply reads_iff; [apply reads_ret|]. intros o d _. cbv beta. assert (N : ~ c) by (intros H; apply C in H; discriminate). destruct o as [a|]; cbn [when].
    + split; [intros [H _]; discriminate|]. intros [H _]. contradiction.
    + split; [intros [_ H]; auto|]. intros [_ H]. auto.
Qed.

(** A reader that ends with a member and goes on with the others. *)
Definition reads_f {A} (r : reader A) (l : A -> list (bytes -> Prop)) : Prop := reads r (fun a d => fields (l a) d).

Lemma has_bit flags k : 0 <= k -> (has flags (2 ^ k) = true <-> flag flags k).
Proof.
  intros Hk. unfold has, flag. assert (E : Z.land flags (2 ^ k) = if Z.testbit flags k then 2 ^ k else 0).
  { apply Z.bits_inj'. intros i Hi. rewrite Z.land_spec. rewrite Z.pow2_bits_eqb by lia. destruct (Z.eqb_spec k i) as [->|N].
    - destruct (Z.testbit flags i); [now rewrite Z.pow2_bits_true by lia|]. now rewrite Z.bits_0.
    - rewrite andb_false_r. destruct (Z.testbit flags k); [|now rewrite Z.bits_0]. now rewrite Z.pow2_bits_false by lia. }
  rewrite E. destruct (Z.testbit flags k); [|cbn; split; discriminate]. split; [reflexivity|]. intros _. destruct (Z.eqb_spec (2 ^ k) 0); [|reflexivity]. pose proof (Z.pow_pos_nonneg 2 k). lia.
Qed.

Lemma file_type_iff flags t : 0 <= t -> (file_type flags =? 2 * t) = true <-> strings_in flags t.
Proof.
  intros Ht. unfold file_type, strings_in. assert (E : Z.land flags 14 = 2 * ((flags / 2) mod 8)).
  { change 8 with (2 ^ 3). rewrite <- Z.land_ones by lia. change (flags / 2) with (flags / 2 ^ 1). rewrite <- Z.shiftr_div_pow2 by lia. rewrite (Z.mul_comm 2).
    change (Z.land (Z.shiftr flags 1) (Z.ones 3) * 2) with (Z.land (Z.shiftr flags 1) (Z.ones 3) * 2 ^ 1). rewrite <- Z.shiftl_mul_pow2 by lia. apply Z.bits_inj'. intros i Hi. rewrite Z.shiftl_spec, !Z.land_spec by lia.
    destruct (Z.eq_dec i 0) as [->|N]; [cbn; now rewrite andb_false_r|]. rewrite Z.shiftr_spec by lia. f_equal; [f_equal; lia|].
    change 14 with (Z.shiftl (Z.ones 3) 1). now rewrite Z.shiftl_spec. }
  change 14 with 14 in *. rewrite E. rewrite Z.eqb_eq. lia.
Qed.

Lemma both_bits flags : (Z.land flags 0x8020 =? 0x8020) = true <-> flag flags 15 /\ flag flags 5.
Proof.
  rewrite Z.eqb_eq. unfold flag. split.
  - intros E. assert (forall i, Z.testbit 0x8020 i = true -> Z.testbit flags i = true) as H. { intros i Hi. rewrite <- E, Z.land_spec in Hi. now apply andb_true_iff in Hi as [Hi _]. }
    split; apply H; reflexivity.
  - intros [A B]. apply Z.bits_inj'. intros i Hi. rewrite Z.land_spec. change 0x8020 with (2 ^ 15 + 2 ^ 5).
    destruct (Z.testbit flags i) eqn:F; [reflexivity|]. cbn [andb]. symmetry. change (2 ^ 15 + 2 ^ 5) with (Z.lor (2 ^ 15) (2 ^ 5)). rewrite Z.lor_spec.
    rewrite !Z.pow2_bits_false; [reflexivity|intros <-; congruence|intros <-; congruence].
Qed.

Lemma reads_i8 : reads (rd_int (FU LE 1)) i8. Proof. apply reads_t8. Qed.
Lemma reads_i16 : reads (rd_int (FU LE 2)) i16. Proof. apply reads_t16. Qed.
Lemma reads_i32 : reads (rd_int (FU LE 4)) i32. Proof. apply reads_t32. Qed.
Lemma reads_i64 : reads (rd_int (FU LE 8)) i64. Proof. apply reads_t64. Qed.

Ltac fh_cond := first [ apply (has_bit _ 0); lia | apply (has_bit _ 4); lia | apply (has_bit _ 5); lia | apply (has_bit _ 8); lia | apply (has_bit _ 9); lia
                      | apply (has_bit _ 10); lia | apply (has_bit _ 11); lia | apply (has_bit _ 15); lia
                      | apply (file_type_iff _ 4); lia | apply (file_type_iff _ 5); lia | apply (file_type_iff _ 6); lia | apply both_bits ].

Ltac fh_reads tac := match goal with
  | |- reads (rd_bind _ _) _ => eapply reads_bind; [fh_reads tac|intros ?; fh_reads tac]
  | |- reads (rd_int (FU LE 1)) _ => apply reads_i8
  | |- reads (rd_int (FU LE 2)) _ => apply reads_i16
  | |- reads (rd_int (FU LE 4)) _ => apply reads_i32
  | |- reads (rd_int (FU LE 8)) _ => apply reads_i64
  | |- reads (rd_opt _ _) _ => eapply reads_opt; [fh_reads tac|fh_cond]
  | |- reads (rd_times _ _) _ => eapply reads_times; fh_reads tac
  | |- reads (rd_bytes _) _ => apply reads_bytes
  | |- reads (rd_ret _) _ => apply reads_ret
  | |- _ => solve [tac]
  end.

Ltac f_in := repeat (apply fields_cons; eexists _, _; split; [|split; [|reflexivity]]; [first [eassumption | eexists; eassumption]|]); apply fields_nil; reflexivity.
Ltac f_out := repeat match goal with
  | H : fields (_ :: _) _ |- _ => apply fields_cons in H as (? & ? & ? & ? & ->)
  | H : fields [] _ |- _ => apply fields_nil in H as -> end.
Ltac r_in := repeat match goal with |- exists _, _ => do 3 eexists; split; [|split; [|reflexivity]]; [eassumption|] end.

Lemma reads_header : reads rd_fh_header header_bytes.
Proof.
  unfold rd_fh_header. eapply reads_iff; [fh_reads fail|]. intros h d _. cbv beta. unfold header_bytes. split.
  - intros (a1 & ? & ? & H1 & (a2 & ? & ? & H2 & (a3 & ? & ? & H3 & (a4 & ? & ? & H4 & (a5 & ? & ? & H5 & (a6 & ? & ? & H6 & (a7 & ? & ? & H7 & (a8 & ? & ? & H8 & (a9 & ? & ? & H9 & (a10 & ? & ? & H10 & (a11 & ? & ? & H11 & [-> ->] & ->) & ->) & ->) & ->) & ->) & ->) & ->) & ->) & ->) & ->) & ->).
    cbn [fh_upper fh_lower fh_size fh_private fh_time]. f_in.
  - destruct h as [up lo sz pr ti]. cbn [fh_upper fh_lower fh_size fh_private fh_time]. intros H. f_out.
    repeat match goal with H : any _ _ |- _ => destruct H as [? H] end. r_in. split; reflexivity.
Qed.

Lemma aligned_iff (P Q : bytes -> Prop) d : (forall b, P b <-> Q b) -> (aligned P d <-> aligned Q d).
Proof. intros H. unfold aligned. split; intros (b & pad & X & Y); exists b, pad; (split; [apply H; exact X|exact Y]). Qed.

Lemma reads_tracepoint : reads rd_tracepoint tracepoint_bytes.
Proof.
  unfold rd_tracepoint. eapply reads_iff; [apply reads_aligned; fh_reads fail|]. intros tp d _. cbv beta. apply aligned_iff. intros b. split.
  - intros (a1 & ? & ? & H1 & (a2 & ? & ? & H2 & (a3 & ? & ? & H3 & (a4 & ? & ? & H4 & (a5 & ? & ? & H5 & (a6 & ? & ? & H6 & (a7 & ? & ? & H7 & (a8 & ? & ? & H8 & (a9 & ? & ? & [H9 ->] & [-> ->] & ->) & ->) & ->) & ->) & ->) & ->) & ->) & ->) & ->).
    cbn [tp_record tp_log tp_flags tp_format tp_thread tp_lower tp_upper tp_data]. subst a8. assert (H9 := eq_refl a9). f_in.
  - destruct tp as [rc lg fl fm th lo up da]. cbn [tp_record tp_log tp_flags tp_format tp_thread tp_lower tp_upper tp_data]. intros H. f_out. subst.
    repeat match goal with |- exists a d1 d2, _ /\ (exists _, _) /\ _ => do 3 eexists; split; [|split; [|reflexivity]]; [eassumption|] end.
    eexists _, _, []. split; [split; reflexivity|]. split; [split; reflexivity|]. reflexivity.
Qed.

Lemma solid_tracepoint : solid rd_tracepoint.
Proof. intros content pos H. unfold rd_tracepoint, rd_aligned, rd_bind at 1. rewrite (solid_int (FU LE 1)); [reflexivity| |exact H]. cbn. lia. Qed.

Lemma reads_location flags : reads (rd_location flags) (fun l d => fields (location_members flags l) d).
Proof.
  unfold rd_location. eapply reads_iff; [fh_reads fail|]. intros l d _. cbv beta. unfold location_members. split.
  - intros (a1 & ? & ? & H1 & (a2 & ? & ? & H2 & (a3 & ? & ? & H3 & (a4 & ? & ? & H4 & (a5 & ? & ? & H5 & [-> ->] & ->) & ->) & ->) & ->) & ->).
    cbn [lo_lower lo_large lo_upper lo_uuid lo_shared]. f_in.
  - destruct l as [lo la up uu sh]. cbn [lo_lower lo_large lo_upper lo_uuid lo_shared]. intros H. f_out. r_in. split; reflexivity.
Qed.

Lemma reads_range : reads rd_range range_bytes.
Proof.
  unfold rd_range. eapply reads_iff; [fh_reads fail|]. intros [o n] d _. cbv beta. unfold range_bytes. cbn [fst snd]. split.
  - intros (a1 & ? & ? & H1 & (a2 & ? & ? & H2 & [E ->] & ->) & ->). assert (o = a1 /\ n = a2) as [-> ->] by (split; congruence). f_in.
  - intros H. f_out. r_in. split; reflexivity.
Qed.

Lemma reads_items : reads rd_items (fun items d => fields (items_members items) d).
Proof.
  unfold rd_items. eapply reads_iff; [fh_reads ltac:(apply reads_item)|]. intros items d _. cbv beta. unfold items_members. split.
  - intros (a1 & ? & ? & H1 & (a2 & ? & ? & H2 & [L H3] & ->) & ->). rewrite count_len in L by (destruct H2 as [H2 _]; unfold n8 in H2; lia). subst a2.
    do 2 (apply fields_cons; eexists _, _; split; [|split; [|reflexivity]]; [first [eassumption | eexists; eassumption]|]).
    apply fields_cons. eexists _, []. split; [exact H3|]. split; [now apply fields_nil|]. now rewrite app_nil_r.
  - intros H. f_out. match goal with H : any _ _ |- _ => destruct H as [? H] end. rewrite app_nil_r.
    do 2 (do 3 eexists; split; [|split; [|reflexivity]]; [eassumption|]). split; [unfold len; lia|assumption].
Qed.

Ltac bodies := first [apply reads_location | apply reads_items | apply reads_range].

Lemma fields_more (P : bytes -> Prop) l d1 d2 : P d1 -> fields l d2 -> fields (P :: l) (d1 ++ d2).
Proof. intros H1 H2. apply fields_cons. eauto. Qed.

Lemma fields_join a b d1 d2 : fields a d1 -> fields b d2 -> fields (a ++ b) (d1 ++ d2).
Proof. intros H1 H2. apply fields_app. eauto. Qed.

Lemma reads_activity log flags data : reads (rd_activity log flags) (fun b d => body_of 1 log flags 2 data b d).
Proof.
  unfold rd_activity. eapply reads_iff.
  { eapply reads_bind; [eapply reads_opt; [apply reads_i64|fh_cond]|intros ?]. eapply reads_bind; [eapply reads_opt; [apply reads_i64|fh_cond]|intros ?].
    eapply reads_bind; [eapply reads_opt; [apply reads_i64|fh_cond]|intros ?].
    eapply reads_bind; [eapply (reads_opt _ _ _ (log <> 3)); [apply reads_i64|]|intros ?]. { rewrite negb_true_iff, Z.eqb_neq. reflexivity. }
    eapply reads_bind; [apply reads_location|intros ?]. apply reads_ret. }
  intros b d _. cbv beta. split.
  - intros (a1 & ? & ? & H1 & (a2 & ? & ? & H2 & (a3 & ? & ? & H3 & (a4 & ? & ? & H4 & (a5 & ? & ? & H5 & [-> ->] & ->) & ->) & ->) & ->) & ->). rewrite app_nil_r.
    apply bo_activity. cbn [app]. do 4 (apply fields_more; [assumption|]). exact H5.
  - intros H. inversion H as [c p o n l dat d' F| | | |]; subst. cbn [app] in F. do 4 apply fields_cons in F as (? & ? & ? & F & ->).
    do 4 (do 3 eexists; split; [|split; [|reflexivity]]; [eassumption|]). eexists _, _, []. split; [exact F|]. split; [split; reflexivity|]. now rewrite app_nil_r.
Qed.

Lemma le_enc_1 v : n8 v -> le_enc 1 v = [v].
Proof. unfold n8. intros H. cbn [le_enc]. rewrite Z.mod_small by lia. reflexivity. Qed.

Lemma when_iff {A} (c : Prop) (e f : A -> bytes -> Prop) o d : (forall a, e a d <-> f a d) -> (when c e o d <-> when c f o d).
Proof. intros H. destruct o; cbn [when]; [rewrite H|]; reflexivity. Qed.

Lemma ref_iff c o d : when c i8 o d <-> when c (fun v d => 0 <= v < 256 ^ Z.of_nat 1 /\ d = le_enc 1 v) o d.
Proof. apply when_iff. intros v. unfold i8. change (256 ^ Z.of_nat 1) with (2 ^ 8). split; intros [A ->]; (split; [exact A|]); [symmetry|]; apply le_enc_1; exact A. Qed.

Lemma reads_log log flags data : reads (rd_log flags) (fun b d => body_of 1 log flags 4 data b d).
Proof.
  unfold rd_log. eapply reads_iff; [fh_reads bodies|].
  intros b d _. cbv beta. split.
  - intros (a1 & ? & ? & H1 & (a2 & ? & ? & H2 & (a3 & ? & ? & H3 & (a4 & ? & ? & H4 & (a5 & ? & ? & H5 & (a6 & ? & ? & H6 & (a7 & ? & ? & H7 & [-> ->] & ->) & ->) & ->) & ->) & ->) & ->) & ->). rewrite app_nil_r.
    apply bo_log. apply ref_iff in H6. cbn [app]. do 2 (apply fields_more; [assumption|]). apply fields_join; [exact H3|]. do 3 (apply fields_more; [assumption|]). exact H7.
  - intros H. inversion H as [| |c p l su tt re it dat d' F| |]; subst. cbn [app] in F. do 2 apply fields_cons in F as (? & ? & ? & F & ->). apply fields_app in F as (? & ? & ? & F & ->).
    do 3 apply fields_cons in F as (? & ? & ? & F & ->). match goal with H : when _ _ re _ |- _ => apply ref_iff in H end.
    do 6 (do 3 eexists; split; [|split; [|reflexivity]]; [eassumption|]). eexists _, _, []. split; [exact F|]. split; [split; reflexivity|]. now rewrite app_nil_r.
Qed.

Lemma reads_signpost log flags data : reads (rd_signpost flags) (fun b d => body_of 1 log flags 6 data b d).
Proof.
  unfold rd_signpost. eapply reads_iff; [fh_reads bodies|].
  intros b d _. cbv beta. split.
  - intros (a1 & ? & ? & H1 & (a2 & ? & ? & H2 & (a3 & ? & ? & H3 & (a4 & ? & ? & H4 & (a5 & ? & ? & H5 & (a6 & ? & ? & H6 & (a7 & ? & ? & H7 & (a8 & ? & ? & H8 & (a9 & ? & ? & H9 & (a10 & ? & ? & H10 & [-> ->] & ->) & ->) & ->) & ->) & ->) & ->) & ->) & ->) & ->) & ->). rewrite app_nil_r.
    apply bo_signpost. apply ref_iff in H7. cbn [app]. do 2 (apply fields_more; [assumption|]). apply fields_join; [exact H3|]. do 6 (apply fields_more; [assumption|]). exact H10.
  - intros H. inversion H as [| | |c p l su id tt re nl nu it dat d' F|]; subst. cbn [app] in F. do 2 apply fields_cons in F as (? & ? & ? & F & ->). apply fields_app in F as (? & ? & ? & F & ->).
    do 6 apply fields_cons in F as (? & ? & ? & F & ->). match goal with H : when _ _ re _ |- _ => apply ref_iff in H end.
    do 9 (do 3 eexists; split; [|split; [|reflexivity]]; [eassumption|]). eexists _, _, []. split; [exact F|]. split; [split; reflexivity|]. now rewrite app_nil_r.
Qed.

Lemma reads_loss log flags data : reads rd_loss (fun b d => body_of 1 log flags 7 data b d).
Proof.
  unfold rd_loss. eapply reads_iff; [fh_reads bodies|]. intros b d _. cbv beta. split.
  - intros (a1 & ? & ? & H1 & (a2 & ? & ? & H2 & (a3 & ? & ? & H3 & [-> ->] & ->) & ->) & ->). apply bo_loss. f_in.
  - intros H. inversion H as [| | | |s e c dat d' F]; subst. f_out. r_in. split; reflexivity.
Qed.

Lemma last_app (data : bytes) c : data <> [] -> ((exists values, data = values ++ [c]) <-> last data 0 = c).
Proof.
  intros N. split; [intros [v ->]; apply last_last|]. intros <-. exists (removelast data). apply app_removelast_last. exact N.
Qed.

Lemma reads_trace log flags data : data <> [] -> reads (rd_trace data) (fun b d => body_of 1 log flags 3 data b d).
Proof.
  intros N. unfold rd_trace. eapply reads_iff; [fh_reads bodies|]. intros b d _. cbv beta. split.
  - intros (a1 & ? & ? & H1 & [-> ->] & ->). rewrite app_nil_r. apply bo_trace; [exact H1|]. now apply last_app.
  - intros H. inversion H as [|lo c dat d' F L| | |]; subst. apply last_app in L; [|exact N]. subst c. exists lo, d, []. rewrite app_nil_r. auto.
Qed.

(** ** The body of a tracepoint *)

Lemma mask_iff flags m bits : (forall i, 0 <= i -> (Z.testbit m i = true <-> In i bits)) ->
  ((Z.land flags (Z.lnot m) =? 0) = true <-> forall i, 0 <= i -> flag flags i -> In i bits).
Proof.
  intros M. rewrite Z.eqb_eq. unfold flag. split.
  - intros E i Hi F. apply M; [exact Hi|]. assert (Z.testbit (Z.land flags (Z.lnot m)) i = false) by (rewrite E; apply Z.bits_0).
    rewrite Z.land_spec, F, Z.lnot_spec in * by lia. cbn [andb] in *. now apply negb_false_iff in H.
  - intros H. apply Z.bits_inj'. intros i Hi. rewrite Z.land_spec, Z.lnot_spec, Z.bits_0 by lia. destruct (Z.testbit flags i) eqn:F; [|reflexivity].
    specialize (H i Hi F). apply M in H; [|exact Hi]. now rewrite H.
Qed.

Lemma mask_bits m bits : 0 <= m < 2 ^ 16 -> forallb (fun i => Bool.eqb (Z.testbit m i) (existsb (Z.eqb i) bits)) [0; 1; 2; 3; 4; 5; 6; 7; 8; 9; 10; 11; 12; 13; 14; 15] = true ->
  Forall (fun i => 0 <= i < 16) bits -> forall i, 0 <= i -> (Z.testbit m i = true <-> In i bits).
Proof.
  intros Hm F B i Hi. rewrite forallb_forall in F. destruct (Z_lt_ge_dec i 16) as [L|L].
  - assert (I : In i [0; 1; 2; 3; 4; 5; 6; 7; 8; 9; 10; 11; 12; 13; 14; 15]) by (cbn [In]; lia). specialize (F i I). apply Bool.eqb_prop in F. rewrite F, existsb_exists. split.
    + intros (x & X & E). apply Z.eqb_eq in E as ->. exact X.
    + intros X. exists i. split; [exact X|apply Z.eqb_refl].
  - split; intros H; exfalso.
    + destruct (Z.eq_dec m 0) as [->|N]; [rewrite Z.bits_0 in H; discriminate|]. rewrite Z.bits_above_log2 in H; [discriminate|lia|]. assert (Z.log2 m < 16) by (apply Z.log2_lt_pow2; lia). lia.
    + rewrite Forall_forall in B. specialize (B i H). lia.
Qed.

Lemma one_of_iff v l : one_of v l = true <-> In v l.
Proof.
  unfold one_of. rewrite existsb_exists. split; [intros (x & X & E); apply Z.eqb_eq in E as ->; exact X|]. intros X. exists v. split; [exact X|apply Z.eqb_refl].
Qed.

Lemma supported_one tp logs bits : In (tp_record tp, logs, bits) kinds -> (supported tp <-> In (tp_log tp) logs /\ forall i, 0 <= i -> flag (tp_flags tp) i -> In i bits).
Proof.
  intros K. split.
  - intros (logs' & bits' & K' & H). assert (logs' = logs /\ bits' = bits) as [-> ->]; [|exact H]. unfold kinds in K, K'. cbn [In] in K, K'.
    intuition congruence.
  - intros H. exists logs, bits. tauto.
Qed.

(** What reading a body means. *)
Definition body_read (tp : tracepoint) (r : result (body * Z)) : Prop :=
  match r with
  | Ok (b, n) => supported tp /\ exists d values, body_of 1 (tp_log tp) (tp_flags tp) (tp_record tp) (tp_data tp) b d /\ tp_data tp = d ++ values /\ n = len d
  | Err e => unreadable tp e
  end.

Lemma read_body_ok tp logs bits m r : In (tp_record tp, logs, bits) kinds -> is_bytes (tp_data tp) -> (forall i, 0 <= i -> (Z.testbit m i = true <-> In i bits)) ->
  (tp_data tp <> [] -> reads r (fun b d => body_of 1 (tp_log tp) (tp_flags tp) (tp_record tp) (tp_data tp) b d)) ->
  body_read tp (do _ <- guard (one_of (tp_log tp) logs) ParseError; read_body m r tp).
Proof.
  intros K Hb M R. pose proof (supported_one tp logs bits K) as Sup. pose proof (mask_iff (tp_flags tp) m bits M) as Mk. unfold read_body.
  destruct (one_of (tp_log tp) logs) eqn:O; cbn [guard bind].
  2: { apply ur_kind. rewrite Sup. intros [H _]. apply one_of_iff in H. congruence. }
  apply one_of_iff in O. destruct (Z.land (tp_flags tp) (Z.lnot m) =? 0) eqn:Fl; cbn [guard bind].
  2: { apply ur_kind. rewrite Sup. intros [_ H]. apply Mk in H. congruence. }
  assert (Su : supported tp) by (apply Sup; split; [exact O|apply Mk; reflexivity]).
  destruct (Z.ltb_spec 0 (len (tp_data tp))) as [L|L]; cbn [guard bind].
  2: { apply ur_empty; [exact Su|]. destruct (tp_data tp); [reflexivity|]. unfold len in L. cbn [length] in L. lia. }
  assert (N : tp_data tp <> []) by (intros E; rewrite E in L; discriminate). specialize (R N (tp_data tp) 0 Hb ltac:(lia)) as [R1 R2].
  destruct (r (tp_data tp) 0) as [[b n]|e] eqn:E; cbn [body_read].
  - destruct (proj1 (R1 b n) eq_refl) as (d & B & (pre & post & P & Lp) & ->). assert (pre = []) as -> by (destruct pre; [reflexivity|unfold len in Lp; cbn [length] in Lp; lia]).
    split; [exact Su|]. exists d, post. split; [exact B|]. split; [exact P|lia].
  - rewrite (R2 e eq_refl). apply ur_data; [exact Su|exact N|]. intros b values (d & B & P). assert (X : Ok (b, 0 + len d) = Err e); [|discriminate].
    symmetry. apply R1. exists d. split; [exact B|]. split; [|reflexivity]. exists [], values. split; [exact P|reflexivity].
Qed.

Lemma tp_body_ok tp : is_bytes (tp_data tp) -> In (tp_record tp) [2; 3; 4; 6; 7] -> body_read tp (tp_body tp).
Proof.
  intros Hb I. unfold tp_body.
  assert (B1 : forall i, 0 <= i -> (Z.testbit 0x33f i = true <-> In i [0; 1; 2; 3; 4; 5; 8; 9])) by (apply mask_bits; [lia|reflexivity|repeat constructor; lia]).
  assert (B2 : forall i, 0 <= i -> (Z.testbit 2 i = true <-> In i [1])) by (apply mask_bits; [lia|reflexivity|repeat constructor; lia]).
  assert (B3 : forall i, 0 <= i -> (Z.testbit 0x1f2f i = true <-> In i [0; 1; 2; 3; 5; 8; 9; 10; 11; 12])) by (apply mask_bits; [lia|reflexivity|repeat constructor; lia]).
  assert (B4 : forall i, 0 <= i -> (Z.testbit 0x8f2f i = true <-> In i [0; 1; 2; 3; 5; 8; 9; 10; 11; 15])) by (apply mask_bits; [lia|reflexivity|repeat constructor; lia]).
  assert (B5 : forall i, 0 <= i -> (Z.testbit 0 i = true <-> In i [])) by (apply mask_bits; [lia|reflexivity|constructor]).
  assert (Kd : forall r logs bits, tp_record tp = r -> In (r, logs, bits) kinds -> In (tp_record tp, logs, bits) kinds) by (intros r logs bits -> H; exact H).
  destruct (Z.eqb_spec (tp_record tp) 2) as [E|N2].
  { eapply read_body_ok; [eapply (Kd 2); [exact E|unfold kinds; cbn; tauto]|exact Hb|exact B1|]. intros _. rewrite E. apply reads_activity. }
  destruct (Z.eqb_spec (tp_record tp) 3) as [E|N3].
  { eapply read_body_ok; [eapply (Kd 3); [exact E|unfold kinds; cbn; tauto]|exact Hb|exact B2|]. intros N. rewrite E. apply reads_trace. exact N. }
  destruct (Z.eqb_spec (tp_record tp) 4) as [E|N4].
  { eapply read_body_ok; [eapply (Kd 4); [exact E|unfold kinds; cbn; tauto]|exact Hb|exact B3|]. intros _. rewrite E. apply reads_log. }
  destruct (Z.eqb_spec (tp_record tp) 6) as [E|N6].
  { eapply read_body_ok; [eapply (Kd 6); [exact E|unfold kinds; cbn; tauto]|exact Hb|exact B4|]. intros _. rewrite E. apply reads_signpost. }
  assert (E : tp_record tp = 7) by (cbn [In] in I; lia).
  eapply read_body_ok; [eapply (Kd 7); [exact E|unfold kinds; cbn; tauto]|exact Hb|exact B5|]. intros _. rewrite E. apply reads_loss.
Qed.

(** ** The tracepoints *)

Lemma tp_at data off : is_bytes data -> 0 <= off < len data ->
  (forall tp n, rd_tracepoint (zskipn off data) 0 = Ok (tp, n) <-> exists d, tracepoint_bytes tp d /\ stored_at data off d /\ n = len d) /\
  (forall x, rd_tracepoint (zskipn off data) 0 = Err x -> x = ParseError).
Proof.
  intros Hb Ho. destruct (reads_tracepoint (zskipn off data) 0 (is_bytes_zskipn _ _ Hb)) as [R1 R2]; [pose proof (len_nonneg (zskipn off data)); lia|]. split; [|exact R2].
  intros tp n. rewrite R1. split; intros (d & T & S & ->); exists d; (split; [exact T|]); (split; [|lia]).
  - apply stored_at_from; [lia|]. destruct S as (pre & post & E & L). destruct pre; [|unfold len in L; cbn [length] in L; lia]. eauto.
  - apply stored_at_from in S; [|lia]. destruct S as [rest E]. exists [], rest. split; [exact E|reflexivity].
Qed.

Lemma tracepoint_len tp d : tracepoint_bytes tp d -> next8 (24 + len (tp_data tp)) (len d) /\ (forall c off, is_bytes c -> stored_at c off d -> is_bytes (tp_data tp)).
Proof.
  intros (b & pad & F & E & N). f_out. repeat match goal with H : i8 _ _ |- _ => destruct H as [_ ->] | H : i16 _ _ |- _ => destruct H as [_ ->] | H : i32 _ _ |- _ => destruct H as [_ ->] | H : i64 _ _ |- _ => destruct H as [_ ->] end.
  subst. split.
  - replace (24 + _) with (len ([tp_record tp] ++ [tp_log tp] ++ le_enc 2 (tp_flags tp) ++ le_enc 4 (tp_format tp) ++ le_enc 8 (tp_thread tp) ++ le_enc 4 (tp_lower tp) ++ le_enc 2 (tp_upper tp) ++ le_enc 2 (len (tp_data tp)) ++ tp_data tp ++ [])); [exact N|].
    rewrite !len_app, !len_le_enc. unfold len. cbn [length]. lia.
  - intros c off Hc (pre & post & -> & _). repeat (apply Forall_app in Hc as [? Hc]). repeat match goal with H : Forall _ (_ ++ _) |- _ => apply Forall_app in H as [? H] end. assumption.
Qed.

Lemma tracepoint_fields tp d : tracepoint_bytes tp d -> n8 (tp_record tp) /\ n8 (tp_log tp) /\ n16 (tp_flags tp) /\ n32 (tp_format tp) /\ n64 (tp_thread tp) /\ n32 (tp_lower tp) /\ n16 (tp_upper tp).
Proof. intros (b & pad & F & E & N). f_out. repeat match goal with H : i8 _ _ |- _ => destruct H as [? ->] | H : i16 _ _ |- _ => destruct H as [? ->] | H : i32 _ _ |- _ => destruct H as [? ->] | H : i64 _ _ |- _ => destruct H as [? ->] end. tauto. Qed.

Lemma known_record tp : one_of (tp_record tp) [0x00; 0x02; 0x03; 0x04; 0x06; 0x07] = true <-> unused tp \/ In (tp_record tp) [2; 3; 4; 6; 7].
Proof. rewrite one_of_iff. unfold unused. cbn [In]. lia. Qed.

Lemma supported_record tp : supported tp -> In (tp_record tp) [2; 3; 4; 6; 7].
Proof. intros (logs & bits & K & _). unfold kinds in K. cbn [In] in *. intuition congruence. Qed.

Lemma fields_pos (P : bytes -> Prop) l d : In P l -> (forall x, P x -> 0 < len x) -> fields l d -> 0 < len d.
Proof.
  intros I H (ds & F & ->). induction F as [|Q x l ds Q1 F IH]; [destruct I|]. cbn [concat]. rewrite len_app. pose proof (len_nonneg x). pose proof (len_nonneg (concat ds)).
  destruct I as [->|I]; [specialize (H x Q1)|specialize (IH I)]; lia.
Qed.

Lemma body_pos w log flags record data b d : body_of w log flags record data b d -> 0 < len d.
Proof.
  assert (A : forall v x, i32 v x -> 0 < len x) by (intros v x [_ ->]; rewrite len_le_enc; lia).
  assert (B : forall v x, i64 v x -> 0 < len x) by (intros v x [_ ->]; rewrite len_le_enc; lia).
  intros [c p o n l dat d0 F|lo c dat d0 F _|c p l su tt re it dat d0 F|c p l su id tt re nl nu it dat d0 F|s e c dat d0 F].
  - eapply (fields_pos (i32 (lo_lower l))); [|apply A|exact F]. apply in_or_app. right. cbn [location_members In]. tauto.
  - eapply A, F.
  - eapply (fields_pos (i32 (lo_lower l))); [|apply A|exact F]. apply in_or_app. right. apply in_or_app. left. cbn [location_members In]. tauto.
  - eapply (fields_pos (i32 (lo_lower l))); [|apply A|exact F]. apply in_or_app. right. apply in_or_app. left. cbn [location_members In]. tauto.
  - eapply (fields_pos (i64 s)); [|apply B|exact F]. cbn [In]. tauto.
Qed.

Lemma body_reader log flags record data : In record [2; 3; 4; 6; 7] -> data <> [] -> exists r, reads r (fun b d => body_of 1 log flags record data b d).
Proof.
  cbn [In]. intros I N. destruct I as [<-|[<-|[<-|[<-|[<-|[]]]]]]; eexists; [apply (reads_activity log)|apply (reads_trace log flags); exact N|apply reads_log|apply reads_signpost|apply (reads_loss log flags)].
Qed.

Lemma body_fun log flags record data b d b' d' values values' : is_bytes data -> data = d ++ values -> data = d' ++ values' ->
  body_of 1 log flags record data b d -> body_of 1 log flags record data b' d' -> In record [2; 3; 4; 6; 7] -> b = b' /\ d = d'.
Proof.
  intros Hb E E' B B' I. assert (N : data <> []) by (intros ->; pose proof (body_pos _ _ _ _ _ _ _ B); destruct d; [discriminate|discriminate]).
  destruct (body_reader log flags record data I N) as [r R]. destruct (R data 0 Hb) as [R1 _]; [pose proof (len_nonneg data); lia|].
  assert (St : forall x y, data = x ++ y -> stored_at data 0 x) by (intros x y ->; exists [], y; split; reflexivity).
  assert (A : r data 0 = Ok (b, len d)) by (apply R1; exists d; split; [exact B|]; split; [eapply St; exact E|lia]).
  assert (A' : r data 0 = Ok (b', len d')) by (apply R1; exists d'; split; [exact B'|]; split; [eapply St; exact E'|lia]).
  assert (b = b' /\ len d = len d') as [-> L] by (split; congruence). split; [reflexivity|]. rewrite E in E'. apply app_same_len in E' as [E' _]; assumption.
Qed.

Lemma unreadable_fun tp e e' : unreadable tp e -> unreadable tp e' -> e = e'.
Proof. intros [A|A B|A B C] [A'|A' B'|A' B' C']; try reflexivity; contradiction. Qed.

Lemma unreadable_contains tp e b values : unreadable tp e -> supported tp -> contains tp b values -> False.
Proof.
  intros [A|A B|A B C] S H; [contradiction| |eapply C, H]. destruct H as (d & H & E). pose proof (body_pos _ _ _ _ _ _ _ H). rewrite B in E. destruct d; [cbn in *; lia|discriminate].
Qed.

Lemma tp_body_complete tp b values : is_bytes (tp_data tp) -> supported tp -> contains tp b values -> exists n, tp_body tp = Ok (b, n) /\ pyslice_from (tp_data tp) n = values.
Proof.
  intros Hb S H. pose proof (supported_record tp S) as I. pose proof (tp_body_ok tp Hb I) as R. destruct (tp_body tp) as [[b' n]|e]; cbn [body_read] in R.
  - destruct R as (_ & d & v & B & E & ->). destruct H as (d' & B' & E'). destruct (body_fun _ _ _ _ _ _ _ _ _ _ Hb E E' B B' I) as [-> ->]. exists (len d'). split; [reflexivity|].
    rewrite pyslice_from_nonneg by apply len_nonneg. rewrite E'. apply zskipn_app_len. reflexivity.
  - exfalso. eapply unreadable_contains; eassumption.
Qed.

Lemma tp_body_bad tp e : is_bytes (tp_data tp) -> In (tp_record tp) [2; 3; 4; 6; 7] -> unreadable tp e -> tp_body tp = Err e.
Proof.
  intros Hb I U. pose proof (tp_body_ok tp Hb I) as R. destruct (tp_body tp) as [[b' n]|e']; cbn [body_read] in R.
  - exfalso. destruct R as (S & d & v & B & E & _). eapply unreadable_contains; [exact U|exact S|]. exists d. eauto.
  - f_equal. eapply unreadable_fun; eassumption.
Qed.

Definition any_private (l : list (tracepoint * body * bytes)) : bool := existsb (fun x => sets_private (tp_record (fst (fst x)))) l.

Lemma walk_follows {E S} (entry : fh_entry E S) data h k : is_bytes data -> forall off l stop, tracepoints data (fh_size h) off l stop -> forall fuel bound st es r,
  0 <= off -> (exists m, off = 8 * m) -> len data - off < Z.of_nat fuel -> (0 < fuel)%nat -> logged entry h k st l es r ->
  fh_walk fuel entry data h k off bound st =
    Some (es, match r, stop with Err x, _ => Err x | Ok _, Some x => Err x | Ok st', None => Ok (st', bound || any_private l) end).
Proof.
  intros Hb off l stop T.
  induction T as [off L|off tp d l stop L St T U W IH|off tp d b values l stop L St T Su C W IH|off tp d e L St T U R|off L In No|off L Out]; intros fuel bound st es r Ho Hm Hf Hf0 Lg;
    (destruct fuel as [|fuel]; [lia|]; cbn [fh_walk]).
  - destruct (Z.ltb_spec off (fh_size h)); [lia|]. inversion Lg; subst. cbn [gen_of any_private existsb]. now rewrite orb_false_r.
  - destruct (Z.ltb_spec off (fh_size h)); [|lia]. pose proof (stored_at_bounds _ _ _ St) as Bd. destruct (tracepoint_len _ _ T) as [[N1 [m2 N2]] _]. pose proof (len_nonneg (tp_data tp)).
    destruct (Z.ltb_spec off (len data)); [|lia]. cbn [guard bind]. destruct (tp_at data off Hb ltac:(lia)) as [R1 _]. rewrite (proj2 (R1 tp (len d))) by eauto.
    cbn [gen_of gen_bind]. rewrite (proj2 (known_record tp)) by (left; exact U). cbn [guard gen_of gen_bind]. unfold unused in U. rewrite U. cbn [Z.eqb].
    rewrite (IH fuel bound st es r) by (try assumption; try lia; destruct Hm as [m ->]; exists (m + m2); lia). reflexivity.
  - destruct (Z.ltb_spec off (fh_size h)); [|lia]. pose proof (stored_at_bounds _ _ _ St) as Bd. destruct (tracepoint_len _ _ T) as [N Hd]. specialize (Hd data off Hb St). pose proof N as [N1 [m2 N2]]. pose proof (len_nonneg (tp_data tp)).
    destruct (Z.ltb_spec off (len data)); [|lia]. cbn [guard bind]. destruct (tp_at data off Hb ltac:(lia)) as [R1 _]. rewrite (proj2 (R1 tp (len d))) by eauto.
    pose proof (supported_record tp Su) as I. cbn [gen_of gen_bind]. rewrite (proj2 (known_record tp)) by (right; exact I). cbn [guard gen_of gen_bind].
    destruct (Z.eqb_spec (tp_record tp) 0) as [E0|_]; [exfalso; cbn [In] in I; lia|].
    destruct (tp_body_complete tp b values Hd Su C) as (n & -> & V). cbn [gen_of gen_bind]. rewrite V.
    replace (tv_align (off + 24 + len (tp_data tp))) with (off + len d).
    2: { symmetry. apply align_iff. destruct Hm as [m Hm]. split; [lia|]. exists (m + m2). lia. }
    inversion Lg as [|st0 tp0 b0 v0 l0 x Er|st0 tp0 b0 v0 l0 e st' es' r0 Er Lg']; subst.
    + rewrite Er. reflexivity.
    + rewrite Er. cbn [gen_of gen_bind app]. rewrite (IH fuel (bound || sets_private (tp_record tp)) st' es' r) by (try assumption; try lia; destruct Hm as [m ->]; exists (m + m2); lia).
      cbn [app any_private existsb fst]. rewrite orb_assoc. reflexivity.
  - destruct (Z.ltb_spec off (fh_size h)); [|lia]. pose proof (stored_at_bounds _ _ _ St) as Bd. destruct (tracepoint_len _ _ T) as [N Hd]. specialize (Hd data off Hb St). pose proof N as [N1 [m2 N2]]. pose proof (len_nonneg (tp_data tp)).
    destruct (Z.ltb_spec off (len data)); [|lia]. cbn [guard bind]. destruct (tp_at data off Hb ltac:(lia)) as [R1 _]. rewrite (proj2 (R1 tp (len d))) by eauto.
    inversion Lg; subst. cbn [gen_of gen_bind]. destruct (one_of (tp_record tp) _) eqn:O; cbn [guard gen_of gen_bind].
    + apply known_record in O as [O|I]; [contradiction|]. destruct (Z.eqb_spec (tp_record tp) 0) as [E0|_]; [exfalso; cbn [In] in I; lia|].
      rewrite (tp_body_bad tp e Hd I R). reflexivity.
    + assert (NS : ~ supported tp) by (intros S'; apply supported_record in S'; assert (one_of (tp_record tp) [0; 2; 3; 4; 6; 7] = true) by (apply known_record; right; exact S'); congruence).
      destruct R as [A|A B|A B C]; [reflexivity|contradiction|contradiction].
  - destruct (Z.ltb_spec off (fh_size h)); [|lia]. destruct (Z.ltb_spec off (len data)); [|lia]. cbn [guard bind]. destruct (tp_at data off Hb ltac:(lia)) as [R1 R2].
    inversion Lg; subst. destruct (rd_tracepoint (zskipn off data) 0) as [[tp n]|x] eqn:Ed.
    + exfalso. destruct (proj1 (R1 tp n) eq_refl) as (d & T & S' & _). exact (No tp d T S').
    + rewrite (R2 x eq_refl). reflexivity.
  - destruct (Z.ltb_spec off (fh_size h)); [|lia]. destruct (Z.ltb_spec off (len data)); [lia|]. inversion Lg; subst. reflexivity.
Qed.

Lemma walk_total data size : is_bytes data -> forall n off, 0 <= off -> len data - off < Z.of_nat n -> exists l stop, tracepoints data size off l stop.
Proof.
  intros Hb n. induction n as [|n IH]; intros off Ho Hn.
  - destruct (Z.le_gt_cases size off); [eexists _, _; apply tp_end; lia|]. eexists _, _. apply tp_outside; lia.
  - destruct (Z.le_gt_cases size off); [eexists _, _; apply tp_end; lia|]. destruct (Z.le_gt_cases (len data) off); [eexists _, _; apply tp_outside; lia|].
    destruct (tp_at data off Hb ltac:(lia)) as [R1 R2]. destruct (rd_tracepoint (zskipn off data) 0) as [[tp m]|x] eqn:Ed.
    + destruct (proj1 (R1 tp m) eq_refl) as (d & T & S & _). destruct (tracepoint_len _ _ T) as [[N1 _] Hd]. specialize (Hd data off Hb S). pose proof (len_nonneg (tp_data tp)).
      destruct (IH (off + len d) ltac:(lia) ltac:(lia)) as (l & stop & W).
      destruct (one_of (tp_record tp) [0x00; 0x02; 0x03; 0x04; 0x06; 0x07]) eqn:O.
      * apply known_record in O as [U|I]; [eexists _, _; eapply tp_unused; eassumption|].
        assert (U : ~ unused tp) by (unfold unused; cbn [In] in I; lia).
        pose proof (tp_body_ok tp Hd I) as B. destruct (tp_body tp) as [[b k]|e]; cbn [body_read] in B.
        -- destruct B as (Su & d' & v & B & E & _). eexists _, _. eapply (tp_used data size off tp d b v); try eassumption. exists d'. auto.
        -- eexists _, _. eapply (tp_bad data size off tp d e); eassumption.
      * eexists _, _. eapply (tp_bad data size off tp d ParseError); try eassumption.
        -- intros U. assert (one_of (tp_record tp) [0; 2; 3; 4; 6; 7] = true) by (apply known_record; left; exact U). congruence.
        -- apply ur_kind. intros S'. apply supported_record in S'. assert (one_of (tp_record tp) [0; 2; 3; 4; 6; 7] = true) by (apply known_record; right; exact S'). congruence.
    + eexists _, _. apply tp_cut; [lia|lia|]. intros tp d T S. assert (Err x = Ok (tp, len d)); [|discriminate]. apply R1. eauto.
Qed.

Lemma logged_total {E S} (entry : fh_entry E S) h k l : forall st, exists es r, logged entry h k st l es r.
Proof.
  induction l as [|[[tp b] values] l IH]; intros st; [eexists _, _; constructor|].
  destruct (entry st h k tp b values) as [[e st']|x] eqn:Er; [|eexists _, _; eapply lg_err; exact Er].
  destruct (IH st') as (es & r & L). eexists _, _. eapply lg_cons; eassumption.
Qed.

Lemma header_at data : is_bytes data -> (forall h, rd_data rd_fh_header data = Ok h <-> exists d, header_bytes h d /\ stored_at data 0 d) /\ (forall x, rd_data rd_fh_header data = Err x -> x = ParseError).
Proof.
  intros Hb. split; [|intros x; apply (rd_data_errors _ _ _ _ reads_header Hb)]. intros h. rewrite (rd_data_iff _ _ _ _ reads_header Hb). split.
  - intros (d & rest & H & E). exists d. split; [exact H|]. exists [], rest. split; [exact E|reflexivity].
  - intros (d & H & (pre & post & E & L)). destruct pre; [|unfold len in L; cbn [length] in L; lia]. exists d, post. auto.
Qed.

Lemma header_len h d : header_bytes h d -> len d = 32.
Proof.
  intros F. unfold header_bytes in F. f_out. repeat match goal with H : any _ _ |- _ => destruct H as [? H] end.
  repeat match goal with H : i8 _ _ |- _ => destruct H as [_ ->] | H : i16 _ _ |- _ => destruct H as [_ ->] | H : i32 _ _ |- _ => destruct H as [_ ->] | H : i64 _ _ |- _ => destruct H as [_ ->] end.
  rewrite !len_app, !len_le_enc. reflexivity.
Qed.

Lemma process_total cat h : exists p, process_of cat h p.
Proof. destruct cat as [cs|]; [|eexists; now apply po_no_catalog]. destruct (find_process cs (fh_upper h) (fh_lower h)) eqn:F; eexists; [eapply po_found; eauto|eapply po_missing; eauto]. Qed.

Definition process_result (cat : option cat_state) (h : fh_header) : result (option known) :=
  match cat with
  | None => Ok None
  | Some cs => match find_process cs (fh_upper h) (fh_lower h) with Some k => Ok (Some k) | None => Err ParseError end
  end.

Lemma process_iff cat h p : process_of cat h p -> process_result cat h = match p with Some k => Ok k | None => Err ParseError end.
Proof. unfold process_result. intros [->|cs k -> F|cs -> F]; [reflexivity| |]; rewrite F; reflexivity. Qed.

Lemma chunk_total {E S} (entry : fh_entry E S) cat data st : is_bytes data -> exists es r, chunk_entries entry cat data st es r.
Proof.
  intros Hb. destruct data as [|x0 data0]; [eexists _, _; now apply ce_empty|]. set (data := x0 :: data0) in *. destruct (header_at data Hb) as [H1 _].
  destruct (rd_data rd_fh_header data) as [h|x] eqn:Eh.
  - destruct (proj1 (H1 h) eq_refl) as (d & H & S'). destruct (process_total cat h) as [[k|] P]; [|eexists _, _; eapply ce_process; eassumption].
    destruct (walk_total data (fh_size h) Hb (Datatypes.S (length data)) 32 ltac:(lia)) as (l & stop & W); [unfold len; lia|].
    destruct (logged_total entry h k l st) as (es & r & L). destruct r as [st'|x].
    + destruct stop as [x|]; [eexists _, _; eapply ce_stop; eassumption|].
      destruct (any_private l) eqn:A; unfold any_private in A.
      * apply existsb_exists in A as (y & I & Y). apply one_of_iff in Y. eexists _, _. eapply ce_ok; try eassumption. exists y. auto.
      * eexists _, _. eapply ce_unbound; try eassumption. intros y I Y. assert (A' : existsb (fun x => sets_private (tp_record (fst (fst x)))) l = true) by (apply existsb_exists; exists y; split; [exact I|apply one_of_iff; exact Y]). congruence.
    + eexists _, _. eapply ce_entry; eassumption.
  - eexists _, _. apply ce_header; [discriminate|]. intros h d H S'. assert (Err x = Ok h); [|discriminate]. apply H1. eauto.
Qed.

Lemma chunk_complete {E S} (entry : fh_entry E S) cat data st es r : is_bytes data -> chunk_entries entry cat data st es r -> firehose entry cat data st = Some (es, r).
Proof.
  intros Hb C. unfold firehose.
  assert (Hd : forall h d, header_bytes h d -> stored_at data 0 d -> (do _ <- guard (0 <? len data) ValueError; rd_data rd_fh_header data) = Ok h /\ 32 <= len data).
  { intros h d H S'. pose proof (stored_at_bounds _ _ _ S') as B. rewrite (header_len _ _ H) in B. split; [|lia]. destruct (Z.ltb_spec 0 (len data)); [|lia]. cbn [guard bind]. apply header_at; eauto. }
  assert (W : forall h d k l stop es r, header_bytes h d -> stored_at data 0 d -> process_of cat h (Some k) -> tracepoints data (fh_size h) 32 l stop -> logged entry h k st l es r ->
            firehose entry cat data st = Some (es, match r, stop with Err x, _ => Err x | Ok _, Some x => Err x | Ok st', None => if any_private l then Ok st' else Err UnboundLocalError end)).
  { intros h d k l stop es' r' H S' P T L. destruct (Hd h d H S') as [E1 Ln]. unfold firehose. rewrite E1. cbn [gen_of gen_bind].
    change (match cat with None => Ok None | Some cs => match find_process cs (fh_upper h) (fh_lower h) with Some k => Ok (Some k) | None => Err ParseError end end) with (process_result cat h).
    rewrite (process_iff _ _ _ P). cbn [gen_bind]. rewrite (walk_follows entry data h k Hb 32 l stop T (length data) false st es' r'); [|lia|exists 4; reflexivity|unfold len; unfold len in Ln; lia|unfold len in Ln; lia|exact L].
    cbn [orb app]. destruct r' as [st'|x]; [|reflexivity]. destruct stop as [x|]; [reflexivity|]. cbn [gen_bind gen_of app]. rewrite app_nil_r. destruct (any_private l); reflexivity. }
  destruct C as [->|N No|h d H S' P|h d k l stop es x H S' P T L|h d k l x es st' H S' P T L|h d k l es st' H S' P T L A|h d k l es st' H S' P T L A].
  - reflexivity.
  - destruct (Z.ltb_spec 0 (len data)) as [_|L]; [|destruct data; [contradiction|unfold len in L; cbn [length] in L; lia]]. cbn [guard bind]. destruct (header_at data Hb) as [H1 H2].
    destruct (rd_data rd_fh_header data) as [h|x] eqn:Eh; [|rewrite (H2 x eq_refl); reflexivity]. destruct (proj1 (H1 h) eq_refl) as (d & H & S'). exfalso. exact (No h d H S').
  - destruct (Hd h d H S') as [-> _]. cbn [gen_of gen_bind].
    change (match cat with None => Ok None | Some cs => match find_process cs (fh_upper h) (fh_lower h) with Some k => Ok (Some k) | None => Err ParseError end end) with (process_result cat h).
    rewrite (process_iff _ _ _ P). reflexivity.
  - rewrite <- (W h d k l stop es (Err x)) by assumption. reflexivity.
  - rewrite <- (W h d k l (Some x) es (Ok st')) by assumption. reflexivity.
  - pose proof (W h d k l None es (Ok st') H S' P T L) as X. destruct A as (y & I & Y). replace (any_private l) with true in X; [rewrite <- X; reflexivity|].
    symmetry. apply existsb_exists. exists y. split; [exact I|]. apply one_of_iff. exact Y.
  - pose proof (W h d k l None es (Ok st') H S' P T L) as X. replace (any_private l) with false in X; [rewrite <- X; reflexivity|].
    symmetry. destruct (any_private l) eqn:F; [|reflexivity]. apply existsb_exists in F as (y & I & Y). apply one_of_iff in Y. exfalso. exact (A y I Y).
Qed.

Lemma written_points data size tps ds : forall off l, Forall2 tracepoint_bytes tps ds -> stored_at data off (concat ds) -> size = off + len (concat ds) ->
  used_of tps l -> tracepoints data size off l None.
Proof.
  intros off l F. revert off l. induction F as [|tp d tps ds T F IH]; intros off l S Sz U; cbn [concat] in *.
  - inversion U. apply tp_end. unfold len in Sz. cbn [length] in Sz. lia.
  - rewrite len_app in Sz. apply stored_at_app in S as [S1 S2]. destruct (tracepoint_len _ _ T) as [[N _] _]. pose proof (len_nonneg (tp_data tp)). pose proof (len_nonneg (concat ds)).
    inversion U as [|tp0 tps0 l0 V U'|tp0 b v tps0 l0 Su C U']; subst l0 || idtac; subst tp0 tps0; try subst l.
    + eapply tp_unused; try eassumption; [lia|]. apply IH; [exact S2|lia|exact U'].
    + eapply tp_used; try eassumption; [lia|]. apply IH; [exact S2|lia|exact U'].
Qed.

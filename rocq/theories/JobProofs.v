From Verif Require Import Base BaseFacts CoreModel CoreProofs SeqModel SeqSpec SeqFacts MemFacts Utf16Model Utf16Spec Utf16Facts RdModel RdSpec RdFacts RbModel RbSpec RbProofs UuidModel UuidSpec UuidFacts JobModel JobSpec.

Lemma les_enc w l : les w l = enc_ints (FU LE w) l.
Proof. reflexivity. Qed.

Lemma reads_16s n : reads (rd_times n (rd_int (FU LE 2))) (fun l d => u16s n l /\ d = les 2 l).
Proof. eapply reads_iff; [apply reads_ints; cbn; lia|]. intros l d _. cbv beta. unfold u16s. rewrite les_enc. split; [intros (A & B & C)|intros ((A & B) & C)]; auto. Qed.

Lemma reads_32s n : reads (rd_times n (rd_int (FU LE 4))) (fun l d => u32s n l /\ d = les 4 l).
Proof. eapply reads_iff; [apply reads_ints; cbn; lia|]. intros l d _. cbv beta. unfold u32s. rewrite les_enc. split; [intros (A & B & C)|intros ((A & B) & C)]; auto. Qed.

Lemma reads_16 : reads (rd_int (FU LE 2)) (fun v d => u16 v /\ d = le_enc 2 v).
Proof. apply reads_int. cbn; lia. Qed.
Lemma reads_32 : reads (rd_int (FU LE 4)) (fun v d => u32 v /\ d = le_enc 4 v).
Proof. apply reads_int. cbn; lia. Qed.

Ltac job_reads := match goal with
  | |- reads (rd_bind _ _) _ => eapply reads_bind; [job_reads|intros ?; job_reads]
  | |- reads (rd_int (FU LE 2)) _ => apply reads_16
  | |- reads (rd_int (FU LE 4)) _ => apply reads_32
  | |- reads (rd_times _ (rd_int (FU LE 2))) _ => apply reads_16s
  | |- reads (rd_times _ (rd_int (FU LE 4))) _ => apply reads_32s
  | |- _ => reads_tac eauto
  end.

Lemma fixed_reads : reads rd_job_fixed job_fixed_bytes.
Proof.
  eapply reads_iff; [unfold rd_job_fixed; job_reads|]. intros f d _. unfold job_fixed_bytes. split.
  - intros H. rel_out. cbn [jf_product jf_format jf_id jf_name_offset jf_triggers_offset jf_retry_count jf_retry_interval jf_idle jf_priority jf_run jf_last_run].
    rewrite app_nil_r. repeat (split; [assumption|]). reflexivity.
  - destruct f as [f1 f2 f3 f4 f5 f6 f7 f8 f9 f10 f11]. cbn [jf_product jf_format jf_id jf_name_offset jf_triggers_offset jf_retry_count jf_retry_interval jf_idle jf_priority jf_run jf_last_run].
    intros H. rel_out. rel_in. all: try reflexivity.  all: rewrite ?app_nil_r; try reflexivity; assumption.
Qed.

Lemma wide_cut_iff d s : is_bytes d -> (wide_cut d = Some s <-> name_field s d).
Proof. intros Hd. rewrite <- wide_fixed_iff by exact Hd. unfold wide_cut, wide_fixed. destruct (utf16_decode _); split; congruence. Qed.

Lemma string_reads : reads rd_job_string job_string.
Proof.
  eapply reads_iff; [unfold rd_job_string; job_reads|]. intros s d Hd. unfold job_string. split.
  - intros (n & d1 & r & [Hn ->] & (w & d2 & d3 & [L ->] & [C ->] & ->) & ->). rewrite app_nil_r in *. exists n, w. repeat (split; [assumption || reflexivity|]).
    apply Forall_app in Hd as [_ Hw]. apply wide_cut_iff in C; [exact C|exact Hw].
  - intros (n & w & Hn & L & -> & C). exists n, (le_enc 2 n), w. split; [auto|]. split; [|reflexivity]. exists w, w, []. split; [auto|]. rewrite app_nil_r. split; [|reflexivity].
    split; [|reflexivity]. apply Forall_app in Hd as [_ Hw]. apply wide_cut_iff; [exact Hw|exact C].
Qed.

Lemma stream_reads : reads rd_job_stream job_stream.
Proof.
  eapply reads_iff; [unfold rd_job_stream; job_reads|]. intros s d Hd. unfold job_stream. split.
  - intros (n & d1 & r & [Hn ->] & [L ->] & ->). subst n. auto.
  - intros (L & ->). exists (len s), (le_enc 2 (len s)), s. auto.
Qed.

Lemma trigger_reads : reads rd_job_trigger job_trigger_bytes.
Proof.
  eapply reads_iff; [unfold rd_job_trigger; job_reads|]. intros t d Hd. unfold job_trigger_bytes. split.
  - intros H. rel_out. cbn [jt_dates jt_flags jt_arguments]. rewrite app_nil_r. auto.
  - destruct t as [a b c]. cbn [jt_dates jt_flags jt_arguments]. intros (A & B & C & ->). exists a, (les 2 a), (les 4 b ++ les 2 c). split; [auto|]. split; [|reflexivity].
    exists b, (les 4 b), (les 2 c). split; [auto|]. split; [|reflexivity]. exists c, (les 2 c), []. rewrite app_nil_r. auto.
Qed.

Lemma triggers_reads : reads rd_job_triggers job_triggers_bytes.
Proof.
  eapply reads_iff.
  - unfold rd_job_triggers. eapply reads_bind; [apply reads_16|]. intros n. apply reads_times, trigger_reads.
  - intros l d Hd. unfold job_triggers_bytes. cbv beta. split.
    + intros (n & d1 & r & [Hn ->] & [L (ds & F & ->)] & ->). assert (E : n = len l) by (unfold u16 in Hn; unfold len; lia). subst n. split; [exact Hn|]. exists ds. auto.
    + intros (Hn & ds & F & ->). exists (len l), (le_enc 2 (len l)), (concat ds). split; [auto|]. split; [|reflexivity]. split; [unfold len; lia|]. exists ds. auto.
Qed.

Lemma variable_reads : reads rd_job_variable job_variable_bytes.
Proof.
  eapply reads_iff.
  - unfold rd_job_variable. repeat match goal with
    | |- reads (rd_bind _ _) _ => eapply reads_bind
    | |- reads (rd_int (FU LE 2)) _ => apply reads_16
    | |- reads rd_job_string _ => apply string_reads
    | |- reads rd_job_stream _ => apply stream_reads
    | |- reads rd_job_triggers _ => apply triggers_reads
    | |- reads (rd_ret _) _ => apply reads_ret
    | |- forall _, _ => intros ?
    end.
  - intros v d Hd. unfold job_variable_bytes. split.
    + intros (a1 & x1 & r1 & [A1 ->] & (a2 & x2 & r2 & A2 & (a3 & x3 & r3 & A3 & (a4 & x4 & r4 & A4 & (a5 & x5 & r5 & A5 & (a6 & x6 & r6 & A6 & (a7 & x7 & r7 & A7 & (a8 & x8 & r8 & A8 & (a9 & x9 & r9 & A9 & [-> ->] & ->) & ->) & ->) & ->) & ->) & ->) & ->) & ->) & ->).
      cbn [jv_running jv_application jv_parameters jv_directory jv_author jv_comment jv_user_data jv_reserved jv_triggers].
      exists x2, x3, x4, x5, x6, x7, x8, x9. repeat (split; [assumption|]). rewrite app_nil_r. reflexivity.
    + destruct v as [a1 a2 a3 a4 a5 a6 a7 a8 a9]. cbn [jv_running jv_application jv_parameters jv_directory jv_author jv_comment jv_user_data jv_reserved jv_triggers].
      intros (x2 & x3 & x4 & x5 & x6 & x7 & x8 & x9 & A1 & A2 & A3 & A4 & A5 & A6 & A7 & A8 & A9 & ->).
      exists a1, (le_enc 2 a1). eexists. split; [auto|]. split; [|reflexivity].
      exists a2, x2. eexists. split; [exact A2|]. split; [|reflexivity]. exists a3, x3. eexists. split; [exact A3|]. split; [|reflexivity].
      exists a4, x4. eexists. split; [exact A4|]. split; [|reflexivity]. exists a5, x5. eexists. split; [exact A5|]. split; [|reflexivity].
      exists a6, x6. eexists. split; [exact A6|]. split; [|reflexivity]. exists a7, x7. eexists. split; [exact A7|]. split; [|reflexivity].
      exists a8, x8. eexists. split; [exact A8|]. split; [|reflexivity]. exists a9, x9, []. split; [exact A9|]. split; [split; reflexivity|]. rewrite app_nil_r. reflexivity.
Qed.

Lemma fixed_bytes_id f d : is_bytes d -> job_fixed_bytes f d -> is_bytes (jf_id f) /\ len (jf_id f) = 16.
Proof.
  intros Hd H. unfold job_fixed_bytes in H. rel_out. split; [|assumption]. unfold is_bytes in Hd. rewrite !Forall_app in Hd. tauto.
Qed.

(** What the fixed section leaves in the configuration. *)
Definition with_fixed (t : task) (f : job_fixed) : task :=
  mktask (t_application t) (t_author t) (t_comment t) (Some (jf_retry_count f)) (Some (jf_retry_interval f))
    (Some (uuid_le_str (jf_id f))) (t_parameters t) (Some (jf_priority f)) (t_directory t).

Lemma job_cases t content : is_bytes content ->
  (exists f v d1 d2 rest, content = d1 ++ d2 ++ rest /\ job_fixed_bytes f d1 /\ job_variable_bytes v d2 /\
     read_job t content = (mktask (Some (jv_application v)) (Some (jv_author v)) (Some (jv_comment v)) (Some (jf_retry_count f)) (Some (jf_retry_interval f))
             (Some (uuid_le_str (jf_id f))) (Some (jv_parameters v)) (Some (jf_priority f)) (Some (jv_directory v)), None)) \/
  (exists f d1 rest, content = d1 ++ rest /\ job_fixed_bytes f d1 /\ (forall v d2 r, rest = d2 ++ r -> ~ job_variable_bytes v d2) /\
     read_job t content = (with_fixed t f, Some ParseError)) \/
  ((forall f d1 rest, content = d1 ++ rest -> ~ job_fixed_bytes f d1) /\ read_job t content = (t, Some ParseError)).
Proof.
  intros Hb. pose proof (len_nonneg content). unfold read_job. destruct (fixed_reads content 0 Hb ltac:(lia)) as [R1 R2].
  destruct (rd_job_fixed content 0) as [[f p]|x] eqn:E.
  - destruct (proj1 (R1 f p) eq_refl) as (d1 & F & S & ->). apply stored_at_0 in S as [rest ->]. pose proof (len_nonneg d1). pose proof (len_nonneg rest).
    rewrite Z.add_0_l. destruct (variable_reads (d1 ++ rest) (len d1) Hb ltac:(rewrite len_app; lia)) as [V1 V2].
    destruct (rd_job_variable (d1 ++ rest) (len d1)) as [[v q]|y] eqn:Ev.
    + left. destruct (proj1 (V1 v q) eq_refl) as (d2 & V & S & _). apply stored_at_iff in S as (_ & L & S). rewrite zskipn_app_len in S by reflexivity.
      exists f, v, d1, d2, (zskipn (len d2) rest). split; [|auto]. rewrite <- S at 1. rewrite zfirstn_zskipn. reflexivity.
    + right. left. exists f, d1, rest. split; [reflexivity|]. split; [exact F|]. split; [|rewrite (V2 y eq_refl); reflexivity].
      intros v d2 r -> V. assert (Q : Err y = Ok (v, len d1 + len d2)); [|discriminate]. apply V1. exists d2. split; [exact V|]. split; [|reflexivity]. exists d1, r. auto.
  - right. right. split; [|rewrite (R2 x eq_refl); reflexivity]. intros f d1 rest -> F. assert (Q : Err x = Ok (f, 0 + len d1)); [|discriminate].
    apply R1. exists d1. split; [exact F|]. split; [|reflexivity]. exists [], rest. auto.
Qed.

(** A relation that a reader reads is deterministic. *)
Lemma reads_fun {A} (r : reader A) e a b da db x y : reads r e -> is_bytes (da ++ x) -> da ++ x = db ++ y -> e a da -> e b db -> a = b /\ da = db /\ x = y.
Proof.
  intros R Hb E Ea Eb. pose proof (len_nonneg (da ++ x)). destruct (R _ 0 Hb ltac:(lia)) as [R1 _].
  assert (Qa : r (da ++ x) 0 = Ok (a, 0 + len da)) by (apply R1; exists da; split; [exact Ea|]; split; [exists [], x; auto|reflexivity]).
  assert (Qb : r (da ++ x) 0 = Ok (b, 0 + len db)) by (apply R1; exists db; split; [exact Eb|]; split; [exists [], y; auto|reflexivity]).
  rewrite Qa in Qb. assert (a = b /\ 0 + len da = 0 + len db) as [-> L] by (split; congruence). split; [reflexivity|].
  assert (length da = length db) by (unfold len in L; lia). clear - H0 E. revert db H0 E. induction da as [|u da IH]; intros [|v db] L E; try discriminate; [auto|].
  injection L as L. injection E as -> E. destruct (IH db L E) as [-> ->]. auto.
Qed.

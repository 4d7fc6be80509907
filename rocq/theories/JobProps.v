(** Properties of the job file reader. *)

From Verif Require Import Base BaseFacts CoreModel StrModel StrFacts TextModel SeqModel SeqSpec SeqFacts Utf16Model Utf16Spec Utf16Facts RdModel RdSpec RdFacts UuidModel UuidSpec UuidFacts JobModel JobSpec JobProofs.
From Coq Require String.
Import String.StringSyntax.

(** *** C84: Windows Task Scheduler job files *)

(** A read succeeds exactly for job files; the configuration is that of the file, whatever the
    reader has read before. *)
Theorem C84_file : forall t content, is_bytes content ->
  (snd (read_job t content) = None <-> exists f v, job_file f v content) /\
  (forall f v, job_file f v content -> task_of f v (fst (read_job t content))).
Proof.
  intros t content Hb. destruct (job_cases t content Hb) as [(f & v & d1 & d2 & rest & Ec & F & V & E)|[(f & d1 & rest & Ec & F & N & E)|[N E]]]; rewrite E; cbn [fst snd].
  - split; [split; [|reflexivity]|].
    + intros _. exists f, v, d1, d2, rest. auto.
    + intros f' v' (d1' & d2' & rest' & F' & V' & Ec'). rewrite Ec in Ec', Hb.
      destruct (reads_fun _ _ f f' d1 d1' _ _ fixed_reads Hb Ec' F F') as (<- & <- & Er). apply Forall_app in Hb as [Hd Hb].
      destruct (reads_fun _ _ v v' d2 d2' _ _ variable_reads Hb Er V V') as (<- & <- & _). destruct (fixed_bytes_id f d1 Hd F) as [Hi Li].
      repeat (split; [reflexivity|]). eexists. split; [reflexivity|]. apply uuid_le_text; assumption.
  - assert (X : forall f v, ~ job_file f v content).
    { intros f' v' (d1' & d2' & rest' & F' & V' & Ec'). rewrite Ec in Ec', Hb. destruct (reads_fun _ _ f f' d1 d1' _ _ fixed_reads Hb Ec' F F') as (<- & <- & Er). exact (N v' d2' rest' Er V'). }
    split; [split; [discriminate|intros (f' & v' & J); exfalso; exact (X f' v' J)]|]. intros f' v' J. exfalso. exact (X f' v' J).
  - assert (X : forall f v, ~ job_file f v content) by (intros f' v' (d1' & d2' & rest' & F' & V' & Ec'); exact (N f' d1' _ Ec' F')).
    split; [split; [discriminate|intros (f' & v' & J); exfalso; exact (X f' v' J)]|]. intros f' v' J. exfalso. exact (X f' v' J).
Qed.
Print Assumptions C84_file.

(** All errors are ParseError; without a fixed size data section the configuration is unchanged. *)
Theorem C84_errors : forall t content, is_bytes content ->
  (forall e, snd (read_job t content) = Some e -> e = ParseError) /\
  ((forall f d rest, content = d ++ rest -> ~ job_fixed_bytes f d) -> read_job t content = (t, Some ParseError)).
Proof.
  intros t content Hb. destruct (job_cases t content Hb) as [(f & v & d1 & d2 & rest & Ec & F & V & E)|[(f & d1 & rest & Ec & F & N & E)|[N E]]]; rewrite E; cbn [snd].
  - split; [discriminate|]. intros N. exfalso. exact (N f d1 _ Ec F).
  - split; [congruence|]. intros N'. exfalso. exact (N' f d1 _ Ec F).
  - split; [congruence|auto].
Qed.
Print Assumptions C84_errors.

(** A file that is refused because of its variable-length data section still changes the
    configuration: it is then a mixture of two files. *)
Theorem C84_mixture_refuted : forall t f d rest, is_bytes (d ++ rest) -> job_fixed_bytes f d -> (forall v d2 r, rest = d2 ++ r -> ~ job_variable_bytes v d2) ->
  let t' := fst (read_job t (d ++ rest)) in
  snd (read_job t (d ++ rest)) = Some ParseError /\
  t_application t' = t_application t /\ t_parameters t' = t_parameters t /\ t_directory t' = t_directory t /\ t_author t' = t_author t /\ t_comment t' = t_comment t /\
  t_retry_count t' = Some (jf_retry_count f) /\ t_retry_interval t' = Some (jf_retry_interval f) /\ t_priority t' = Some (jf_priority f) /\
  exists s, t_id t' = Some s /\ uuid_le (jf_id f) s.
Proof.
  intros t f d rest Hb F N. destruct (job_cases t (d ++ rest) Hb) as [(f' & v & d1 & d2 & r & Ec & F' & V & E)|[(f' & d1 & r & Ec & F' & N' & E)|[N' E]]].
  - destruct (reads_fun _ _ f f' d d1 _ _ fixed_reads Hb Ec F F') as (<- & <- & Er). exfalso. exact (N v d2 r Er V).
  - destruct (reads_fun _ _ f f' d d1 _ _ fixed_reads Hb Ec F F') as (<- & <- & Er). rewrite E. cbn [fst snd]. split; [reflexivity|].
    apply Forall_app in Hb as [Hd _]. destruct (fixed_bytes_id f d Hd F) as [Hi Li]. repeat (split; [reflexivity|]). eexists. split; [reflexivity|]. apply uuid_le_text; assumption.
  - exfalso. exact (N' f d rest eq_refl F).
Qed.
Print Assumptions C84_mixture_refuted.

(** Example: "a.exe", "-x". *)
Definition ex_app : bytes := le_enc 2 6 ++ [97; 0; 46; 0; 101; 0; 120; 0; 101; 0; 0; 0].
Definition ex_par : bytes := le_enc 2 3 ++ [45; 0; 120; 0; 0; 0].
Definition ex_id : bytes := [1; 2; 3; 4; 5; 6; 7; 8; 9; 10; 11; 12; 13; 14; 15; 255].
Definition ex_head (name : Z) : bytes :=
  le_enc 2 0x501 ++ le_enc 2 1 ++ ex_id ++ le_enc 2 name ++ le_enc 2 0 ++ le_enc 2 3 ++ le_enc 2 5 ++ le_enc 4 0 ++ le_enc 4 32 ++ repeat 0 32.
Definition ex_job : bytes := ex_head 70 ++ le_enc 2 0 ++ ex_app ++ ex_par ++ le_enc 2 0 ++ le_enc 2 0 ++ le_enc 2 0 ++ le_enc 2 0 ++ le_enc 2 0 ++ le_enc 2 1 ++ repeat 7 48.

Example C84_case :
  read_job task_new ex_job =
    (mktask (Some (s2z "a.exe"%string)) (Some []) (Some []) (Some 3) (Some 5) (Some (s2z "04030201-0605-0807-090a-0b0c0d0e0fff"%string)) (Some (s2z "-x"%string)) (Some 32) (Some []), None) /\
  read_job task_new (ex_job ++ [1; 2]) = read_job task_new ex_job /\
  snd (read_job task_new (zfirstn 90 ex_job)) = Some ParseError /\
  read_job task_new (zfirstn 60 ex_job) = (task_new, Some ParseError).
Proof. repeat split; vm_compute; reflexivity. Qed.

(** The offsets of the fixed size data section are not used: a file in which the application name is
    stored at another offset is read with another name. *)
Theorem C84_offset_refuted : exists content s t, name_at_offset content s /\ read_job task_new content = (t, None) /\ t_application t <> Some s.
Proof.
  exists (ex_head 72 ++ le_enc 2 0 ++ le_enc 2 0 ++ ex_app ++ ex_par ++ le_enc 2 0 ++ le_enc 2 0 ++ le_enc 2 0 ++ le_enc 2 0 ++ le_enc 2 0), (s2z "a.exe"%string).
  eexists. split; [|split; [vm_compute; reflexivity|]].
  - exists ex_app. split.
    + exists 6, (zskipn 2 ex_app). split; [unfold u16; lia|]. split; [vm_compute; reflexivity|]. split; [vm_compute; reflexivity|]. left.
      exists (zskipn 2 ex_app), []. split; [|rewrite app_nil_r; reflexivity]. split; [vm_compute; intuition discriminate|].
      exists [97; 0; 46; 0; 101; 0; 120; 0; 101; 0]. split; [|reflexivity].
      apply (utf16_decode_sound (s2z "a.exe"%string)); [apply is_bytes_forallb; vm_compute; reflexivity|vm_compute; reflexivity].
    + exists (ex_head 72 ++ le_enc 2 0 ++ le_enc 2 0), (ex_par ++ le_enc 2 0 ++ le_enc 2 0 ++ le_enc 2 0 ++ le_enc 2 0 ++ le_enc 2 0). split; [vm_compute; reflexivity|vm_compute; reflexivity].
  - cbn [t_application]. vm_compute. discriminate.
Qed.
Print Assumptions C84_offset_refuted.

(** The minor version is shown as the major version: Windows XP, 0x0501, is shown as 5.5. *)
Theorem C84_version_refuted : forall v, u16 v ->
  job_version_text v = s2z "0x"%string ++ fmt_x 4 v ++ s2z " ("%string ++ fmt_d (v / 256) ++ s2z "."%string ++ fmt_d (v / 256) ++ s2z ")"%string.
Proof.
  intros v Hv. unfold job_version_text, u16 in *. assert (E : Z.land (Z.shiftr v 8) 255 = v / 256); [|rewrite E; reflexivity].
  rewrite Z.shiftr_div_pow2 by lia. change 255 with (Z.ones 8). rewrite Z.land_ones by lia. change (2 ^ 8) with 256. apply Z.mod_small.
  split; [apply Z.div_pos; lia|apply Z.div_lt_upper_bound; lia].
Qed.
Print Assumptions C84_version_refuted.

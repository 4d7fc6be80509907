(** The format of job files.

    Source: /repo/documentation/Job file format.asciidoc. *)

From Verif Require Import Base BaseFacts SeqSpec Utf16Spec UuidSpec JobModel.

Definition u16 (v : Z) : Prop := 0 <= v < 2 ^ 16.
Definition u32 (v : Z) : Prop := 0 <= v < 2 ^ 32.
Definition u16s (n : nat) (l : list Z) : Prop := length l = n /\ Forall u16 l.
Definition u32s (n : nat) (l : list Z) : Prop := length l = n /\ Forall u32 l.
Definition les (w : nat) (l : list Z) : bytes := concat (map (le_enc w) l).

(** The fixed size data section. *)
Definition job_fixed_bytes (f : job_fixed) (d : bytes) : Prop :=
  u16 (jf_product f) /\ u16 (jf_format f) /\ len (jf_id f) = 16 /\ u16 (jf_name_offset f) /\ u16 (jf_triggers_offset f) /\ u16 (jf_retry_count f) /\
  u16 (jf_retry_interval f) /\ u16s 2 (jf_idle f) /\ u32 (jf_priority f) /\ u32s 4 (jf_run f) /\ u16s 8 (jf_last_run f) /\
  d = le_enc 2 (jf_product f) ++ le_enc 2 (jf_format f) ++ jf_id f ++ le_enc 2 (jf_name_offset f) ++ le_enc 2 (jf_triggers_offset f) ++
      le_enc 2 (jf_retry_count f) ++ le_enc 2 (jf_retry_interval f) ++ les 2 (jf_idle f) ++ le_enc 4 (jf_priority f) ++ les 4 (jf_run f) ++ les 2 (jf_last_run f).

(** A string: the number of characters and the characters up to the end-of-string character; other
    characters may follow it, and a string may also have none. *)
Definition job_string (s : str) (d : bytes) : Prop :=
  exists n w, u16 n /\ len w = 2 * n /\ d = le_enc 2 n ++ w /\
    ((exists t r, utf16_z s t /\ w = t ++ r) \/ (utf16 s w /\ ~ In 0 s)).

Definition job_stream (s : bytes) (d : bytes) : Prop := u16 (len s) /\ d = le_enc 2 (len s) ++ s.

Definition job_trigger_bytes (t : job_trigger) (d : bytes) : Prop :=
  u16s 10 (jt_dates t) /\ u32s 4 (jt_flags t) /\ u16s 6 (jt_arguments t) /\ d = les 2 (jt_dates t) ++ les 4 (jt_flags t) ++ les 2 (jt_arguments t).

Definition job_triggers_bytes (l : list job_trigger) (d : bytes) : Prop :=
  u16 (len l) /\ exists ds, Forall2 job_trigger_bytes l ds /\ d = le_enc 2 (len l) ++ concat ds.

(** The variable-length data section. *)
Definition job_variable_bytes (v : job_variable) (d : bytes) : Prop :=
  exists d1 d2 d3 d4 d5 d6 d7 d8, u16 (jv_running v) /\ job_string (jv_application v) d1 /\ job_string (jv_parameters v) d2 /\ job_string (jv_directory v) d3 /\
    job_string (jv_author v) d4 /\ job_string (jv_comment v) d5 /\ job_stream (jv_user_data v) d6 /\ job_stream (jv_reserved v) d7 /\
    job_triggers_bytes (jv_triggers v) d8 /\
    d = le_enc 2 (jv_running v) ++ d1 ++ d2 ++ d3 ++ d4 ++ d5 ++ d6 ++ d7 ++ d8.

(** A job file; a signature can follow. *)
Definition job_file (f : job_fixed) (v : job_variable) (content : bytes) : Prop :=
  exists d1 d2 rest, job_fixed_bytes f d1 /\ job_variable_bytes v d2 /\ content = d1 ++ d2 ++ rest.

(** The configuration of the task. *)
Definition task_of (f : job_fixed) (v : job_variable) (t : task) : Prop :=
  t_application t = Some (jv_application v) /\ t_parameters t = Some (jv_parameters v) /\ t_directory t = Some (jv_directory v) /\
  t_author t = Some (jv_author v) /\ t_comment t = Some (jv_comment v) /\ t_retry_count t = Some (jf_retry_count f) /\
  t_retry_interval t = Some (jf_retry_interval f) /\ t_priority t = Some (jf_priority f) /\ exists s, t_id t = Some s /\ uuid_le (jf_id f) s.

(** The application name according to the offset in the fixed size data section. *)
Definition name_at_offset (content : bytes) (s : str) : Prop :=
  exists d, job_string s d /\ stored_at content (le_int (zfirstn 2 (zskipn 20 content))) d.

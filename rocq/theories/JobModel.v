(** Model of the reader of Windows Task Scheduler job files. *)

From Verif Require Import Base CoreModel StrModel TextModel SeqModel Utf16Model RdModel UuidModel.
From Coq Require String.
Import String.StringSyntax.

(** job.yaml job_fixed_length_data_section; the members in a row that the reader does not use are
    lists. *)
Record job_fixed := mkjobf {
  jf_product : Z; jf_format : Z; jf_id : bytes; jf_name_offset : Z; jf_triggers_offset : Z; jf_retry_count : Z; jf_retry_interval : Z;
  jf_idle : list Z; jf_priority : Z; jf_run : list Z; jf_last_run : list Z }.

Definition rd_job_fixed : reader job_fixed :=
  rd product <- rd_int (FU LE 2);
  rd format <- rd_int (FU LE 2);
  rd id <- rd_bytes 16;
  rd o1 <- rd_int (FU LE 2);
  rd o2 <- rd_int (FU LE 2);
  rd count <- rd_int (FU LE 2);
  rd interval <- rd_int (FU LE 2);
  rd idle <- rd_times 2 (rd_int (FU LE 2));
  rd priority <- rd_int (FU LE 4);
  rd run <- rd_times 4 (rd_int (FU LE 4));
  rd last <- rd_times 8 (rd_int (FU LE 2));
  rd_ret (mkjobf product format id o1 o2 count interval idle priority run last).

(** job.yaml job_string: the string ends at the first terminator, if there is one. *)
Definition wide_cut (d : bytes) : option str := utf16_decode (match unit_end d with Some t => t | None => d end).

Definition rd_job_string : reader str :=
  rd n <- rd_int (FU LE 2);
  rd d <- rd_bytes (2 * n);
  rd_some (wide_cut d).

(** job.yaml job_user_data and job_reserved_data. *)
Definition rd_job_stream : reader bytes :=
  rd n <- rd_int (FU LE 2);
  rd_bytes n.

(** job.yaml job_trigger: size, reserved, start and end date, start time; duration, interval, flags,
    type; arguments, padding, reserved. *)
Record job_trigger := mkjobt { jt_dates : list Z; jt_flags : list Z; jt_arguments : list Z }.

Definition rd_job_trigger : reader job_trigger :=
  rd a <- rd_times 10 (rd_int (FU LE 2));
  rd b <- rd_times 4 (rd_int (FU LE 4));
  rd c <- rd_times 6 (rd_int (FU LE 2));
  rd_ret (mkjobt a b c).

Definition rd_job_triggers : reader (list job_trigger) :=
  rd n <- rd_int (FU LE 2);
  rd_times (Z.to_nat n) rd_job_trigger.

(** job.yaml job_variable_length_data_section. *)
Record job_variable := mkjobv {
  jv_running : Z; jv_application : str; jv_parameters : str; jv_directory : str; jv_author : str; jv_comment : str;
  jv_user_data : bytes; jv_reserved : bytes; jv_triggers : list job_trigger }.

Definition rd_job_variable : reader job_variable :=
  rd running <- rd_int (FU LE 2);
  rd application <- rd_job_string;
  rd parameters <- rd_job_string;
  rd directory <- rd_job_string;
  rd author <- rd_job_string;
  rd comment <- rd_job_string;
  rd user <- rd_job_stream;
  rd reserved <- rd_job_stream;
  rd triggers <- rd_job_triggers;
  rd_ret (mkjobv running application parameters directory author comment user reserved triggers).

(** job.py:6-32 [WindowsTaskConfiguration]; [None] is the Python value None. *)
Record task := mktask {
  t_application : option str; t_author : option str; t_comment : option str; t_retry_count : option Z; t_retry_interval : option Z;
  t_id : option str; t_parameters : option str; t_priority : option Z; t_directory : option str }.

Definition task_new : task := mktask None None None None None None None None None.

(** job.py:191-236 [ReadFileObject]: the configuration of the reader afterwards, and the exception if
    one is raised. Debug output is not modelled. *)
Definition read_job (t : task) (content : bytes) : task * option exn :=
  match rd_job_fixed content 0 with
  | Err e => (t, Some e)
  | Ok (f, pos) =>
      let t := mktask (t_application t) (t_author t) (t_comment t) (Some (jf_retry_count f)) (Some (jf_retry_interval f))
                 (Some (uuid_le_str (jf_id f))) (t_parameters t) (Some (jf_priority f)) (t_directory t) in
      match rd_job_variable content pos with
      | Err e => (t, Some e)
      | Ok (v, _) =>
          (mktask (Some (jv_application v)) (Some (jv_author v)) (Some (jv_comment v)) (t_retry_count t) (t_retry_interval t)
             (t_id t) (Some (jv_parameters v)) (t_priority t) (Some (jv_directory v)), None)
      end
  end.

(** job.py:114-125 [_FormatIntegerAsProductVersion]. *)
Definition job_version_text (v : Z) : str :=
  let major := Z.land (Z.shiftr v 8) 255 in
  let minor := Z.land (Z.shiftr v 8) 255 in
  s2z "0x"%string ++ fmt_x 4 v ++ s2z " ("%string ++ fmt_d major ++ s2z "."%string ++ fmt_d minor ++ s2z ")"%string.

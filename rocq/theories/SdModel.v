(** Model of how the SimpleDump and StateDump chunks of a tracev3 file are read.

    The environment is that of [LeModel]. Debug output and the printing of warnings are not modelled. *)

From Verif Require Import Base CoreModel StrModel FmtModel DictModel RdModel TvModel AulModel CatModel FhModel ImModel LeModel.
From Coq Require String.
Import String.StringSyntax.

(** The data before the first end-of-string character, all data without one. *)
Fixpoint before0 (d : bytes) : bytes := match d with [] => [] | b :: d => if b =? 0 then [] else b :: before0 d end.

(** dtFabric: a UTF-8 string with elements_data_size and elements_terminator. *)
Definition rd_text (utf8 : bytes -> option str) (n : Z) : reader str :=
  rd d <- rd_bytes n;
  rd_some (utf8 (before0 d)).

(** aul_tracev3.yaml tracev3_simpledump_chunk, without the members that are not used. *)
Record simpledump := mksd {
  sd_upper : Z; sd_lower : Z; sd_log : Z; sd_time : Z; sd_thread : Z; sd_address : Z; sd_sender : bytes; sd_sub : str; sd_message : str }.

Definition rd_simpledump (utf8 : bytes -> option str) : reader simpledump :=
  rd upper <- rd_int (FU LE 8);
  rd lower <- rd_int (FU LE 4);
  rd ttl <- rd_int (FU LE 1);
  rd log <- rd_int (FU LE 1);
  rd u1 <- rd_int (FU LE 2);
  rd time <- rd_int (FU LE 8);
  rd thread <- rd_int (FU LE 8);
  rd address <- rd_int (FU LE 8);
  rd sender <- rd_bytes 16;
  rd dsc <- rd_bytes 16;
  rd u2 <- rd_int (FU LE 4);
  rd n <- rd_int (FU LE 4);
  rd m <- rd_int (FU LE 4);
  rd sub <- rd_text utf8 n;
  rd message <- rd_text utf8 m;
  rd_ret (mksd upper lower log time thread address sender sub message).

(** aul_tracev3.yaml tracev3_statedump_chunk, without the members that are not used. *)
Record statedump := mkst {
  st_upper : Z; st_lower : Z; st_time : Z; st_activity : Z; st_sender : bytes; st_type : Z; st_library : bytes; st_decoder : bytes; st_title : str; st_data : bytes }.

Definition rd_statedump (utf8 : bytes -> option str) : reader statedump :=
  rd upper <- rd_int (FU LE 8);
  rd lower <- rd_int (FU LE 4);
  rd ttl <- rd_int (FU LE 1);
  rd u1 <- rd_int (FU LE 1);
  rd u2 <- rd_int (FU LE 2);
  rd time <- rd_int (FU LE 8);
  rd activity <- rd_int (FU LE 8);
  rd sender <- rd_bytes 16;
  rd type <- rd_int (FU LE 4);
  rd n <- rd_int (FU LE 4);
  rd library <- rd_bytes 64;
  rd decoder <- rd_bytes 64;
  rd title <- rd_text utf8 64;
  rd data <- rd_bytes n;
  rd_ret (mkst upper lower time activity sender type library decoder title data).

(** The attributes of the log entry of a dump, see unified_logging.py:121-197 [LogEntry]; those that are
    not set are None. *)
Record dump := mkdu {
  du_activity : option Z; du_frame : bytes * Z; du_boot : bytes; du_message : str; du_event : str; du_mach : Z; du_type : option str; du_pid : Z;
  du_image : option bytes; du_path : option str; du_sub : option str; du_sender : bytes; du_pc : option Z; du_thread : option Z; du_time : Z; du_trace : Z }.

(** unified_logging.py:4716-4730, 4793-4806, 3504-3517 [_RaiseParserWarning]: the process information,
    None with a warning if there is none; [strict] is error_on_warning. *)
Definition dump_process (strict : bool) (cat : option cat_state) (upper lower : Z) : result (option known) :=
  match (match cat with Some cs => find_process cs upper lower | None => None end) with
  | Some k => Ok (Some k)
  | None => if strict then Err ParseError else Ok None
  end.

Definition pid_of (k : option known) : Z := match k with Some k => pr_pid (kn_process k) | None => 0 end.

(** unified_logging.py:4687-4762 [_ReadSimpleDumpChunkData]. *)
Definition simple_entry (v : environment) (strict : bool) (cat : option cat_state) (data : bytes) (st : caches) : result (dump * caches) :=
  do _ <- guard (0 <? len data) ValueError;
  do s <- rd_data (rd_simpledump (ev_utf8 v)) data;
  do k <- dump_process strict cat (sd_upper s) (sd_lower s);
  do (image, path, st) <- process_values v k st;
  Ok (mkdu None (sd_sender s, sd_address s) (ev_boot v) (sd_message s) (s2z "logEvent"%string) (sd_time s) (table log_types (sd_log s)) (pid_of k)
        image path (Some (sd_sub s)) (sd_sender s) (Some (sd_address s)) (Some (sd_thread s)) (ev_time v (sd_time s)) 0, st).

(** unified_logging.py:4808-4827: the message of a StateDump. *)
Definition state_message (v : environment) (s : statedump) : result str :=
  if st_type s =? 0x03 then
    do library <- match ev_utf8 v (before0 (st_library s)) with Some t => Ok t | None => Err UnicodeDecodeError end;
    do decoder <- match ev_utf8 v (before0 (st_decoder s)) with Some t => Ok t | None => Err UnicodeDecodeError end;
    let name := library ++ [58] ++ decoder in
    do value <- match ev_decoders v name with
                | None => Ok (s2z "<decode: unsupported decoder: "%string ++ name ++ s2z ">"%string)
                | Some d => d (Some (st_data s)) None
                end;
    Ok (st_title s ++ [10] ++ value)
  else Ok [].

(** unified_logging.py:4764-4853 [_ReadStateDumpChunkData]. *)
Definition state_entry (v : environment) (strict : bool) (cat : option cat_state) (data : bytes) (st : caches) : result (dump * caches) :=
  do _ <- guard (0 <? len data) ValueError;
  do s <- rd_data (rd_statedump (ev_utf8 v)) data;
  do k <- dump_process strict cat (st_upper s) (st_lower s);
  do message <- state_message v s;
  do (image, path, st) <- process_values v k st;
  Ok (mkdu (Some (Z.land (st_activity s) activity_mask)) (st_sender s, 0) (ev_boot v) message (s2z "stateEvent"%string) (st_time s) None (pid_of k)
        image path None (st_sender s) None None (ev_time v (st_time s)) 0, st).

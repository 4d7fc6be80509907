(** The log entries of SimpleDump and StateDump chunks.

    Source: /repo/documentation/Apple Unified Logging and Activity Tracing formats.asciidoc, sections
    "SimpleDump chunk", "StateDump chunk" and "Log type". *)

From Verif Require Import Base BaseFacts SeqSpec CoreModel StrModel FmtModel FmtSpec TvModel TvSpec AulModel CatModel CatSpec FhModel FhSpec ImModel ImSpec LeModel LeSpec SdModel.
From Coq Require String.
Import String.StringSyntax.

(** Data with a string up to an end-of-string character, or to the end. *)
Definition holds_text (d t : bytes) : Prop := ~ In 0 t /\ (d = t \/ exists rest, d = t ++ 0 :: rest).

Definition text_bytes (utf8 : bytes -> option str) (size : Z) (s : str) (d : bytes) : Prop := len d = size /\ exists t, holds_text d t /\ utf8 t = Some s.

Definition uuid_bytes (u d : bytes) : Prop := len u = 16 /\ d = u.

Definition simple_bytes (utf8 : bytes -> option str) (s : simpledump) (d : bytes) : Prop :=
  exists n m, fields [i64 (sd_upper s); i32 (sd_lower s); any i8; i8 (sd_log s); any i16; i64 (sd_time s); i64 (sd_thread s); i64 (sd_address s);
    uuid_bytes (sd_sender s); (fun d => len d = 16); any i32; i32 n; i32 m; text_bytes utf8 n (sd_sub s); text_bytes utf8 m (sd_message s)] d.

Definition state_bytes (utf8 : bytes -> option str) (s : statedump) (d : bytes) : Prop :=
  fields [i64 (st_upper s); i32 (st_lower s); any i8; any i8; any i16; i64 (st_time s); i64 (st_activity s); uuid_bytes (st_sender s); i32 (st_type s);
    i32 (len (st_data s)); (fun d => len d = 64 /\ d = st_library s); (fun d => len d = 64 /\ d = st_decoder s); text_bytes utf8 64 (st_title s); eq (st_data s)] d.

(** The process of a dump, [None] if the catalog has none and this is not taken as an error. *)
Definition in_catalog (cat : option cat_state) (upper lower : Z) (k : known) : Prop :=
  exists cs, cat = Some cs /\ In (kn_process k) (ca_processes (cs_catalog cs)) /\ pr_upper (kn_process k) = upper /\ pr_lower (kn_process k) = lower /\
    uuid_of (ca_uuids (cs_catalog cs)) (pr_main (kn_process k)) (kn_main k) /\ uuid_of (ca_uuids (cs_catalog cs)) (pr_dsc (kn_process k)) (kn_dsc k).

Definition process_of_dump (strict : bool) (cat : option cat_state) (upper lower : Z) (o : option known) : Prop :=
  match o with Some k => in_catalog cat upper lower k | None => strict = false /\ forall k, ~ in_catalog cat upper lower k end.

(** What all dumps have. *)
Record common (v : environment) (k : option known) (sender : bytes) (offset time : Z) (e : dump) : Prop := {
  cm_process : process_known v k (du_image e) (du_path e);
  cm_pid : du_pid e = match k with Some k => pr_pid (kn_process k) | None => 0 end;
  cm_sender : du_sender e = sender;
  cm_frame : du_frame e = (sender, offset);
  cm_boot : du_boot e = ev_boot v;
  cm_mach : du_mach e = time;
  cm_time : du_time e = ev_time v time;
  cm_trace : du_trace e = 0 }.

Definition simple_made (v : environment) (strict : bool) (cat : option cat_state) (data : bytes) (e : dump) : Prop :=
  exists s d rest k, simple_bytes (ev_utf8 v) s d /\ data = d ++ rest /\ process_of_dump strict cat (sd_upper s) (sd_lower s) k /\
    common v k (sd_sender s) (sd_address s) (sd_time s) e /\ log_name (sd_log s) (du_type e) /\ du_message e = sd_message s /\ du_sub e = Some (sd_sub s) /\
    du_thread e = Some (sd_thread s) /\ du_pc e = Some (sd_address s) /\ du_event e = s2z "logEvent"%string /\ du_activity e = None.

(** The message of a state dump: for data with a custom decoder the title and what the decoder shows. *)
Inductive message_of (v : environment) (s : statedump) : result str -> Prop :=
| mo_other : st_type s <> 3 -> message_of v s (Ok [])
| mo_decoder a b library decoder d : st_type s = 3 -> holds_text (st_library s) a -> holds_text (st_decoder s) b ->
    ev_utf8 v a = Some library -> ev_utf8 v b = Some decoder -> ev_decoders v (library ++ s2z ":"%string ++ decoder) = Some d ->
    message_of v s (do x <- d (Some (st_data s)) None; Ok (st_title s ++ [10] ++ x))
| mo_unsupported a b library decoder : st_type s = 3 -> holds_text (st_library s) a -> holds_text (st_decoder s) b ->
    ev_utf8 v a = Some library -> ev_utf8 v b = Some decoder -> ev_decoders v (library ++ s2z ":"%string ++ decoder) = None ->
    message_of v s (Ok (st_title s ++ [10] ++ s2z "<decode: unsupported decoder: "%string ++ library ++ s2z ":"%string ++ decoder ++ s2z ">"%string))
| mo_text a b : st_type s = 3 -> holds_text (st_library s) a -> holds_text (st_decoder s) b -> ev_utf8 v a = None \/ ev_utf8 v b = None ->
    message_of v s (Err UnicodeDecodeError).

Definition state_made (v : environment) (strict : bool) (cat : option cat_state) (data : bytes) (e : dump) : Prop :=
  exists s d rest k, state_bytes (ev_utf8 v) s d /\ data = d ++ rest /\ process_of_dump strict cat (st_upper s) (st_lower s) k /\
    common v k (st_sender s) 0 (st_time s) e /\ message_of v s (Ok (du_message e)) /\ du_activity e = Some (st_activity s mod 2 ^ 63) /\
    du_event e = s2z "stateEvent"%string /\ du_type e = None /\ du_sub e = None /\ du_thread e = None /\ du_pc e = None.

(** Why there is no log entry. *)
Inductive process_fails (v : environment) (strict : bool) (cat : option cat_state) (upper lower : Z) : exn -> Prop :=
| pf_missing : strict = true -> (forall k, ~ in_catalog cat upper lower k) -> process_fails v strict cat upper lower ParseError.

Inductive image_fails (v : environment) (k : option known) : exn -> Prop :=
| xf_main k' : k = Some k' -> kn_main k' = None -> image_fails v k AttributeError
| xf_file k' u c d s content x : k = Some k' -> kn_main k' = Some u -> hex_of u (c :: d :: s) -> ev_fs v [[c; d]; s] = Some content -> read_uuidtext (ev_utf8 v) content = Err x -> image_fails v k x.

Inductive simple_fails (v : environment) (strict : bool) (cat : option cat_state) (data : bytes) : exn -> Prop :=
| xs_empty : data = [] -> simple_fails v strict cat data ValueError
| xs_data : data <> [] -> (forall s d rest, simple_bytes (ev_utf8 v) s d -> data <> d ++ rest) -> simple_fails v strict cat data ParseError
| xs_process s d rest x : simple_bytes (ev_utf8 v) s d -> data = d ++ rest -> process_fails v strict cat (sd_upper s) (sd_lower s) x -> simple_fails v strict cat data x
| xs_image s d rest k x : simple_bytes (ev_utf8 v) s d -> data = d ++ rest -> process_of_dump strict cat (sd_upper s) (sd_lower s) k -> image_fails v k x -> simple_fails v strict cat data x.

Inductive state_fails (v : environment) (strict : bool) (cat : option cat_state) (data : bytes) : exn -> Prop :=
| xt_empty : data = [] -> state_fails v strict cat data ValueError
| xt_data : data <> [] -> (forall s d rest, state_bytes (ev_utf8 v) s d -> data <> d ++ rest) -> state_fails v strict cat data ParseError
| xt_process s d rest x : state_bytes (ev_utf8 v) s d -> data = d ++ rest -> process_fails v strict cat (st_upper s) (st_lower s) x -> state_fails v strict cat data x
| xt_message s d rest k x : state_bytes (ev_utf8 v) s d -> data = d ++ rest -> process_of_dump strict cat (st_upper s) (st_lower s) k -> message_of v s (Err x) -> state_fails v strict cat data x
| xt_image s d rest k m x : state_bytes (ev_utf8 v) s d -> data = d ++ rest -> process_of_dump strict cat (st_upper s) (st_lower s) k -> message_of v s (Ok m) -> image_fails v k x -> state_fails v strict cat data x.

(** ** Histories *)

(** Tracepoints and dumps, and their log entries. *)
Inductive source := Point (j : job) | Simple (cat : option cat_state) (data : bytes) | State (cat : option cat_state) (data : bytes).
Inductive log := LPoint (e : entry) | LDump (e : dump).

Definition log_one (v : environment) (strict : bool) (x : source) (st : caches) : result (log * caches) :=
  match x with
  | Point j => do (e, st) <- log_entry v (jb_catalog j) (jb_oversize j) (jb_chunk j) st (jb_header j) (jb_known j) (jb_tp j) (jb_body j) (jb_values j); Ok (LPoint e, st)
  | Simple cat data => do (e, st) <- simple_entry v strict cat data st; Ok (LDump e, st)
  | State cat data => do (e, st) <- state_entry v strict cat data st; Ok (LDump e, st)
  end.

Fixpoint log_each (v : environment) (strict : bool) (l : list source) (st : caches) : result (list log * caches) :=
  match l with
  | [] => Ok ([], st)
  | x :: l => do (e, st) <- log_one v strict x st; do (es, st) <- log_each v strict l st; Ok (e :: es, st)
  end.

Definition stored_source (x : source) : Prop :=
  match x with Point j => stored_job j | Simple cat data | State cat data => loaded cat /\ is_bytes data end.

Definition asked_by (x : source) (q : request) : Prop := match x with Point j => asks j q | _ => False end.

Definition made_of (v : environment) (strict : bool) (earlier : request -> Prop) (x : source) (e : log) : Prop :=
  match x, e with
  | Point j, LPoint e => made v earlier j e
  | Simple cat data, LDump e => simple_made v strict cat data e
  | State cat data, LDump e => state_made v strict cat data e
  | _, _ => False
  end.

(** The log entries of firehose tracepoints.

    Source: /repo/documentation/Apple Unified Logging and Activity Tracing formats.asciidoc, sections
    "Firehose tracepoint", "Log type" and "Firehose tracepoint format string", and the attributes of
    LogEntry. Images and format strings: C93, C38. Values and backtraces: C92. Sub systems: C90. *)

From Verif Require Import Base BaseFacts CoreModel StrModel FmtModel FmtSpec TvModel TvSpec CatModel CatSpec FhModel FhSpec FvModel ImModel ImSpec LeModel.
From Coq Require String.
Import String.StringSyntax.

(** A tracepoint, its body and the values behind it, in a chunk that is read with a catalog and oversize
    chunks. *)
Record job := mkjob {
  jb_catalog : option cat_state; jb_oversize : Z -> Z -> Z -> option oversize; jb_chunk : bytes; jb_header : fh_header; jb_known : option known;
  jb_tp : tracepoint; jb_body : body; jb_values : bytes }.

(** Tracepoints one after the other. *)
Fixpoint log_all (v : environment) (l : list job) (st : caches) : result (list entry * caches) :=
  match l with
  | [] => Ok ([], st)
  | j :: l =>
      do (e, st) <- log_entry v (jb_catalog j) (jb_oversize j) (jb_chunk j) st (jb_header j) (jb_known j) (jb_tp j) (jb_body j) (jb_values j);
      do (es, st) <- log_all v l st;
      Ok (e :: es, st)
  end.

Definition is_loss (b : body) : Prop := match b with Loss _ _ _ => True | _ => False end.

Definition location_of (b : body) (l : location) : Prop :=
  match b with
  | Activity _ _ _ _ l' => l = l' | Trace l' _ => l = l' | Log _ _ l' _ _ _ _ => l = l' | Signpost _ _ l' _ _ _ _ _ _ _ => l = l'
  | Loss _ _ _ => False
  end.

(** The lookups of a tracepoint: its format string and, for a signpost with one, its name. *)
Definition request_of (j : job) (q : request) : Prop :=
  rq_uuids q = match jb_catalog j with Some cs => ca_uuids (cs_catalog cs) | None => [] end /\
  rq_flags q = tp_flags (jb_tp j) /\ rq_process q = jb_known j /\ location_of (jb_body j) (rq_loc q).

Definition format_request (j : job) (q : request) : Prop :=
  request_of j q /\ exists upper, first_set [lo_shared (rq_loc q); lo_large (rq_loc q)] upper /\ reference (tp_format (jb_tp j)) upper (rq_ref q) (rq_dynamic q).

Definition name_request (j : job) (q : request) : Prop :=
  request_of j q /\ match jb_body j with
  | Signpost _ _ _ _ _ _ _ lower upper _ => exists l u, first_set [lower] l /\ first_set [upper] u /\ reference l u (rq_ref q) (rq_dynamic q)
  | _ => False
  end.

Definition asks (j : job) (q : request) : Prop := format_request j q \/ name_request j q.

(** ** Decoding *)

(** What a value is shown as: by the decoder that the conversion of the format string names first. *)
Inductive decoded (v : environment) (image : option image) (k : nat) (data : option bytes) : result str -> Prop :=
| de_no_image : image = None -> decoded v image k data (Ok (s2z "<decode: missing string formatter>"%string))
| de_no_conversion i l : image = Some i -> toks_ok l -> toks_text l = opt_text (im_string i) -> nth_error (convs l) k = None ->
    decoded v image k data (Ok (s2z "<decode: missing decoder>"%string))
| de_no_decoder i l c : image = Some i -> toks_ok l -> toks_text l = opt_text (im_string i) -> nth_error (convs l) k = Some c ->
    decoders_of (cv_annotation c) (cv_specifier c) [] -> decoded v image k data (Ok (s2z "<decode: missing decoder>"%string))
| de_unsupported i l c n ns : image = Some i -> toks_ok l -> toks_text l = opt_text (im_string i) -> nth_error (convs l) k = Some c ->
    decoders_of (cv_annotation c) (cv_specifier c) (n :: ns) -> ev_decoders v n = None ->
    decoded v image k data (Ok (s2z "<decode: unsupported decoder: "%string ++ n ++ s2z ">"%string))
| de_decoder i l c n ns d : image = Some i -> toks_ok l -> toks_text l = opt_text (im_string i) -> nth_error (convs l) k = Some c ->
    decoders_of (cv_annotation c) (cv_specifier c) (n :: ns) -> ev_decoders v n = Some d ->
    decoded v image k data (d data (Some {| op_flags := cv_flags c; op_precision := opt_text (cv_precision c); op_specifier := cv_specifier c; op_width := opt_text (cv_width c) |})).

(** ** Entries *)

Inductive process_known (v : environment) : option known -> option bytes -> option str -> Prop :=
| pk_none : process_known v None None None
| pk_file k u f : kn_main k = Some u -> text_file (ev_utf8 v) (ev_fs v) u (Some f) -> process_known v (Some k) (Some u) (Some (uf_path f))
| pk_missing k u : kn_main k = Some u -> text_file (ev_utf8 v) (ev_fs v) u None -> process_known v (Some k) None None.

Definition named (l : list (Z * Z * String.string)) (a b : Z) (o : option str) : Prop :=
  match o with Some s => exists t, In (a, b, t) l /\ s = s2z t | None => forall t, ~ In (a, b, t) l end.

Definition event_name (record log : Z) (o : option str) : Prop :=
  (record = 2 -> named [(2, 1, "activityCreateEvent"%string); (2, 3, "userActionEvent"%string)] record log o) /\
  (record <> 2 -> named [(3, 0, "traceEvent"%string); (4, 0, "logEvent"%string); (6, 0, "signpostEvent"%string); (7, 0, "lossEvent"%string)] record 0 o).

Definition log_name (log : Z) (o : option str) : Prop :=
  named [(0, 0, "Default"%string); (0, 1, "Info"%string); (0, 2, "Debug"%string); (0, 3, "Useraction"%string); (1, 0, "Error"%string); (1, 1, "Fault"%string);
    (4, 0, "Thread Signpost Event"%string); (4, 1, "Thread Signpost Start"%string); (4, 2, "Thread Signpost End"%string);
    (8, 0, "Process Signpost Event"%string); (8, 1, "Process Signpost Start"%string); (8, 2, "Process Signpost End"%string);
    (12, 0, "System Signpost Event"%string); (12, 1, "System Signpost Start"%string); (12, 2, "System Signpost End"%string)] (log / 16) (log mod 16) o.

Definition scope_name (log : Z) (o : option str) : Prop := named [(4, 0, "thread"%string); (8, 0, "process"%string); (12, 0, "system"%string)] (log / 16) 0 o.
Definition signpost_kind (log : Z) (o : option str) : Prop := named [(0, 0, "event"%string); (1, 0, "begin"%string); (2, 0, "end"%string)] (log mod 16) 0 o.

(** What does not depend on the kind of tracepoint. *)
Record general (v : environment) (j : job) (e : entry) : Prop := {
  ge_boot : le_boot e = ev_boot v;
  ge_mach : le_mach e = fh_time (jb_header j) + tp_lower (jb_tp j) + 2 ^ 32 * tp_upper (jb_tp j);
  ge_time : le_time e = ev_time v (le_mach e);
  ge_thread : le_thread e = tp_thread (jb_tp j);
  ge_trace : le_trace e = tp_record (jb_tp j) + 2 ^ 8 * tp_log (jb_tp j) + 2 ^ 16 * tp_flags (jb_tp j) + 2 ^ 32 * tp_format (jb_tp j);
  ge_event : event_name (tp_record (jb_tp j)) (tp_log (jb_tp j)) (le_event e) }.

Definition loss_entry (v : environment) (start stop count : Z) (e : entry) : Prop :=
  le_message e = s2z "lost >="%string ++ fmt_d count ++ s2z " unreliable messages from "%string ++ fmt_d start ++ s2z "-"%string ++ fmt_d stop ++
    s2z " (Mach continuous exact start-approx. end)"%string /\
  le_loss e = Some (count, (start, ev_time v start), (stop, ev_time v stop)) /\ le_rest e = None.

(** The members of the kinds of tracepoints: sub system, time to live, activity, creator and parent. *)
Inductive members (log : Z) : body -> option Z -> option Z -> option Z -> option (option Z) -> option (option Z) -> Prop :=
| mb_create current pid other new l : log = 1 -> members log (Activity current pid other new l) None None new (Some current) (Some other)
| mb_activity current pid other new l : log <> 1 -> members log (Activity current pid other new l) None None new None (Some other)
| mb_trace l n : members log (Trace l n) None None None None None
| mb_log current private l sub ttl ref items : members log (Log current private l sub ttl ref items) sub ttl current None None
| mb_signpost current private l sub id ttl ref lower upper items : members log (Signpost current private l sub id ttl ref lower upper items) sub ttl current None None.

(** The name of a signpost. *)
Inductive name_of (v : environment) (earlier : request -> Prop) (j : job) : option str -> Prop :=
| no_name q : name_request j q -> rq_ref q = 0 -> name_of v earlier j None
| no_image q i : name_request j q -> rq_ref q <> 0 -> gives (ev_utf8 v) (ev_fs v) earlier q (Some i) -> name_of v earlier j (im_string i).

Definition the_signpost (v : environment) (earlier : request -> Prop) (j : job) (o : option (Z * option str * option str * option str)) (type : option str) : Prop :=
  match jb_body j with
  | Signpost _ _ _ _ id _ _ _ _ _ => exists name scope kind, o = Some (id, name, scope, kind) /\ name_of v earlier j name /\
      scope_name (tp_log (jb_tp j)) scope /\ signpost_kind (tp_log (jb_tp j)) kind /\ type = None
  | _ => o = None /\ log_name (tp_log (jb_tp j)) type
  end.

Definition image_string (o : option image) : option str := match o with Some i => im_string i | None => None end.

(** All other tracepoints. *)
Record content (v : environment) (earlier : request -> Prop) (j : job) (e : entry) (o : option image) (r : rest) : Prop := {
  co_image : exists q, format_request j q /\ gives (ev_utf8 v) (ev_fs v) earlier q o;
  co_values : exists decode fs vs, (forall k data, decoded v o k data (decode (Z.of_nat k) data)) /\
    fh_values decode (jb_oversize j (fh_upper (jb_header j)) (fh_lower (jb_header j))) (jb_header j) (jb_chunk j) (tp_flags (jb_tp j)) (jb_body j) (jb_values j) = Ok (fs, vs) /\
    (fs <> [] -> re_frames r = fs) /\ (fs = [] -> re_frames r = match o with Some i => [(im_id i, re_pc r)] | None => [] end) /\
    match o with
    | None => le_message e = s2z "<compose failure [missing precomposed log]>"%string
    | Some i => exists l, toks_ok l /\ toks_text l = opt_text (im_string i) /\ le_message e = fill l vs
    end;
  co_pc : exists loc a, location_of (jb_body j) loc /\ load_address loc a /\ re_pc r = a - match o with Some i => im_text i | None => 0 end;
  co_format : re_format r = image_string o;
  co_sender : re_sender r = match o with Some i => Some (im_id i) | None => None end;
  co_sender_path : re_sender_path r = match o with Some i => im_path i | None => None end;
  co_process : process_known v (jb_known j) (le_image e) (re_path r);
  co_pid : re_pid r = match jb_known j with Some k => pr_pid (kn_process k) | None => 0 end;
  co_members : exists sub ttl activity creator parent a t, members (tp_log (jb_tp j)) (jb_body j) sub ttl activity creator parent /\
    (re_category r, re_sub r) = match jb_catalog j with Some cs => sub_system cs (jb_known j) sub | None => (None, None) end /\
    first_set [ttl] t /\ re_ttl r = t /\ first_set [activity] a /\ re_activity r = a mod 2 ^ 63 /\
    match creator with None => re_creator r = None | Some c => exists x, first_set [c] x /\ re_creator r = Some x end /\
    match parent with None => re_parent r = None | Some p => exists x, first_set [p] x /\ re_parent r = Some (x mod 2 ^ 63) end;
  co_signpost : the_signpost v earlier j (re_signpost r) (re_type r) }.

Definition made (v : environment) (earlier : request -> Prop) (j : job) (e : entry) : Prop :=
  general v j e /\
  match jb_body j with
  | Loss start stop count => loss_entry v start stop count e /\ exists path, process_known v (jb_known j) (le_image e) path
  | _ => exists o r, le_loss e = None /\ le_rest e = Some r /\ content v earlier j e o r
  end.

(** Tracepoints as they are stored. *)
Definition nonnegative (o : option Z) : Prop := match o with Some v => 0 <= v | None => True end.

Definition stored_known (k : option known) : Prop :=
  match k with
  | Some k => opt_uuid (kn_main k) /\ opt_uuid (kn_dsc k) /\ Forall stored_entry (pr_uuids (kn_process k))
  | None => True
  end.

Definition stored_body (b : body) : Prop :=
  (forall l, location_of b l -> stored_location l /\ opt_uuid (lo_uuid l)) /\
  match b with
  | Activity current _ other new _ => nonnegative current /\ nonnegative other /\ nonnegative new
  | Log current _ _ _ _ _ _ => nonnegative current
  | Signpost current _ _ _ _ _ _ lower upper _ => nonnegative current /\ opt_in 32 lower /\ opt_in 16 upper
  | _ => True
  end.

Definition stored_job (j : job) : Prop :=
  match jb_catalog j with Some cs => Forall is_uuid (ca_uuids (cs_catalog cs)) | None => True end /\ stored_known (jb_known j) /\ stored_body (jb_body j) /\
  n8 (tp_record (jb_tp j)) /\ n8 (tp_log (jb_tp j)) /\ n16 (tp_flags (jb_tp j)) /\ n32 (tp_format (jb_tp j)) /\ n32 (tp_lower (jb_tp j)) /\ n16 (tp_upper (jb_tp j)).

(** The catalog that the file object has: none, or one that was loaded. *)
Definition loaded (cat : option cat_state) : Prop :=
  match cat with None => True | Some cs => exists utf8 content off, is_bytes content /\ 0 <= off /\ load_catalog utf8 content off = Ok cs end.

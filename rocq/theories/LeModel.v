(** Model of how the log entry of a firehose tracepoint is made.

    The environment gives what the file object has: the decoder of UTF-8, the directory of uuidtext and DSC
    files, the boot identifier, the conversion of Mach timestamps and the value decoders. The catalog, the
    oversize chunks and the data of the chunk are those at the time the chunk is read. Debug output is not
    modelled. *)

From Verif Require Import Base CoreModel StrModel FmtModel DictModel RdModel TvModel AulModel CatModel FhModel FvModel ImModel.
From Coq Require String.
Import String.StringSyntax.

(** The attributes of a log entry that are set if the tracepoint is no loss. *)
Record rest := mkre {
  re_frames : list (bytes * Z); re_category : option str; re_format : option str; re_pid : Z; re_path : option str; re_sender : option bytes;
  re_sender_path : option str; re_pc : Z; re_sub : option str; re_ttl : Z; re_type : option str; re_activity : Z;
  re_creator : option Z; re_parent : option Z; re_signpost : option (Z * option str * option str * option str) }.

(** unified_logging.py:121-197 [LogEntry]; [le_loss] has loss_count and the Mach timestamps and
    timestamps of start and end. time_zone_name is always None. *)
Record entry := mkle {
  le_boot : bytes; le_mach : Z; le_image : option bytes; le_thread : Z; le_time : Z; le_trace : Z; le_event : option str; le_message : str;
  le_loss : option (Z * (Z * Z) * (Z * Z)); le_rest : option rest }.

Record environment := mkev {
  ev_utf8 : bytes -> option str; ev_fs : list str -> option bytes; ev_boot : bytes; ev_time : Z -> Z;
  ev_decoders : str -> option (option bytes -> option operator -> result str) }.

(** unified_logging.py:2794-2823 [_DecodeValue], 397-423. *)
Definition decode_value (decoders : str -> option (option bytes -> option operator -> result str)) (f : option formatter) (index : Z) (data : option bytes) : result str :=
  match f with
  | None => Ok (s2z "<decode: missing string formatter>"%string)
  | Some f =>
      match nth_error (fm_decoders f) (Z.to_nat index) with
      | None | Some [] => Ok (s2z "<decode: missing decoder>"%string)
      | Some (name :: _) =>
          match decoders name with
          | None => Ok (s2z "<decode: unsupported decoder: "%string ++ name ++ s2z ">"%string)
          | Some d => d data (nth_error (fm_operators f) (Z.to_nat index))
          end
      end
  end.

Fixpoint table (l : list (Z * str)) (v : Z) : option str :=
  match l with [] => None | (k, s) :: l => if k =? v then Some s else table l v end.

(** unified_logging.py:2437-2440, 2442-2447, 4071-4078. *)
Definition event_type (tp : tracepoint) : option str :=
  if tp_record tp =? 0x02 then table [(0x01, s2z "activityCreateEvent"%string); (0x03, s2z "userActionEvent"%string)] (tp_log tp)
  else table [(0x04, s2z "logEvent"%string); (0x07, s2z "lossEvent"%string); (0x06, s2z "signpostEvent"%string); (0x03, s2z "traceEvent"%string)] (tp_record tp).

(** unified_logging.py:2497-2513. *)
Definition log_types : list (Z * str) :=
  [(0x00, s2z "Default"%string); (0x01, s2z "Info"%string); (0x02, s2z "Debug"%string); (0x03, s2z "Useraction"%string); (0x10, s2z "Error"%string); (0x11, s2z "Fault"%string);
   (0x40, s2z "Thread Signpost Event"%string); (0x41, s2z "Thread Signpost Start"%string); (0x42, s2z "Thread Signpost End"%string);
   (0x80, s2z "Process Signpost Event"%string); (0x81, s2z "Process Signpost Start"%string); (0x82, s2z "Process Signpost End"%string);
   (0xc0, s2z "System Signpost Event"%string); (0xc1, s2z "System Signpost Start"%string); (0xc2, s2z "System Signpost End"%string)].

(** unified_logging.py:2515-2517. *)
Definition scopes : list (Z * str) := [(0x04, s2z "thread"%string); (0x08, s2z "process"%string); (0x0c, s2z "system"%string)].
Definition signpost_types : list (Z * str) := [(0x00, s2z "event"%string); (0x01, s2z "begin"%string); (0x02, s2z "end"%string)].

(** unified_logging.py:2598 [ACTIVITY_IDENTIFIER_BITMASK]. *)
Definition activity_mask : Z := 0x7fffffffffffffff.

(** unified_logging.py:3274-3300 [_GetProcessImageValues]; without main UUID the attribute is missing. *)
Definition process_values (v : environment) (k : option known) (st : caches) : result (option bytes * option str * caches) :=
  match k with
  | None => Ok (None, None, st)
  | Some k =>
      match kn_main k with
      | None => Err AttributeError
      | Some u =>
          do (f, st) <- get_text (ev_utf8 v) (ev_fs v) u st;
          Ok (match f with Some f => (Some u, Some (uf_path f), st) | None => (None, None, st) end)
      end
  end.

Definition no_location : location := mkloc 0 None None None None.

Definition body_location (b : body) : location :=
  match b with
  | Activity _ _ _ _ l => l | Trace l _ => l | Log _ _ l _ _ _ _ => l | Signpost _ _ l _ _ _ _ _ _ _ => l | Loss _ _ _ => no_location
  end.
Definition body_sub (b : body) : option Z :=
  match b with Log _ _ _ s _ _ _ => s | Signpost _ _ _ s _ _ _ _ _ _ => s | _ => None end.
Definition body_ttl (b : body) : option Z :=
  match b with Log _ _ _ _ t _ _ => t | Signpost _ _ _ _ _ t _ _ _ _ => t | _ => None end.
Definition body_current (b : body) : option Z :=
  match b with Activity c _ _ _ _ => c | Log c _ _ _ _ _ _ => c | Signpost c _ _ _ _ _ _ _ _ _ => c | _ => None end.

(** unified_logging.py:4085-4095. *)
Definition loss_message (count start stop : Z) : str :=
  s2z "lost >="%string ++ fmt_d count ++ s2z " unreliable messages from "%string ++ fmt_d start ++ s2z "-"%string ++ fmt_d stop ++
  s2z " (Mach continuous exact start-approx. end)"%string.

Definition catalog_uuids (cat : option cat_state) : list bytes := match cat with Some cs => ca_uuids (cs_catalog cs) | None => [] end.

(** unified_logging.py:4249-4265: the name of a signpost. *)
Definition signpost_name (v : environment) (cat : option cat_state) (k : option known) (tp : tracepoint) (loc : location) (lower upper : option Z) (st : caches)
  : result (option str * caches) :=
  let (r, dynamic) := name_reference lower upper in
  if r =? 0 then Ok (None, st)
  else
    do (i, st) <- get_image (ev_utf8 v) (ev_fs v) (catalog_uuids cat) k (tp_flags tp) loc r dynamic st;
    match i with Some i => Ok (im_string i, st) | None => Err AttributeError end.

(** unified_logging.py:4055-4290. *)
Definition log_entry (v : environment) (cat : option cat_state) (oversize : Z -> Z -> Z -> option oversize) (chunk : bytes) : fh_entry entry caches :=
  fun st h k tp b values =>
  let time := tp_time h tp in
  do (image, path, st) <- process_values v k st;
  let make := mkle (ev_boot v) time image (tp_thread tp) (ev_time v time) (trace_identifier (tp_format tp) (tp_flags tp) (tp_log tp) (tp_record tp)) (event_type tp) in
  match b with
  | Loss start stop count =>
      Ok (make (loss_message count start stop) (Some (count, (start, ev_time v start), (stop, ev_time v stop))) None, st)
  | _ =>
      let loc := body_location b in
      let (r, dynamic) := format_reference loc (tp_format tp) in
      do (i, st) <- get_image (ev_utf8 v) (ev_fs v) (catalog_uuids cat) k (tp_flags tp) loc r dynamic st;
      let f := match i with Some i => Some (parse_format_string (opt_str (im_string i))) | None => None end in
      do (fs, vs) <- fh_values (decode_value (ev_decoders v) f) (oversize (fh_upper h) (fh_lower h)) h chunk (tp_flags tp) b values;
      let (category, sub) := match cat with Some cs => sub_system cs k (body_sub b) | None => (None, None) end in
      let pc := program_counter loc (match i with Some i => im_text i | None => 0 end) in
      let frames := match fs, i with [], Some i => [(im_id i, pc)] | _, _ => fs end in
      do (signpost, st) <- match b with
                           | Signpost _ _ _ _ id _ _ lower upper _ =>
                               do (name, st) <- signpost_name v cat k tp loc lower upper st;
                               Ok (Some (id, name, table scopes (Z.shiftr (tp_log tp) 4), table signpost_types (Z.land (tp_log tp) 0x0f)), st)
                           | _ => Ok (None, st)
                           end;
      do message <- match f with Some f => format_string f vs | None => Ok (s2z "<compose failure [missing precomposed log]>"%string) end;
      Ok (make message None (Some (mkre frames category
        (match i with Some i => im_string i | None => None end)
        (match k with Some k => pr_pid (kn_process k) | None => 0 end) path
        (match i with Some i => Some (im_id i) | None => None end)
        (match i with Some i => im_path i | None => None end) pc sub (or0 (body_ttl b))
        (match b with Signpost _ _ _ _ _ _ _ _ _ _ => None | _ => table log_types (tp_log tp) end)
        (Z.land (match b with Activity _ _ _ new _ => or0 new | _ => or0 (body_current b) end) activity_mask)
        (match b with Activity current _ _ _ _ => if tp_log tp =? 0x01 then Some (or0 current) else None | _ => None end)
        (match b with Activity _ _ other _ _ => Some (Z.land (or0 other) activity_mask) | _ => None end)
        signpost)), st)
  end.

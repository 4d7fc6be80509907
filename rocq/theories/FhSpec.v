(** The tracepoints of a firehose chunk.

    Source: /repo/documentation/Apple Unified Logging and Activity Tracing formats.asciidoc, sections
    "Firehose chunk", "Firehose tracepoint" and those of the kinds of tracepoints. *)

From Verif Require Import Base BaseFacts SeqSpec CoreModel TvModel TvSpec CatModel CatSpec FhModel.

(** ** Members *)

(** One thing after the other. *)
Definition fields (l : list (bytes -> Prop)) (d : bytes) : Prop := exists ds, Forall2 (fun P x => P x) l ds /\ d = concat ds.

Definition i8 (v : Z) (d : bytes) : Prop := n8 v /\ d = [v].
Definition i16 (v : Z) (d : bytes) : Prop := n16 v /\ d = le_enc 2 v.
Definition i32 (v : Z) (d : bytes) : Prop := n32 v /\ d = le_enc 4 v.
Definition i64 (v : Z) (d : bytes) : Prop := n64 v /\ d = le_enc 8 v.

(** Some value. *)
Definition any (e : Z -> bytes -> Prop) (d : bytes) : Prop := exists v, e v d.

(** A member that is there under a condition. *)
Definition when {A} (c : Prop) (e : A -> bytes -> Prop) (o : option A) (d : bytes) : Prop :=
  match o with Some a => c /\ e a d | None => ~ c /\ d = [] end.

(** Bit [i] of the flags. *)
Definition flag (flags i : Z) : Prop := Z.testbit flags i = true.

(** Bits 1 to 3 of the flags: where the strings are. *)
Definition strings_in (flags t : Z) : Prop := (flags / 2) mod 8 = t.

Definition header_bytes (h : fh_header) (d : bytes) : Prop :=
  fields [i64 (fh_upper h); i32 (fh_lower h); any i8; any i8; any i16; i16 (fh_size h); i16 (fh_private h); any i16; any i8; any i8; i64 (fh_time h)] d.

(** Tracepoints are 64-bit aligned. *)
Definition tracepoint_bytes (tp : tracepoint) (d : bytes) : Prop :=
  aligned (fields [i8 (tp_record tp); i8 (tp_log tp); i16 (tp_flags tp); i32 (tp_format tp); i64 (tp_thread tp); i32 (tp_lower tp);
                   i16 (tp_upper tp); i16 (len (tp_data tp)); eq (tp_data tp)]) d.

Definition location_members (flags : Z) (l : location) : list (bytes -> Prop) :=
  [i32 (lo_lower l); when (flag flags 5) i16 (lo_large l); when (strings_in flags 4) i16 (lo_upper l);
   when (strings_in flags 5) (fun u d => len u = 16 /\ d = u) (lo_uuid l); when (strings_in flags 6) i16 (lo_shared l)].

Definition range_bytes (r : Z * Z) (d : bytes) : Prop := fields [i16 (fst r); i16 (snd r)] d.

Definition items_members (items : list tv_item) : list (bytes -> Prop) :=
  [any i8; i8 (len items); fun d => exists ds, Forall2 item_bytes items ds /\ d = concat ds].

(** The body of a tracepoint with record type, log type, flags and data. The reference to oversize data
    has [w] bytes. *)
Inductive body_of (w : nat) (log flags : Z) : Z -> bytes -> body -> bytes -> Prop :=
| bo_activity current pid other new l data d :
    fields ([when (flag flags 0) i64 current; when (flag flags 4) i64 pid; when (flag flags 9) i64 other; when (log <> 3) i64 new] ++
            location_members flags l) d ->
    body_of w log flags 2 data (Activity current pid other new l) d
| bo_trace lower count data d :
    i32 lower d -> (exists values, data = values ++ [count]) ->
    body_of w log flags 3 data (Trace (mkloc lower None None None None) count) d
| bo_log current private l sub ttl ref items data d :
    fields ([when (flag flags 0) i64 current; when (flag flags 8) range_bytes private] ++ location_members flags l ++
            [when (flag flags 9) i16 sub; when (flag flags 10) i8 ttl;
             when (flag flags 11) (fun v d => 0 <= v < 256 ^ Z.of_nat w /\ d = le_enc w v) ref] ++ items_members items) d ->
    body_of w log flags 4 data (Log current private l sub ttl ref items) d
| bo_signpost current private l sub id ttl ref name_lower name_upper items data d :
    fields ([when (flag flags 0) i64 current; when (flag flags 8) range_bytes private] ++ location_members flags l ++
            [when (flag flags 9) i16 sub; i64 id; when (flag flags 10) i8 ttl;
             when (flag flags 11) (fun v d => 0 <= v < 256 ^ Z.of_nat w /\ d = le_enc w v) ref;
             when (flag flags 15) i32 name_lower; when (flag flags 15 /\ flag flags 5) i16 name_upper] ++ items_members items) d ->
    body_of w log flags 6 data (Signpost current private l sub id ttl ref name_lower name_upper items) d
| bo_loss start stop count data d :
    fields [i64 start; i64 stop; i64 count] d ->
    body_of w log flags 7 data (Loss start stop count) d.

(** ** The tracepoints of a chunk *)

(** The kinds of tracepoints with the log types and the flags (bits) they can have. *)
Definition kinds : list (Z * list Z * list Z) :=
  [(2, [1; 3], [0; 1; 2; 3; 4; 5; 8; 9]);
   (3, [0], [1]);
   (4, [0; 1; 2; 16; 17], [0; 1; 2; 3; 5; 8; 9; 10; 11; 12]);
   (6, [64; 65; 66; 128; 129; 130; 192; 193; 194], [0; 1; 2; 3; 5; 8; 9; 10; 11; 15]);
   (7, [0], [])].

Definition supported (tp : tracepoint) : Prop :=
  exists logs bits, In (tp_record tp, logs, bits) kinds /\ In (tp_log tp) logs /\ forall i, 0 <= i -> flag (tp_flags tp) i -> In i bits.

Definition unused (tp : tracepoint) : Prop := tp_record tp = 0.

(** The body of a tracepoint and the values that follow it. *)
Definition contains (tp : tracepoint) (b : body) (values : bytes) : Prop :=
  exists d, body_of 1 (tp_log tp) (tp_flags tp) (tp_record tp) (tp_data tp) b d /\ tp_data tp = d ++ values.

Inductive unreadable (tp : tracepoint) : exn -> Prop :=
| ur_kind : ~ supported tp -> unreadable tp ParseError
| ur_empty : supported tp -> tp_data tp = [] -> unreadable tp ValueError
| ur_data : supported tp -> tp_data tp <> [] -> (forall b values, ~ contains tp b values) -> unreadable tp ParseError.

(** The tracepoints from an offset on until an offset, with body and values, and what is wrong with the
    next one. Unused ones are left out. *)
Inductive tracepoints (data : bytes) (size : Z) : Z -> list (tracepoint * body * bytes) -> option exn -> Prop :=
| tp_end off : size <= off -> tracepoints data size off [] None
| tp_unused off tp d l stop : off < size -> stored_at data off d -> tracepoint_bytes tp d -> unused tp ->
    tracepoints data size (off + len d) l stop -> tracepoints data size off l stop
| tp_used off tp d b values l stop : off < size -> stored_at data off d -> tracepoint_bytes tp d -> supported tp -> contains tp b values ->
    tracepoints data size (off + len d) l stop -> tracepoints data size off ((tp, b, values) :: l) stop
| tp_bad off tp d e : off < size -> stored_at data off d -> tracepoint_bytes tp d -> ~ unused tp -> unreadable tp e ->
    tracepoints data size off [] (Some e)
| tp_cut off : off < size -> off < len data -> (forall tp d, tracepoint_bytes tp d -> ~ stored_at data off d) ->
    tracepoints data size off [] (Some ParseError)
| tp_outside off : off < size -> len data <= off -> tracepoints data size off [] (Some ValueError).

(** The tracepoints that are used, with body and values. *)
Inductive used_of : list tracepoint -> list (tracepoint * body * bytes) -> Prop :=
| us_nil : used_of [] []
| us_unused tp tps l : unused tp -> used_of tps l -> used_of (tp :: tps) l
| us_used tp b values tps l : supported tp -> contains tp b values -> used_of tps l -> used_of (tp :: tps) ((tp, b, values) :: l).

(** The log entries of tracepoints, one after the other until one fails. *)
Inductive logged {E S} (entry : fh_entry E S) (h : fh_header) (k : option known) : S -> list (tracepoint * body * bytes) -> list E -> result S -> Prop :=
| lg_nil st : logged entry h k st [] [] (Ok st)
| lg_err st tp b values l x : entry st h k tp b values = Err x -> logged entry h k st ((tp, b, values) :: l) [] (Err x)
| lg_cons st tp b values l e st' es r : entry st h k tp b values = Ok (e, st') -> logged entry h k st' l es r ->
    logged entry h k st ((tp, b, values) :: l) (e :: es) r.

(** Activities, log messages and signposts. *)
Definition with_private (tp : tracepoint) : Prop := In (tp_record tp) [2; 4; 6].

(** The process of a chunk: the one in the catalog with the proc_id. *)
Inductive process_of (cat : option cat_state) (h : fh_header) : option (option known) -> Prop :=
| po_no_catalog : cat = None -> process_of cat h (Some None)
| po_found cs k : cat = Some cs -> find_process cs (fh_upper h) (fh_lower h) = Some k -> process_of cat h (Some (Some k))
| po_missing cs : cat = Some cs -> find_process cs (fh_upper h) (fh_lower h) = None -> process_of cat h None.

(** The log entries of a chunk and how reading it ends. *)
Inductive chunk_entries {E S} (entry : fh_entry E S) (cat : option cat_state) (data : bytes) (st : S) : list E -> result S -> Prop :=
| ce_empty : data = [] -> chunk_entries entry cat data st [] (Err ValueError)
| ce_header : data <> [] -> (forall h d, header_bytes h d -> ~ stored_at data 0 d) -> chunk_entries entry cat data st [] (Err ParseError)
| ce_process h d : header_bytes h d -> stored_at data 0 d -> process_of cat h None -> chunk_entries entry cat data st [] (Err ParseError)
| ce_entry h d k l stop es x : header_bytes h d -> stored_at data 0 d -> process_of cat h (Some k) -> tracepoints data (fh_size h) 32 l stop ->
    logged entry h k st l es (Err x) -> chunk_entries entry cat data st es (Err x)
| ce_stop h d k l x es st' : header_bytes h d -> stored_at data 0 d -> process_of cat h (Some k) -> tracepoints data (fh_size h) 32 l (Some x) ->
    logged entry h k st l es (Ok st') -> chunk_entries entry cat data st es (Err x)
| ce_ok h d k l es st' : header_bytes h d -> stored_at data 0 d -> process_of cat h (Some k) -> tracepoints data (fh_size h) 32 l None ->
    logged entry h k st l es (Ok st') -> (exists x, In x l /\ with_private (fst (fst x))) -> chunk_entries entry cat data st es (Ok st')
| ce_unbound h d k l es st' : header_bytes h d -> stored_at data 0 d -> process_of cat h (Some k) -> tracepoints data (fh_size h) 32 l None ->
    logged entry h k st l es (Ok st') -> (forall x, In x l -> ~ with_private (fst (fst x))) -> chunk_entries entry cat data st es (Err UnboundLocalError).

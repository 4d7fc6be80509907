(** Log entries as JSON.

    The grammar of JSON is that of RFC 8259; numbers that are not integers are left out. *)

From Verif Require Import Base CoreModel StrModel UlModel.
From Coq Require Import Permutation.
From Coq Require String.
Import String.StringSyntax.

Inductive jv := JStr (s : str) | JNum (n : Z) | JNull | JTrue | JFalse | JArr (l : list jv) | JObj (l : list (str * jv)).

Definition is_hex (c : Z) : Prop := 48 <= c <= 57 \/ 65 <= c <= 70 \/ 97 <= c <= 102.
Definition hex_value (c : Z) : Z := if c <=? 57 then c - 48 else if c <=? 70 then c - 55 else c - 87.

(** The characters between the quotation marks of a string. *)
Inductive jchars : str -> str -> Prop :=
| jc_nil : jchars [] []
| jc_char c t s : 32 <= c -> c <> 34 -> c <> 92 -> jchars t s -> jchars (c :: t) (c :: s)
| jc_escape e c t s : In (e, c) [(34, 34); (92, 92); (47, 47); (98, 8); (102, 12); (110, 10); (114, 13); (116, 9)] -> jchars t s -> jchars (92 :: e :: t) (c :: s)
| jc_code h c t s : length h = 4%nat -> Forall is_hex h -> c = fold_left (fun a d => 16 * a + hex_value d) h 0 -> jchars t s -> jchars (92 :: 117 :: h ++ t) (c :: s).

Definition white (s : str) : Prop := Forall (fun c => In c [32; 9; 10; 13]) s.

(** An integer in decimal digits, without leading zeros. *)
Inductive jnat : str -> Z -> Prop :=
| jn_zero : jnat [48] 0
| jn_digits d t n : 49 <= d <= 57 -> Forall (fun c => 48 <= c <= 57) t -> n = fold_left (fun a c => 10 * a + (c - 48)) (d :: t) 0 -> jnat (d :: t) n.
Inductive jnum : str -> Z -> Prop :=
| jn_pos t n : jnat t n -> jnum t n
| jn_neg t n : jnat t n -> jnum (45 :: t) (- n).

Inductive json : str -> jv -> Prop :=
| js_str t s : jchars t s -> json ([34] ++ t ++ [34]) (JStr s)
| js_num t n : jnum t n -> json t (JNum n)
| js_null : json (s2z "null"%string) JNull
| js_true : json (s2z "true"%string) JTrue
| js_false : json (s2z "false"%string) JFalse
| js_arr0 a : white a -> json ([91] ++ a ++ [93]) (JArr [])
| js_arr t l : elements t l -> json ([91] ++ t ++ [93]) (JArr l)
| js_obj0 a : white a -> json ([123] ++ a ++ [125]) (JObj [])
| js_obj t l : members t l -> json ([123] ++ t ++ [125]) (JObj l)
with elements : str -> list jv -> Prop :=
| el_one a t v b : white a -> json t v -> white b -> elements (a ++ t ++ b) [v]
| el_more a t v b r l : white a -> json t v -> white b -> elements r l -> elements ((a ++ t ++ b) ++ [44] ++ r) (v :: l)
with members : str -> list (str * jv) -> Prop :=
| me_one t n v : member t n v -> members t [(n, v)]
| me_more t n v r l : member t n v -> members r l -> members (t ++ [44] ++ r) ((n, v) :: l)
with member : str -> str -> jv -> Prop :=
| me_member a k n b c t v d : white a -> jchars k n -> white b -> white c -> json t v -> white d -> member (a ++ [34] ++ k ++ [34] ++ b ++ [58] ++ c ++ t ++ d) n v.

(** A JSON text. *)
Definition json_text (s : str) (v : jv) : Prop := exists a t b, white a /\ json t v /\ white b /\ s = a ++ t ++ b.

(** ** What is shown of a log entry *)

Definition N (s : String.string) : str := s2z s.

(** Characters that can be shown in a JSON string as they are. *)
Definition plain (s : str) : Prop := Forall (fun c => 32 <= c /\ c <> 34 /\ c <> 92) s.
Definition plain_opt (o : option str) : Prop := match o with Some s => plain s | None => True end.

(** Text without control characters, but for tabs and ends of lines. *)
Definition printable (s : str) : Prop := Forall (fun c => 32 <= c \/ c = 9 \/ c = 10) s.

(** The message without the white space at its end; of a long message the first 1087 characters and a mark. *)
Definition stripped (space : Z -> bool) (s t : str) : Prop :=
  exists r, s = t ++ r /\ Forall (fun c => space c = true) r /\ (t = [] \/ exists u c, t = u ++ [c] /\ space c = false).
Definition shown_message (w : tools) (e : entry) (m : str) : Prop :=
  exists s, stripped (t_space w) (or_empty (en_message e)) s /\ ((len s < 1085 /\ m = s) \/ (1085 <= len s /\ m = firstn 1087 s ++ [60; 8230; 62])).

Definition event (e : entry) : str := or_empty (en_event e).
Definition activity (e : entry) : Z := or0 (en_activity e).

(** A time as it is shown; [iso] is YYYY-MM-DDThh:mm:ss.nnnnnnnnn+hh:mm. *)
Definition shown_time (w : tools) (o : option Z) (s : str) : Prop :=
  match o with
  | None => s = N "YYYY-MM-DD hh:ss:mm.######+####"
  | Some t => exists day time frac skipped zone minutes rest, t_iso w t = Some (day ++ [84] ++ time ++ frac ++ skipped ++ zone ++ [58] ++ minutes ++ rest) /\
      len day = 10 /\ len time = 8 /\ len frac = 7 /\ len skipped = 3 /\ len zone = 3 /\ len minutes = 2 /\ s = day ++ [32] ++ time ++ frac ++ zone ++ minutes
  end.

(** The format strings of activities are not shown. *)
Definition shown_format (e : entry) : str := if existsb (list_eqb (event e)) [N "activityCreateEvent"; N "userActionEvent"] then [] else or_empty (en_format e).

Definition shown_uuid (w : tools) (o : option bytes) : str := match o with Some u => t_uuid w u | None => [] end.

Definition shown_frame (w : tools) (f : bytes * Z) : jv := JObj [(N "imageOffset", JNum (snd f)); (N "imageUUID", JStr (t_uuid w (fst f)))].

Definition opt_members {A} (o : option A) (f : A -> list (str * jv)) : list (str * jv) := match o with Some a => f a | None => [] end.

(** The members of all log entries. *)
Definition common_members (w : tools) (e : entry) (message time : str) (mach trace parent : Z) : list (str * jv) :=
  [(N "eventType", JStr (event e)); (N "eventMessage", JStr message); (N "formatString", JStr (shown_format e)); (N "timestamp", JStr time);
   (N "machTimestamp", JNum mach); (N "traceID", JNum trace); (N "bootUUID", JStr (match en_boot e with Some u => t_uuid w u | None => N "NONE" end)); (N "timezoneName", JStr []);
   (N "processID", JNum (or0 (en_pid e))); (N "processImagePath", JStr (or_empty (en_process_path e))); (N "processImageUUID", JStr (shown_uuid w (en_process e)));
   (N "senderImagePath", JStr (or_empty (en_sender_path e))); (N "senderImageUUID", JStr (shown_uuid w (en_sender e))); (N "senderProgramCounter", JNum (or0 (en_counter e)));
   (N "threadID", JNum (or0 (en_thread e))); (N "activityIdentifier", JNum (activity e)); (N "parentActivityIdentifier", JNum parent);
   (N "subsystem", JStr (or_empty (en_sub e))); (N "category", JStr (or_empty (en_category e)))].

Definition backtrace_members (w : tools) (l : list (bytes * Z)) : list (str * jv) :=
  match l with [] => [] | l => [(N "backtrace", JObj [(N "frames", JArr (map (shown_frame w) l))])] end.

(** The members that depend on the event. *)
Definition special_members (w : tools) (e : entry) (loss_start loss_end : str) (loss_start_mach loss_end_mach : Z) : list (str * jv) :=
  (if existsb (list_eqb (event e)) [N "activityCreateEvent"; N "lossEvent"; N "userActionEvent"] then [] else [(N "source", JNull)]) ++
  (if existsb (list_eqb (event e)) [N "activityCreateEvent"; N "lossEvent"; N "signpostEvent"; N "userActionEvent"] then [] else [(N "messageType", JStr (or_empty (en_kind e)))]) ++
  opt_members (en_creator e) (fun c => [(N "creatorActivityID", JNum c)]) ++
  opt_members (en_loss e) (fun n => [(N "lossCount", JNum n); (N "lossCountSaturated", JTrue); (N "lossEndMachContinuousTimestamp", JNum loss_end_mach)] ++
    match en_creator e with
    | None => [(N "lossStartMachContinuousTimestamp", JNum loss_start_mach); (N "lossStartTimestamp", JStr loss_start); (N "lossEndTimestamp", JStr loss_end)]
    | Some _ => []
    end) ++
  opt_members (en_signpost e) (fun n => [(N "signpostID", JNum n); (N "signpostScope", JStr (or_empty (en_signpost_scope e))); (N "signpostType", JStr (or_empty (en_signpost_type e)))] ++
    match en_creator e, en_loss e with
    | None, None => [(N "signpostName", JStr (or_empty (en_signpost_name e)))]
    | _, _ => []
    end) ++
  backtrace_members w (en_frames e).

(** The creator of an activity: that of the last event that has one. *)
Definition is_timesync (e : entry) : Prop := event e = N "timesyncEvent".
Definition creates (a c : Z) (e : entry) : Prop := ~ is_timesync e /\ en_creator e = Some c /\ activity e = a.
Definition created_by (l : list entry) (a : Z) (o : option Z) : Prop :=
  match o with
  | Some c => exists pre e post, l = pre ++ e :: post /\ creates a c e /\ Forall (fun e => forall c, ~ creates a c e) post
  | None => Forall (fun e => forall c, ~ creates a c e) l
  end.

(** The parent activity of the last of the log entries [l ++ [e]]: the one that is stored, or else the
    creator of the activity without its first bit; if it is the creator of the event then 0. *)
Definition shown_parent (l : list entry) (e : entry) (p : Z) : Prop :=
  exists o q, created_by (l ++ [e]) (activity e) o /\
    q = (if or0 (en_parent e) =? 0 then match o with Some c => c mod 2 ^ 63 | None => 0 end else or0 (en_parent e)) /\
    p = (if match en_creator e with Some c => q =? c | None => false end then 0 else q).

(** The object of the log entry [e] that is shown after [l]. *)
Definition shows (w : tools) (l : list entry) (e : entry) (v : jv) : Prop :=
  exists m message time mach trace, v = JObj m /\ NoDup (map fst m) /\ shown_message w e message /\ shown_time w (Some (en_time e)) time /\ en_mach e = Some mach /\ en_trace e = Some trace /\
    ((is_timesync e /\ Permutation m (common_members w e message time mach trace 0)) \/
     (~ is_timesync e /\ exists parent start stop start_mach end_mach, shown_parent l e parent /\
        (en_loss e <> None -> en_loss_end_mach e = Some end_mach /\ (en_creator e = None -> en_loss_start_mach e = Some start_mach /\ shown_time w (en_loss_start e) start /\ shown_time w (en_loss_end e) stop)) /\
        Permutation m (common_members w e message time mach trace parent ++ special_members w e start stop start_mach end_mach))).

(** Log entries that have what is shown as a number, and whose texts do not need escapes that the script
    does not make. *)
Definition iso_ok (w : tools) (o : option Z) : Prop :=
  match o with
  | None => True
  | Some t => exists s, t_iso w t = Some s /\ plain s /\ 35 <= len s /\ nth_error s 10 = Some 84 /\ nth_error s 32 = Some 58
  end.

Record clean (w : tools) (e : entry) : Prop := {
  cl_mach : en_mach e <> None;
  cl_trace : en_trace e <> None;
  cl_time : iso_ok w (Some (en_time e));
  cl_loss : en_loss e <> None -> en_loss_end_mach e <> None /\ (en_creator e = None -> en_loss_start_mach e <> None /\ iso_ok w (en_loss_start e) /\ iso_ok w (en_loss_end e));
  cl_message : printable (or_empty (en_message e));
  cl_format : printable (or_empty (en_format e));
  cl_process_path : Forall (fun c => 32 <= c) (or_empty (en_process_path e));
  cl_sender_path : Forall (fun c => 32 <= c /\ c <> 92) (or_empty (en_sender_path e));
  cl_category : plain_opt (en_category e);
  cl_sub : plain_opt (en_sub e);
  cl_event : plain_opt (en_event e);
  cl_kind : plain_opt (en_kind e);
  cl_name : plain_opt (en_signpost_name e);
  cl_scope : plain_opt (en_signpost_scope e);
  cl_type : plain_opt (en_signpost_type e) }.

(** The texts of UUIDs are plain. *)
Definition tools_ok (w : tools) : Prop := forall u, plain (t_uuid w u).

(** The values of the log entries that are shown one after the other. *)
Inductive shows_all (w : tools) : list entry -> list entry -> list jv -> Prop :=
| sa_nil l : shows_all w l [] []
| sa_cons l e r v vs : shows w l e v -> shows_all w (l ++ [e]) r vs -> shows_all w l (e :: r) (v :: vs).

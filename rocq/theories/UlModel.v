(** Model of the output of scripts/unified_logging.py for a tracev3 file.

    External functions are parameters: [uuid] is [str(x).upper()] of a UUID, [iso] the ISO 8601 string of
    dfdatetime (None if it has none), and [space] tells what [str.rstrip] removes. The encoding of the
    output is not modelled. *)

From Verif Require Import Base CoreModel StrModel HpModel.
From Coq Require String.
Import String.StringSyntax.

(** dtformats/unified_logging.py:122-197 [LogEntry], without the time zone name, which is not shown. No
    backtrace frames is the same as None. *)
Record entry := mkentry {
  en_activity : option Z; en_frames : list (bytes * Z); en_boot : option bytes; en_category : option str; en_creator : option Z; en_message : option str;
  en_event : option str; en_format : option str; en_loss : option Z; en_loss_end_mach : option Z; en_loss_end : option Z; en_loss_start_mach : option Z;
  en_loss_start : option Z; en_mach : option Z; en_kind : option str; en_parent : option Z; en_pid : option Z; en_process : option bytes;
  en_process_path : option str; en_sender : option bytes; en_sender_path : option str; en_counter : option Z; en_signpost : option Z; en_signpost_name : option str;
  en_signpost_scope : option str; en_signpost_type : option str; en_sub : option str; en_thread : option Z; en_time : Z; en_trace : option Z; en_ttl : option Z }.

Record tools := mktools { t_uuid : bytes -> str; t_iso : Z -> option str; t_space : Z -> bool }.

(** Python [x or 0] and [x or ""]. *)
Definition or0 (o : option Z) : Z := match o with Some z => z | None => 0 end.
Definition or_empty (o : option str) : str := match o with Some s => s | None => [] end.

(** [f"{x:d}"], a TypeError of None. *)
Definition need (o : option Z) : result Z := match o with Some z => Ok z | None => Err TypeError end.

(** scripts/unified_logging.py:62-85 [GetDateTimeString]. *)
Definition date_time (w : tools) (o : option Z) : result str :=
  match o with
  | None => Ok (s2z "YYYY-MM-DD hh:ss:mm.######+####"%string)
  | Some t =>
      match t_iso w t with
      | None => Err TypeError
      | Some s => Ok (pyslice s 0 10 ++ [32] ++ pyslice s 11 26 ++ pyslice s 29 32 ++ pyslice s 33 35)
      end
  end.

(** scripts/unified_logging.py:244, 276, 288, 299: a backslash before every backslash, slash and quotation mark. *)
Definition escape (s : str) : str := flat_map (fun c => if existsb (Z.eqb c) [92; 47; 34] then [92; c] else [c]) s.

(** [s.replace(c, r)] of one character. *)
Definition replace (c : Z) (r s : str) : str := flat_map (fun x => if x =? c then r else [x]) s.

(** scripts/unified_logging.py:276-278, 288-290. *)
Definition lines_escape (s : str) : str := replace 9 [92; 116] (replace 10 [92; 110] (escape s)).

(** [s.rstrip()]. *)
Definition strip_end (space : Z -> bool) (s : str) : str :=
  fold_right (fun c r => match r with [] => if space c then [] else [c] | _ => c :: r end) [] s.

(** scripts/unified_logging.py:271-274: the message, shortened. *)
Definition cut_message (w : tools) (e : entry) : str :=
  let m := strip_end (t_space w) (or_empty (en_message e)) in
  if 1085 <=? len m then pyslice m 0 1087 ++ [60; 8230; 62] else m.

Definition is_event (e : entry) (l : list String.string) : bool := existsb (fun s => list_eqb (or_empty (en_event e)) (s2z s)) l.

(** The lines of the members with a text or a number. *)
Definition key (name : String.string) : str := s2z "  """%string ++ s2z name ++ s2z """ : "%string.
Definition text_line (name : String.string) (s : str) : str := key name ++ [34] ++ s ++ [34; 44].
Definition num_line (name : String.string) (n : Z) : str := key name ++ fmt_d n ++ [44].

(** scripts/unified_logging.py:307-309. *)
Definition sender_text (s : str) : str := replace 47 [92; 47] (replace 34 [92; 34] s).

(** scripts/unified_logging.py:282-290. *)
Definition format_text (e : entry) : str :=
  if is_event e ["activityCreateEvent"; "userActionEvent"]%string then [] else lines_escape (or_empty (en_format e)).

(** scripts/unified_logging.py:292-305. *)
Definition uuid_text (w : tools) (o : option bytes) : str := match o with Some u => t_uuid w u | None => [] end.

(** scripts/unified_logging.py:266; [str(None).upper()] is NONE. *)
Definition boot_text (w : tools) (e : entry) : str := match en_boot e with Some u => t_uuid w u | None => s2z "NONE"%string end.

(** scripts/unified_logging.py:311-332: the lines of a timesync event. *)
Definition timesync_lines (w : tools) (e : entry) : result (list str) :=
  do time <- date_time w (Some (en_time e));
  do mach <- need (en_mach e);
  do trace <- need (en_trace e);
  Ok [text_line "bootUUID" (boot_text w e);
      text_line "category" (or_empty (en_category e));
      text_line "processImageUUID" (uuid_text w (en_process e));
      text_line "eventType" (or_empty (en_event e));
      num_line "threadID" (or0 (en_thread e));
      text_line "timestamp" time;
      num_line "activityIdentifier" (or0 (en_activity e));
      num_line "senderProgramCounter" (or0 (en_counter e));
      s2z "  ""parentActivityIdentifier"" : 0,"%string;
      num_line "machTimestamp" mach;
      num_line "processID" (or0 (en_pid e));
      text_line "subsystem" (or_empty (en_sub e));
      s2z "  ""timezoneName"" : """","%string;
      num_line "traceID" trace;
      text_line "eventMessage" (lines_escape (cut_message w e));
      text_line "formatString" (format_text e);
      text_line "processImagePath" (escape (or_empty (en_process_path e)));
      text_line "senderImageUUID" (uuid_text w (en_sender e));
      key "senderImagePath" ++ [34] ++ sender_text (or_empty (en_sender_path e)) ++ [34]].

(** scripts/unified_logging.py:399-423: the lines of the backtrace. *)
Definition frame_lines (w : tools) (f : bytes * Z) : list str :=
  [s2z "        ""imageOffset"" : "%string ++ fmt_d (snd f) ++ [44];
   s2z "        ""imageUUID"" : """%string ++ t_uuid w (fst f) ++ [34]].

Fixpoint frames_lines (w : tools) (l : list (bytes * Z)) : list str :=
  match l with
  | [] => []
  | f :: l => [s2z "      },"%string; s2z "      {"%string] ++ frame_lines w f ++ frames_lines w l
  end.

Definition backtrace_lines (w : tools) (l : list (bytes * Z)) : list str :=
  match l with
  | [] => []
  | f :: l =>
      [s2z "  ""backtrace"" : {"%string; s2z "    ""frames"" : ["%string; s2z "      {"%string] ++ frame_lines w f ++ frames_lines w l ++
      [s2z "      }"%string; s2z "    ]"%string; s2z "  },"%string]
  end.

(** The dictionary [parent_per_activity_identifier], the last value first. *)
Fixpoint parent_get (l : list (Z * Z)) (a : Z) : option Z :=
  match l with [] => None | (k, v) :: l => if k =? a then Some v else parent_get l a end.

(** dtformats/unified_logging.py:2598 [ACTIVITY_IDENTIFIER_BITMASK]. *)
Definition activity_mask : Z := Z.shiftl 1 63 - 1.

(** scripts/unified_logging.py:433-437: an activity is remembered with its creator. *)
Definition remember (e : entry) (parents : list (Z * Z)) : list (Z * Z) :=
  match en_creator e with Some c => (or0 (en_activity e), Z.land c activity_mask) :: parents | None => parents end.

(** scripts/unified_logging.py:479-492. *)
Definition parent_of (e : entry) (parents : list (Z * Z)) : Z :=
  let p := match en_parent e with
           | Some p => if p =? 0 then or0 (parent_get parents (or0 (en_activity e))) else p
           | None => or0 (parent_get parents (or0 (en_activity e)))
           end in
  match en_creator e with Some c => if p =? c then 0 else p | None => p end.

Definition when_some {A} (o : option A) (f : A -> list str) : list str := match o with Some a => f a | None => [] end.

(** scripts/unified_logging.py:334-508: the lines of any other event. *)
Definition event_lines (w : tools) (e : entry) (parents : list (Z * Z)) : result (list str * list (Z * Z)) :=
  do trace <- need (en_trace e);
  do loss_end_mach <- match en_loss e with Some _ => need (en_loss_end_mach e) | None => Ok 0 end;
  do time <- date_time w (Some (en_time e));
  do loss <- match en_creator e, en_loss e with
             | None, Some _ =>
                 do start <- date_time w (en_loss_start e);
                 do stop <- date_time w (en_loss_end e);
                 do start_mach <- need (en_loss_start_mach e);
                 Ok [num_line "lossStartMachContinuousTimestamp" start_mach; text_line "lossEndTimestamp" stop; text_line "lossStartTimestamp" start]
             | _, _ => Ok []
             end;
  do mach <- need (en_mach e);
  let parents := remember e parents in
  Ok ([num_line "traceID" trace] ++
      (if is_event e ["activityCreateEvent"; "lossEvent"; "signpostEvent"; "userActionEvent"]%string then [] else [text_line "eventMessage" (lines_escape (cut_message w e))]) ++
      [text_line "eventType" (or_empty (en_event e))] ++
      when_some (en_loss e) (fun n => [num_line "lossCount" n; s2z "  ""lossCountSaturated"" : true,"%string]) ++
      when_some (en_signpost e) (fun n => [num_line "signpostID" n; text_line "signpostScope" (or_empty (en_signpost_scope e))]) ++
      (if is_event e ["activityCreateEvent"; "lossEvent"; "userActionEvent"]%string then [] else [s2z "  ""source"" : null,"%string]) ++
      [text_line "formatString" (format_text e)] ++
      when_some (en_loss e) (fun _ => [num_line "lossEndMachContinuousTimestamp" loss_end_mach]) ++
      [num_line "activityIdentifier" (or0 (en_activity e)); text_line "subsystem" (or_empty (en_sub e)); text_line "category" (or_empty (en_category e));
       num_line "threadID" (or0 (en_thread e)); text_line "senderImageUUID" (uuid_text w (en_sender e))] ++
      when_some (en_signpost e) (fun _ => [text_line "signpostType" (or_empty (en_signpost_type e))]) ++
      backtrace_lines w (en_frames e) ++
      [text_line "bootUUID" (boot_text w e); text_line "processImagePath" (escape (or_empty (en_process_path e))); text_line "timestamp" time;
       text_line "senderImagePath" (sender_text (or_empty (en_sender_path e)))] ++
      match en_creator e with
      | Some c => [num_line "creatorActivityID" c]
      | None =>
          match en_loss e with
          | Some _ => loss
          | None => when_some (en_signpost e) (fun _ => [text_line "signpostName" (or_empty (en_signpost_name e))])
          end
      end ++
      [num_line "machTimestamp" mach] ++
      (if is_event e ["activityCreateEvent"; "lossEvent"; "signpostEvent"; "userActionEvent"]%string then [text_line "eventMessage" (lines_escape (cut_message w e))]
       else [text_line "messageType" (or_empty (en_kind e))]) ++
      [text_line "processImageUUID" (uuid_text w (en_process e)); num_line "processID" (or0 (en_pid e)); num_line "senderProgramCounter" (or0 (en_counter e));
       num_line "parentActivityIdentifier" (parent_of e parents); s2z "  ""timezoneName"" : """""%string], parents).

(** scripts/unified_logging.py:259-510: the lines of a log entry. *)
Definition entry_lines (w : tools) (e : entry) (parents : list (Z * Z)) : result (list str * list (Z * Z)) :=
  if is_event e ["timesyncEvent"]%string then do l <- timesync_lines w e; Ok (l, parents) else event_lines w e parents.

(** scripts/unified_logging.py:254-257, 510, 539-540: the log entries behind the first character; [first] tells
    whether the index is 0. An exception ends the program, the output before is not modelled. *)
Fixpoint json_entries (w : tools) (first : bool) (l : list entry) (parents : list (Z * Z)) : result str :=
  match l with
  | [] => Ok (s2z "}]"%string)
  | e :: l =>
      do (lines, parents) <- entry_lines w e parents;
      do rest <- json_entries w false l parents;
      Ok ((if first then [] else s2z "},{"%string ++ [10]) ++ join [10] lines ++ [10] ++ rest)
  end.

(** scripts/unified_logging.py:240-247. *)
Definition json_part (w : tools) (l : list entry) : result str :=
  do s <- json_entries w true (sort_entries en_time l) []; Ok (s2z "[{"%string ++ [10] ++ s).

(** scripts/unified_logging.py:197: what is on the standard output, with --format json. *)
Definition json_output (w : tools) (l : list entry) : result str :=
  do s <- json_part w l; Ok (s2z "Apple Unified Logging and Activity Tracing information:"%string ++ [10] ++ s).

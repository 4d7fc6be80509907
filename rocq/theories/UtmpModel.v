(** Model of the utmp readers.

    Source: /repo/dtformats/utmp.py, /repo/dtformats/utmp.yaml. [utf8] is the UTF-8 decoder
    ([None] for UnicodeDecodeError), [posix] the date and time text of dfdatetime ([None] if it has
    none). *)

From Verif Require Import Base StrModel CoreModel DictModel TextModel.
From Coq Require String.
Import String.StringSyntax.

(** utmp.yaml [linux_libc6_utmp_entry] *)
Definition linux_kinds : list fkind :=
  [FS LE 4; FU LE 4; FB 32; FU LE 4; FB 32; FB 256; FS LE 2; FS LE 2; FS LE 4; FS LE 4; FS LE 4; FB 16; FB 20].

(** utmp.yaml [macosx_utmpx_entry] *)
Definition macos_kinds : list fkind :=
  [FB 256; FU LE 4; FB 32; FU LE 4; FS LE 2; FS LE 2; FS LE 4; FS LE 4; FB 256; FB 64].

(** utmp.py:16-27 *)
Definition linux_types : list (Z * str) :=
  [(0, s2z "EMPTY"); (1, s2z "RUN_LVL"); (2, s2z "BOOT_TIME"); (3, s2z "NEW_TIME"); (4, s2z "OLD_TIME"); (5, s2z "INIT_PROCESS");
   (6, s2z "LOGIN_PROCESS"); (7, s2z "USER_PROCESS"); (8, s2z "DEAD_PROCESS"); (9, s2z "ACCOUNTING")].

(** utmp.py:131-144 *)
Definition macos_types : list (Z * str) :=
  [(0, s2z "EMPTY"); (1, s2z "RUN_LVL"); (2, s2z "BOOT_TIME"); (3, s2z "OLD_TIME"); (4, s2z "NEW_TIME"); (5, s2z "INIT_PROCESS");
   (6, s2z "LOGIN_PROCESS"); (7, s2z "USER_PROCESS"); (8, s2z "DEAD_PROCESS"); (9, s2z "ACCOUNTING"); (10, s2z "SIGNATURE"); (11, s2z "SHUTDOWN_TIME")].

(** [.get(entry.type, "UNKNOWN")] *)
Definition type_name (types : list (Z * str)) (t : Z) : str :=
  match find (fun x => fst x =? t) types with Some (_, s) => s | None => s2z "UNKNOWN" end.

(** utmp.py:40-42: the NUL characters are removed, wherever they are. *)
Definition shown_string (utf8 : bytes -> option str) (d : bytes) : result str :=
  match utf8 (filter (fun c => negb (c =? 0)) d) with Some s => Ok s | None => Err UnicodeDecodeError end.

(** data_format.py:121-138 [_DebugPrintPosixTimeValue]. *)
Definition shown_time (posix : Z -> option str) (z : Z) : str :=
  if z =? 0 then s2z "Not set (0)"
  else match posix z with
       | Some (c :: s) => (c :: s) ++ s2z " UTC"
       | _ => s2z "0x" ++ fmt_x 8 z
       end.

(** [str()] of the tuple that the formatters of addresses return (utmp.py:66-73). *)
Definition shown_tuple (t : option str * bool) : str :=
  s2z "(" ++ match fst t with Some s => s2z "'" ++ s ++ s2z "'" | None => s2z "None" end
  ++ s2z ", " ++ (if snd t then s2z "True" else s2z "False") ++ s2z ")".

(** utmp.py:66-73 *)
Definition shown_address (d : bytes) : str :=
  if list_eqb (zskipn 4 d) (repeat 0 12) then shown_tuple (format_ipv4 (zfirstn 4 d)) else shown_tuple (format_ipv6 d).

(** utmp.py:29-75 [_DebugPrintEntry] up to the data of unknown use: the descriptions and values. *)
Definition show_linux (utf8 : bytes -> option str) (posix : Z -> option str) (vs : list fval) : result (list (str * str)) :=
  match vs with
  | [VI t; VI pid; VB terminal; VI tid; VB username; VB hostname; VI termination; VI exit; VI session; VI timestamp; VI micro; VB ip; VB _] =>
      do terminal <- shown_string utf8 terminal;
      do username <- shown_string utf8 username;
      do hostname <- shown_string utf8 hostname;
      Ok [(s2z "Type of login", s2z "0x" ++ fmt_x 8 t ++ s2z " (" ++ type_name linux_types t ++ s2z ")"); (s2z "PID", fmt_d pid);
          (s2z "Terminal", terminal); (s2z "Terminal ID", fmt_d tid); (s2z "Username", username); (s2z "Hostname", hostname);
          (s2z "Termination status", s2z "0x" ++ fmt_x 4 termination); (s2z "Exit status", s2z "0x" ++ fmt_x 4 exit); (s2z "Session", fmt_d session);
          (s2z "Timestamp", shown_time posix timestamp); (s2z "Microseconds", fmt_d micro); (s2z "IP address", shown_address ip)]
  | _ => Err OtherError
  end.

(** utmp.py:146-179 [_DebugPrintEntry] up to the data of unknown use. *)
Definition show_macos (utf8 : bytes -> option str) (posix : Z -> option str) (vs : list fval) : result (list (str * str)) :=
  match vs with
  | [VB username; VI tid; VB terminal; VI pid; VI t; VI unknown1; VI timestamp; VI micro; VB hostname; VB _] =>
      do username <- shown_string utf8 username;
      do terminal <- shown_string utf8 terminal;
      do hostname <- shown_string utf8 hostname;
      Ok [(s2z "Username", username); (s2z "Terminal ID", fmt_d tid); (s2z "Terminal", terminal); (s2z "PID", fmt_d pid);
          (s2z "Type of login", s2z "0x" ++ fmt_x 4 t ++ s2z " (" ++ type_name macos_types t ++ s2z ")"); (s2z "Unknown1", s2z "0x" ++ fmt_x 4 unknown1);
          (s2z "Timestamp", shown_time posix timestamp); (s2z "Microseconds", fmt_d micro); (s2z "Hostname", hostname)]
  | _ => Err OtherError
  end.

(** utmp.py:94-111 [_ReadEntries] and 225-233: the entries from an offset on. With debug output
    [show] is the printing of an entry, without it always succeeds. *)
Fixpoint read_entries (fuel : nat) (show : list fval -> result (list (str * str))) (content : bytes) (ks : list fkind) (off : Z) : run (list (list fval)) :=
  if off <? len content then
    match fuel with
    | O => OutOfFuel
    | S fuel =>
        match read_struct content ks off with
        | Err e => Done (Err e)
        | Ok vs =>
            match show vs with
            | Err e => Done (Err e)
            | Ok _ => rdo l <- read_entries fuel show content ks (off + Z.of_nat (struct_size ks)); Done (Ok (vs :: l))
            end
        end
    end
  else Done (Ok []).

Definition no_debug (vs : list fval) : result (list (str * str)) := Ok [].

(** utmp.py:113-120 *)
Definition read_linux (fuel : nat) (show : list fval -> result (list (str * str))) (content : bytes) : run (list (list fval)) :=
  read_entries fuel show content linux_kinds 0.

(** "utmpx-1.00" and an end-of-string character *)
Definition utmpx_signature : bytes := s2z "utmpx-1.00" ++ [0].

(** utmp.py:198-233 [_ReadEntries]: the entries behind the file header. *)
Definition read_macos (fuel : nat) (show : list fval -> result (list (str * str))) (content : bytes) : run (list (list fval)) :=
  match (do vs <- read_struct content macos_kinds 0;
         do _ <- show vs;
         match vs with
         | VB username :: _ :: _ :: _ :: VI t :: _ =>
             do _ <- guard (list_eqb (zfirstn 11 username) utmpx_signature) ParseError;
             guard (t =? 10) ParseError
         | _ => Err OtherError
         end) with
  | Err e => Done (Err e)
  | Ok _ => read_entries fuel show content macos_kinds 628
  end.

(** Model of how a tracev3 file is opened: where the files that belong to it are looked for, the header
    chunk, the timesync records, and the log entries of the timesync records.

    The file system is given by functions: which paths exist and what a directory contains. A directory
    entry that cannot be opened (a broken symbolic link) is not modelled. Debug output is not modelled. *)

From Verif Require Import Base CoreModel StrModel TextModel RdModel TvModel AulModel SdModel.
From Coq Require String.
Import String.StringSyntax.

(** ** Where the files are *)

(** unified_logging.py:2642, 2645: [_uuidtext_path] and [_timesync_path]. *)
Record place := mkplace { pl_text : option str; pl_sync : option str }.

(** Python [l.pop(-1)] and [l[-1]]. *)
Definition pop_last (l : list str) : result (list str) := match l with [] => Err IndexError | _ => Ok (removelast l) end.
Definition get_last (l : list str) : result str := match rev l with [] => Err IndexError | x :: _ => Ok x end.

(** unified_logging.py:4935, 4940, 4945: the name of a log archive. *)
Definition is_archive (lower : str -> str) (name : str) : bool := ends_with (lower name) (s2z ".logarchive"%string).

(** unified_logging.py:4935-4938 and 4940-4943. Instead of the lower case segment the segment is kept. *)
Definition climb (lower : str -> str) (x : list str * str) : result (list str * str) :=
  let (l, name) := x in
  if is_archive lower name then Ok (l, name)
  else do l <- pop_last l; Ok (l, match rev l with [] => name | y :: _ => y end).

(** unified_logging.py:4929-4974: [there] is [CheckFileExistsByPath] (file_system.py:113-122). *)
Definition locate (lower : str -> str) (there : str -> bool) (path : str) (p : place) : result place :=
  do l <- pop_last (split_path path);
  do name <- get_last l;
  do x <- climb lower (l, name);
  do (l, name) <- climb lower x;
  let (l, text) :=
    if is_archive lower name then
      if there (join_path (l ++ [s2z "dsc"%string])) then (l, Some (join_path l)) else (l ++ [s2z "dsc"%string], pl_text p)
    else
      let t := join_path (l ++ [s2z "uuidtext"%string]) in (l, if there t then Some t else pl_text p) in
  let t := join_path (l ++ [s2z "timesync"%string]) in
  let t := if there t then t else join_path (l ++ [s2z "diagnostics"%string; s2z "timesync"%string]) in
  Ok (mkplace text (if there t then Some t else pl_sync p)).

(** ** The header chunk *)

(** The members of tracev3_header_chunk that are used. *)
Record header := mkhd { hd_num : Z; hd_den : Z; hd_start : Z; hd_time : Z; hd_flags : Z; hd_continuous : Z; hd_boot : bytes }.

(** aul_tracev3.yaml: the tag, which has a fixed value, and the data size of a sub chunk. *)
Definition rd_sub {A} (tag : Z) (r : reader A) : reader A :=
  rd t <- rd_int (FU LE 4);
  rd ok <- rd_guard (t =? tag);
  rd size <- rd_int (FU LE 4);
  r.

(** aul_tracev3.yaml tracev3_header_system_information_sub_chunk: unknown1, unknown2, build version,
    hardware model. *)
Definition rd_system (utf8 : bytes -> option str) : reader (str * str) :=
  rd u1 <- rd_int (FU LE 4);
  rd u2 <- rd_int (FU LE 4);
  rd build <- rd_text utf8 16;
  rd model <- rd_text utf8 32;
  rd_ret (build, model).

(** aul_tracev3.yaml tracev3_header_generation_sub_chunk: boot identifier, logd process identifier and
    exit status. *)
Definition rd_generation : reader bytes :=
  rd boot <- rd_bytes 16;
  rd pid <- rd_int (FU LE 4);
  rd status <- rd_int (FU LE 4);
  rd_ret boot.

(** aul_tracev3.yaml tracev3_header_chunk. *)
Definition rd_header (utf8 : bytes -> option str) : reader header :=
  rd num <- rd_int (FU LE 4);
  rd den <- rd_int (FU LE 4);
  rd start <- rd_int (FU LE 8);
  rd time <- rd_int (FS LE 4);
  rd u1 <- rd_int (FU LE 4);
  rd u2 <- rd_int (FU LE 4);
  rd zone <- rd_int (FS LE 4);
  rd dst <- rd_int (FU LE 4);
  rd flags <- rd_int (FU LE 4);
  rd continuous <- rd_sub 0x6100 (rd_int (FU LE 8));
  rd system <- rd_sub 0x6101 (rd_system utf8);
  rd boot <- rd_sub 0x6102 rd_generation;
  rd path <- rd_sub 0x6103 (rd_text utf8 48);
  rd_ret (mkhd num den start time flags continuous boot).

(** unified_logging.py:4597-4646 [_ReadHeaderChunk]. *)
Definition read_header (utf8 : bytes -> option str) (content : bytes) (off : Z) : result header :=
  do (h, _) <- rd_header utf8 content off;
  do _ <- guard (negb (Z.land (hd_flags h) 1 =? 0)) ParseError;
  Ok h.

(** ** Opening a file *)

(** What a file object keeps of a file: [_boot_identifier], the places, the clock, and the position of the
    file. *)
Record trace := mktrace { tr_place : place; tr_boot : bytes; tr_clock : clock; tr_tell : Z }.

(** The surroundings: [str.lower], UTF-8, the paths that exist, the files of a directory, and the positions
    that [file_object.seek] accepts. *)
Record world := mkworld {
  w_lower : str -> str; w_utf8 : bytes -> option str; w_there : str -> bool; w_list : str -> result (list (str * bytes)); w_seek : Z -> result unit }.

(** unified_logging.py:4919-5005 [TraceV3File.ReadFileObject], of a file object that has the places [p] and
    the clock [c] of the file that was opened before. [fuel] is for the timesync files, see
    [AulModel.read_records]. *)
Definition open_trace (fuel : nat) (w : world) (path : str) (content : bytes) (p : place) (c : clock) : run trace :=
  match (do p <- locate (w_lower w) (w_there w) path p;
         do ((tag, size), _) <- rd_chunk content 0;
         do h <- read_header (w_utf8 w) content 16;
         let tell := tv_align (16 + size) in
         do _ <- w_seek w tell;
         do tb <- fl_div (hd_num h) (hd_den h);
         do dir <- match pl_sync p with None => Ok None | Some d => do l <- w_list w d; Ok (Some l) end;
         Ok (p, h, tell, dir)) with
  | Err e => Done (Err e)
  | Ok (p, h, tell, dir) =>
      match open_clock fuel (w_lower w) (hd_time h) (hd_num h) (hd_den h) (hd_boot h) dir c with
      | OutOfFuel => OutOfFuel
      | Done (Err e) => Done (Err e)
      | Done (Ok c) => Done (Ok (mktrace p (hd_boot h) c tell))
      end
  end.

(** A new file object, unified_logging.py:2642, 2645. *)
Definition place_init : place := mkplace None None.

(** ** Log entries *)

(** The attributes of a log entry of a timesync record that are set, the others are None. *)
Record timed := mktimed {
  te_boot : bytes; te_message : str; te_event : str; te_mach : Z; te_parent : option Z; te_thread : Z; te_time : Z; te_trace : Z }.

(** unified_logging.py:5022-5033; [text] is [str] of a UUID and [upper] is [str.upper]. *)
Definition boot_entry (text : bytes -> str) (upper : str -> str) (boot : bytes) (b : boot_rec) : timed :=
  mktimed boot (s2z "=== system boot: "%string ++ upper (text boot)) (s2z "timesyncEvent"%string) 0 None 0 (bt_time b) 0.

(** unified_logging.py:5041-5053. *)
Definition sync_entry (boot : bytes) (r : sync_rec) : timed :=
  mktimed boot (s2z "=== system wallclock time adjusted"%string) (s2z "timesyncEvent"%string) (sy_kernel r) (Some 0) 0 (sy_time r) 0.

Definition time_entries (text : bytes -> str) (upper : str -> str) (t : trace) : list timed :=
  match ck_boot (tr_clock t) with Some b => [boot_entry text upper (tr_boot t) b] | None => [] end ++ map (sync_entry (tr_boot t)) (ck_sync (tr_clock t)).

(** unified_logging.py:5013-5090 [ReadLogEntries]: the log entries of the timesync records, then those of
    the chunks. *)
Definition log_entries {E S} (text : bytes -> str) (upper : str -> str) (lz4 : bytes -> Z -> result bytes) (calls : tv_calls E S) (content : bytes) (t : trace) (st : S)
    : gen (timed + E) (S * Z) :=
  match tv_entries lz4 calls content (tr_tell t) st with
  | None => None
  | Some (l, r) => Some (map inl (time_entries text upper t) ++ map inr l, r)
  end.

(** Model of the auxiliary files of Apple Unified Logging: shared-cache strings (DSC),
    uuidtext and timesync database files, and of the time conversion that uses them.

    Source: /repo/dtformats/unified_logging.py, layouts from /repo/dtformats/aul_dsc.yaml,
    aul_uuidtext.yaml and aul_timesync.yaml. Debug output is not modelled. *)

From Verif Require Import Base CoreModel VarModel GzipModel StrModel.

(** ** Strings in files *)

(** [cstring] of the YAML files: bytes up to the NUL, decoded as UTF-8; data that cannot be
    decoded is a MappingError, hence ParseError. unified_logging.py:2074-2096
    [_ReadImagePath], 2142-2164 and 5213-5235 [_ReadString], 5143-5168 [_ReadFileFooter]. *)
Definition read_string (utf8 : bytes -> option str) (content : bytes) (off : Z) : result str :=
  do (s, _) <- read_cstring content off;
  match utf8 s with Some t => Ok t | None => Err ParseError end.

(** ** DSC files *)

(** aul_dsc.yaml *)
Definition dsc_header := [FB 4; FU LE 2; FU LE 2; FU LE 4; FU LE 4].
Definition dsc_range_v1 := [FU LE 4; FU LE 4; FU LE 4; FU LE 4].
Definition dsc_range_v2 := [FU LE 8; FU LE 4; FU LE 4; FU LE 8].
Definition dsc_uuid_v1 := [FU LE 4; FU LE 4; FB 16; FU LE 4].
Definition dsc_uuid_v2 := [FU LE 8; FU LE 4; FB 16; FU LE 4].

(** unified_logging.py: [DSCUUID] and [DSCRange]; an image identifier is its 16 bytes. *)
Record dsc_uuid := mkdu { du_id : bytes; du_path : str; du_text_offset : Z; du_text_size : Z }.
Record dsc_desc := mkdd { dd_data_offset : Z; dd_range_offset : Z; dd_range_size : Z; dd_uuid_index : Z }.
Record dsc_range := mkdg { dg_desc : dsc_desc; dg_uuid : dsc_uuid }.

(** unified_logging.py:2032-2072 [_ReadFileHeader]: major version, number of ranges, number of UUIDs. *)
Definition read_dsc_header (content : bytes) : result (Z * Z * Z) :=
  do vs <- read_struct content dsc_header 0;
  match vs with
  | [VB sig; VI major; VI minor; VI nr; VI nu] =>
      do _ <- guard (list_eqb sig (s2z "hcsd")) ParseError;
      do _ <- guard ((minor =? 0) && ((major =? 1) || (major =? 2))) ParseError;
      Ok (major, nr, nu)
  | _ => Err ParseError
  end.

(** unified_logging.py:2098-2140 [_ReadRangeDescriptors]: one descriptor. *)
Definition read_dsc_range (content : bytes) (version off : Z) : result (dsc_desc * Z) :=
  if version =? 1 then
    do vs <- read_struct content dsc_range_v1 off;
    match vs with
    | [VI index; VI roff; VI doff; VI size] => Ok (mkdd doff roff size index, off + 16)
    | _ => Err ParseError
    end
  else
    do vs <- read_struct content dsc_range_v2 off;
    match vs with
    | [VI roff; VI doff; VI size; VI index] => Ok (mkdd doff roff size index, off + 24)
    | _ => Err ParseError
    end.

Fixpoint read_dsc_ranges (n : nat) (content : bytes) (version off : Z)
  : result (list dsc_desc * Z) :=
  match n with
  | O => Ok ([], off)
  | S k =>
      do (d, off1) <- read_dsc_range content version off;
      do (l, off2) <- read_dsc_ranges k content version off1;
      Ok (d :: l, off2)
  end.

(** unified_logging.py:2166-2213 [_ReadUUIDDescriptors]: one descriptor and its image path. *)
Definition read_dsc_uuid (utf8 : bytes -> option str) (content : bytes) (version off : Z)
  : result (dsc_uuid * Z) :=
  do vs <- read_struct content (if version =? 1 then dsc_uuid_v1 else dsc_uuid_v2) off;
  match vs with
  | [VI toff; VI tsize; VB id; VI poff] =>
      do path <- read_string utf8 content poff;
      Ok (mkdu id path toff tsize, off + (if version =? 1 then 28 else 32))
  | _ => Err ParseError
  end.

Fixpoint read_dsc_uuids (n : nat) (utf8 : bytes -> option str) (content : bytes) (version off : Z)
  : result (list dsc_uuid) :=
  match n with
  | O => Ok []
  | S k =>
      do (u, off1) <- read_dsc_uuid utf8 content version off;
      do l <- read_dsc_uuids k utf8 content version off1;
      Ok (u :: l)
  end.

(** unified_logging.py:2284-2290: every range gets the values of its UUID; [self.uuids[index]] raises
    IndexError. *)
Fixpoint resolve_ranges (uuids : list dsc_uuid) (l : list dsc_desc) : result (list dsc_range) :=
  match l with
  | [] => Ok []
  | d :: r =>
      do u <- pyindex uuids (dd_uuid_index d);
      do r' <- resolve_ranges uuids r;
      Ok (mkdg d u :: r')
  end.

(** unified_logging.py:2255-2290 [DSCFile.ReadFileObject]: [self.ranges]. *)
Definition read_dsc (utf8 : bytes -> option str) (content : bytes) : result (list dsc_range) :=
  do (version, nr, nu) <- read_dsc_header content;
  do (descs, off) <- read_dsc_ranges (Z.to_nat nr) content version 16;
  do uuids <- read_dsc_uuids (Z.to_nat nu) utf8 content version off;
  resolve_ranges uuids descs.

Record image_values := mkiv { iv_id : bytes; iv_path : str; iv_string : str; iv_text_offset : Z }.

(** unified_logging.py:2215-2253 [DSCFile.GetImageValues]. *)
Fixpoint get_image_values (utf8 : bytes -> option str) (content : bytes) (ranges : list dsc_range)
  (string_reference : Z) (is_dynamic : bool) : result (option image_values) :=
  match ranges with
  | [] => Ok None
  | g :: r =>
      let range_offset :=
        if is_dynamic then du_text_offset (dg_uuid g) else dd_range_offset (dg_desc g) in
      let range_size :=
        if is_dynamic then du_text_size (dg_uuid g) else dd_range_size (dg_desc g) in
      if string_reference <? range_offset
      then get_image_values utf8 content r string_reference is_dynamic
      else
        let relative_offset := string_reference - range_offset in
        if relative_offset <=? range_size then
          do s <- (if is_dynamic then Ok (s2z "%s")
                   else read_string utf8 content (dd_data_offset (dg_desc g) + relative_offset));
          Ok (Some (mkiv (du_id (dg_uuid g)) (du_path (dg_uuid g)) s (du_text_offset (dg_uuid g))))
        else get_image_values utf8 content r string_reference is_dynamic
  end.

(** ** uuidtext files *)

(** aul_uuidtext.yaml [uuidtext_file_header] without and with its entry descriptors. *)
Definition uuidtext_header := [FB 4; FU LE 4; FU LE 4; FU LE 4].
Definition uuidtext_entry := [FU LE 4; FU LE 4].
Definition uuidtext_ext (vs : list fval) : Z :=
  match vs with [_; _; _; VI n] => 8 * n | _ => 0 end.

(** Entry descriptors and the file offsets of their strings (unified_logging.py:5282-5287). *)
Record ut_entry := mkut { ut_file_offset : Z; ut_offset : Z; ut_size : Z }.

Fixpoint ut_entries (fuel : nat) (d : bytes) (file_offset : Z) : list ut_entry * Z :=
  match fuel with
  | O => ([], file_offset)
  | S k =>
      match map_struct uuidtext_entry d with
      | Some [VI off; VI size] =>
          let (l, e) := ut_entries k (zskipn 8 d) (file_offset + size) in
          (mkut file_offset off size :: l, e)
      | _ => ([], file_offset)
      end
  end.

(** unified_logging.py:5170-5211 [_ReadFileHeader] and 5264-5289 [UUIDTextFile.ReadFileObject]: the entries and
    the image path of the footer. A wrong signature is a MappingError. *)
Definition read_uuidtext (utf8 : bytes -> option str) (content : bytes)
  : result (list ut_entry * str) :=
  do (vs, d, size) <- read_var content uuidtext_header uuidtext_ext 0;
  match vs with
  | [VB sig; VI major; VI minor; VI n] =>
      do _ <- guard (list_eqb sig [153; 136; 119; 102]) ParseError;
      do _ <- guard ((major =? 2) && (minor =? 1)) ParseError;
      let (entries, footer) := ut_entries (Z.to_nat n) d size in
      do path <- read_string utf8 content footer;
      Ok (entries, path)
  | _ => Err ParseError
  end.

(** unified_logging.py:5237-5255 [UUIDTextFile.GetString]. *)
Fixpoint get_string (utf8 : bytes -> option str) (content : bytes) (entries : list ut_entry)
  (string_reference : Z) : result (option str) :=
  match entries with
  | [] => Ok None
  | e :: r =>
      if string_reference <? ut_offset e then get_string utf8 content r string_reference
      else
        let relative_offset := string_reference - ut_offset e in
        if relative_offset <=? ut_size e then
          do s <- read_string utf8 content (ut_file_offset e + relative_offset);
          Ok (Some s)
        else get_string utf8 content r string_reference
  end.

(** ** Timesync database files *)

(** aul_timesync.yaml *)
Definition boot_layout :=
  [FB 2; FU LE 2; FU LE 4; FB 16; FU LE 4; FU LE 4; FS LE 8; FS LE 4; FU LE 4].
Definition sync_layout := [FB 2; FU LE 2; FU LE 4; FU LE 8; FS LE 8; FS LE 4; FU LE 4].

Definition boot_signature : bytes := [176; 187].
Definition sync_signature : bytes := [84; 115].

(** The members that the code uses. *)
Record boot_rec := mkboot { bt_size : Z; bt_id : bytes; bt_num : Z; bt_den : Z; bt_time : Z }.
Record sync_rec := mksync { sy_size : Z; sy_kernel : Z; sy_time : Z }.
Inductive ts_rec := Boot (b : boot_rec) | Sync (s : sync_rec).

Definition rec_size (r : ts_rec) : Z := match r with Boot b => bt_size b | Sync s => sy_size s end.

(** unified_logging.py:2327-2368 [TimesyncDatabaseFile._ReadRecord]. *)
Definition read_record (content : bytes) (off : Z) : result ts_rec :=
  do (sig, _) <- read_data (Some (mkfile content 0)) off 2;
  if list_eqb sig boot_signature then
    do vs <- read_struct content boot_layout off;
    match vs with
    | [_; VI size; _; VB id; VI num; VI den; VI time; _; _] => Ok (Boot (mkboot size id num den time))
    | _ => Err ParseError
    end
  else if list_eqb sig sync_signature then
    do vs <- read_struct content sync_layout off;
    match vs with
    | [_; VI size; _; VI kernel; VI time; _; _] => Ok (Sync (mksync size kernel time))
    | _ => Err ParseError
    end
  else Err ParseError.

(** How a generator ends: normally, with an exception, or not within the fuel. *)
Inductive gen_end := GStop | GErr (e : exn) | GFuel.

(** unified_logging.py:2381-2397 [TimesyncDatabaseFile.ReadRecords]: the records it yields. *)
Fixpoint read_records (fuel : nat) (content : bytes) (file_offset : Z) : list ts_rec * gen_end :=
  match fuel with
  | O => ([], GFuel)
  | S k =>
      if file_offset <? len content then
        match read_record content file_offset with
        | Err e => ([], GErr e)
        | Ok r => let (l, g) := read_records k content (file_offset + rec_size r) in (r :: l, g)
        end
      else ([], GStop)
  end.

(** ** Floating-point arithmetic of the time conversion *)

(** Python floats are IEEE 754 binary64. All values here are non-negative and far from the
    limits of the exponent (numerators and denominators have 32 bits, times 65 bits), so a
    float is m * 2^e, without subnormal numbers and infinities. *)
Record fl := mkfl { fl_m : Z; fl_e : Z }.

(** The integer nearest to n / d, ties to even. *)
Definition round_even (n d : Z) : Z :=
  let k := n / d in
  let r := n mod d in
  if 2 * r <? d then k else if d <? 2 * r then k + 1 else if Z.even k then k else k + 1.

(** The binary64 number nearest to the rational p / q (p >= 0, q > 0). *)
Definition fl_round (p q : Z) : fl :=
  if p =? 0 then mkfl 0 0
  else
    let e0 := Z.log2 p - Z.log2 q in
    (* 2^e <= p/q < 2^(e+1) *)
    let e := if p * 2 ^ Z.max 0 (- e0) <? q * 2 ^ Z.max 0 e0 then e0 - 1 else e0 in
    let s := e - 52 in
    mkfl (round_even (p * 2 ^ Z.max 0 (- s)) (q * 2 ^ Z.max 0 s)) s.

(** Numerator and denominator of a float. *)
Definition fl_num (f : fl) : Z := fl_m f * 2 ^ Z.max 0 (fl_e f).
Definition fl_den (f : fl) : Z := 2 ^ Z.max 0 (- fl_e f).

(** Python [a / b] of integers, [x * f] of an integer and a float, and [int(f)]. *)
Definition fl_div (a b : Z) : result fl :=
  if b =? 0 then Err ZeroDivisionError else Ok (fl_round a b).
Definition fl_mul_int (x : Z) (f : fl) : fl :=
  let g := fl_round x 1 in fl_round (fl_num g * fl_num f) (fl_den g * fl_den f).
Definition fl_int (f : fl) : Z := fl_num f / fl_den f.

(** [int(continuous_time * timebase)]. *)
Definition scale (tb : fl) (x : Z) : Z := fl_int (fl_mul_int x tb).

(** ** The time conversion of a tracev3 file *)

(** The attributes of [TraceV3File] that are concerned (unified_logging.py:2622-2645). *)
Record clock := mkclock {
  ck_boot : option boot_rec;        (* _timesync_boot_record *)
  ck_sync : list sync_rec;          (* _timesync_sync_records *)
  ck_sorted : list sync_rec;        (* _sorted_timesync_sync_records *)
  ck_timebase : fl;                 (* _timesync_timebase *)
  ck_header_time : Z;               (* _header_timestamp *)
  ck_header_timebase : fl }.        (* _header_timebase *)

Definition fl_one : fl := fl_round 1 1.
Definition clock_init : clock := mkclock None [] [] fl_one 0 fl_one.

(** [sorted(records, key=kernel_time, reverse=True)]: descending and stable. *)
Fixpoint insert_desc (r : sync_rec) (l : list sync_rec) : list sync_rec :=
  match l with
  | [] => [r]
  | x :: t => if sy_kernel x <? sy_kernel r then r :: l else x :: insert_desc r t
  end.
Definition sort_desc (l : list sync_rec) : list sync_rec :=
  fold_left (fun acc r => insert_desc r acc) l [].

(** unified_logging.py:4880-4891: the loop over the records of one file. [run] because the generator may not
    end; an exception of the generator is raised only when the loop asks for the record. *)
Fixpoint collect (boot_id : bytes) (l : list ts_rec) (g : gen_end)
  (boot : option boot_rec) (sync : list sync_rec) : run (option boot_rec * list sync_rec) :=
  match l with
  | [] => match g with
          | GStop => Done (Ok (boot, sync))
          | GErr e => Done (Err e)
          | GFuel => OutOfFuel
          end
  | r :: t =>
      match boot, r with
      | Some _, Boot _ => Done (Ok (boot, sync))
      | Some _, Sync s => collect boot_id t g boot (sync ++ [s])
      | None, Boot b =>
          if list_eqb (bt_id b) boot_id then collect boot_id t g (Some b) sync
          else collect boot_id t g None sync
      | None, Sync _ => collect boot_id t g None sync
      end
  end.

(** unified_logging.py:4867-4891: the loop over the directory entries. [lower] is [str.lower]. *)
Definition ends_with (s suffix : str) : bool :=
  list_eqb (zskipn (len s - len suffix) s) suffix && (len suffix <=? len s).

Fixpoint collect_files (fuel : nat) (lower : str -> str) (boot_id : bytes)
  (dir : list (str * bytes)) (boot : option boot_rec) (sync : list sync_rec)
  : run (option boot_rec * list sync_rec) :=
  match dir with
  | [] => Done (Ok (boot, sync))
  | (name, content) :: t =>
      match boot with
      | Some _ => Done (Ok (boot, sync))
      | None =>
          if ends_with (lower name) (s2z ".timesync") then
            let (l, g) := read_records fuel content 0 in
            match collect boot_id l g boot sync with
            | Done (Ok (boot', sync')) => collect_files fuel lower boot_id t boot' sync'
            | Done (Err e) => Done (Err e)
            | OutOfFuel => OutOfFuel
            end
          else collect_files fuel lower boot_id t boot sync
      end
  end.

(** unified_logging.py:4855-4901 [_ReadTimesyncRecords]. [dir] is the content of the timesync directory, [None]
    when there is none. *)
Definition read_timesync (fuel : nat) (lower : str -> str) (boot_id : bytes)
  (dir : option (list (str * bytes))) (c : clock) : run clock :=
  match dir with
  | None => Done (Ok (mkclock None [] (ck_sorted c) (ck_timebase c) (ck_header_time c) (ck_header_timebase c)))
  | Some entries =>
      match collect_files fuel lower boot_id entries None [] with
      | OutOfFuel => OutOfFuel
      | Done (Err e) => Done (Err e)
      | Done (Ok (None, sync)) =>
          Done (Ok (mkclock None sync (ck_sorted c) (ck_timebase c) (ck_header_time c) (ck_header_timebase c)))
      | Done (Ok (Some b, sync)) =>
          Done (do tb <- fl_div (bt_num b) (bt_den b);
                Ok (mkclock (Some b) sync (sort_desc sync) tb (ck_header_time c) (ck_header_timebase c)))
      end
  end.

(** unified_logging.py:4990-4996 [TraceV3File.ReadFileObject]: the values of the header chunk, then the
    timesync records. *)
Definition open_clock (fuel : nat) (lower : str -> str) (header_time num den : Z) (boot_id : bytes)
  (dir : option (list (str * bytes))) (c : clock) : run clock :=
  match fl_div num den with
  | Err e => Done (Err e)
  | Ok tb =>
      read_timesync fuel lower boot_id dir
        (mkclock (ck_boot c) (ck_sync c) (ck_sorted c) (ck_timebase c) (header_time * 1000000000) tb)
  end.

(** unified_logging.py:3393-3406 [_GetTimesyncRecord]. *)
Fixpoint get_timesync_record (l : list sync_rec) (continuous_time : Z) : option sync_rec :=
  match l with
  | [] => None
  | r :: t => if sy_kernel r <=? continuous_time then Some r else get_timesync_record t continuous_time
  end.

(** unified_logging.py:3335-3371 [_GetTimestamp]. *)
Definition get_timestamp (c : clock) (continuous_time : Z) : Z :=
  match get_timesync_record (ck_sorted c) continuous_time with
  | Some r => sy_time r + scale (ck_timebase c) (continuous_time - sy_kernel r)
  | None =>
      match ck_boot c with
      | Some b => bt_time b + scale (ck_timebase c) continuous_time
      | None => ck_header_time c + scale (ck_header_timebase c) continuous_time
      end
  end.

(** ** Identifiers composed of several fields *)

(** unified_logging.py:3373-3391 [_GetTraceIdentifier]. *)
Definition trace_identifier (reference flags log_type record_type : Z) : Z :=
  let i := Z.shiftl reference 32 in
  let i := Z.lor i (Z.shiftl flags 16) in
  let i := Z.lor i (Z.shiftl log_type 8) in
  Z.lor i record_type.

(** Model of the time zone information file reader.

    Source: /repo/dtformats/tzif.py, /repo/dtformats/tzif.yaml. *)

From Verif Require Import Base CoreModel VarModel SeqModel.

(** tzif.yaml: tzif_file_header. *)
Definition tz_layout : list fkind := [FB 4; FU BE 1; FB 15] ++ repeat (FU BE 4) 6.

Record tz_header := mktzh {
  tz_version : Z; tz_utc : Z; tz_standard : Z; tz_leap : Z; tz_times : Z; tz_types : Z; tz_chars : Z }.

(** tzif.py:98-129 [_ReadFileHeader]; the header is always read at offset 0. The second value
    is the file position. *)
Definition tz_read_header (content : bytes) : result (tz_header * Z) :=
  do vs <- read_struct content tz_layout 0;
  match vs with
  | [VB sig; VI version; VB _; VI utc; VI std; VI leap; VI times; VI types; VI chars] =>
      do _ <- guard (list_eqb sig (s2z "TZif")) ParseError;
      do _ <- guard (existsb (Z.eqb version) [0; 50; 51]) ParseError;
      Ok (mktzh version utc std leap times types chars, 44)
  | _ => Err OtherError
  end.

(** tzif.py:295-334 [_ReadTransitionTimes32bit] ([w] = 4) and 336-375
    [_ReadTransitionTimes64bit] ([w] = 8), the transition times are what debug output shows. *)
Definition tz_read_times (w : nat) (content : bytes) (h : tz_header) (pos : Z) : result (list Z * Z) :=
  do (d, pos) <- read_next content pos (Z.of_nat w * tz_times h);
  do l <- as_parse_error (seq_bs (FS BE w) (tz_times h) d);
  Ok (l, pos).

(** tzif.py:190-229 [_ReadTransitionTimeIndex]. *)
Definition tz_read_index (content : bytes) (h : tz_header) (pos : Z) : result (list Z * Z) :=
  do (d, pos) <- read_next content pos (1 * tz_times h);
  do l <- as_parse_error (seq_bs (FU BE 1) (tz_times h) d);
  Ok (l, pos).

Record tz_table := mktzt { tt_times : list Z; tt_index : list Z }.

(** tzif.py:253-272 [_ReadTimeZoneInformation32bit] and 274-293
    [_ReadTimeZoneInformation64bit] with 131-188, 231-251 and 377-397: the header, the tables
    and the file position. *)
Definition tz_read_information (w : nat) (content : bytes) : result (tz_header * tz_table * Z) :=
  do (h, pos) <- tz_read_header content;
  do (times, pos) <- tz_read_times w content h pos;
  do (index, pos) <- tz_read_index content h pos;
  do (_, pos) <- read_next content pos (6 * tz_types h);
  do (_, pos) <- read_next content pos (tz_chars h);
  do (_, pos) <- read_next content pos (8 * tz_leap h);
  do (_, pos) <- read_next content pos (1 * tz_standard h);
  do (_, pos) <- read_next content pos (1 * tz_utc h);
  Ok (h, mktzt times index, pos).

(** What reading leaves in the object ([format_version]) and what debug output shows: the
    tables and the time zone string. *)
Record tz_file := mktzf {
  tf_version : Z; tf_table32 : tz_table; tf_table64 : option (tz_table * bytes) }.

(** tzif.py:399-416 [ReadFileObject]. *)
Definition read_tzif (content : bytes) : result tz_file :=
  do (h, t32, _) <- tz_read_information 4 content;
  if existsb (Z.eqb (tz_version h)) [50; 51] then
    do (_, t64, pos) <- tz_read_information 8 content;
    Ok (mktzf (tz_version h) t32 (Some (t64, zskipn pos content)))
  else Ok (mktzf (tz_version h) t32 None).

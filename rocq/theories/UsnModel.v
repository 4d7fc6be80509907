(** Model of the USN change journal reader.

    Source: /repo/dtformats/usn_journal.py, /repo/dtformats/usn_journal.yaml. The file was
    opened with [Open], which sets the file size. *)

From Verif Require Import Base CoreModel VarModel.

Record usn_record := mkusn {
  us_file : Z; us_parent : Z; us_sequence : Z; us_time : Z; us_reason : Z; us_source : Z; us_security : Z; us_attributes : Z;
  us_name_offset : Z; us_name : str; us_padding : bytes }.

(** usn_journal.yaml: usn_record_v2 up to the name. *)
Definition usn_layout : list fkind :=
  [FU LE 4; FU LE 2; FU LE 2; FU LE 8; FU LE 8; FU LE 8; FU LE 8; FU LE 4; FU LE 4; FU LE 4; FU LE 4; FU LE 2; FU LE 2].

Definition usn_ext (vs : list fval) : Z := match vs with VI size :: _ => size - 60 | _ => -1 end.

(** usn_journal.py:24-45 [_ReadRecordV2]: the record and its size. The versions are compared
    by dtFabric, the padding is what is left of the size after the name; a negative size and a
    name that cannot be decoded are MappingErrors. *)
Definition usn_read_record (utf16 : bytes -> option str) (content : bytes) (off : Z) : result (usn_record * Z) :=
  do (vs, d, n) <- read_var content usn_layout usn_ext off;
  match vs with
  | [VI _; VI major; VI minor; VI file; VI parent; VI sequence; VI time; VI reason; VI source; VI security; VI attributes; VI name_size; VI name_offset] =>
      do _ <- guard ((major =? 2) && (minor =? 0) && (name_size <=? len d)) ParseError;
      match utf16 (zfirstn name_size d) with
      | Some name =>
          Ok (mkusn file parent sequence time reason source security attributes name_offset name (zskipn name_size d), n)
      | None => Err ParseError
      end
  | _ => Err OtherError
  end.

(** The state of the loops: the position of the file, [file_offset] and [block_size]. *)
Record usn_state := mkust { ust_pos : Z; ust_offset : Z; ust_block : Z }.

(** usn_journal.py:73-83, the inner loop of [ReadRecords]: the yielded records and how the loop
    ends, [None] if the fuel is used up. *)
Fixpoint usn_block (fuel : nat) (utf16 : bytes -> option str) (content : bytes) (s : usn_state)
  : list usn_record * option (result usn_state) :=
  match fuel with
  | O => ([], None)
  | S k =>
      if ust_block s <=? 60 then ([], Some (Ok s))
      else
        let h := zfirstn 60 (zskipn (ust_pos s) content) in
        let pos := ust_pos s + len h in
        if list_eqb h (repeat 0 60) then ([], Some (Ok (mkust pos (ust_offset s) (ust_block s))))
        else if pos - 60 <? 0 then ([], Some (Err OSError))
        else match usn_read_record utf16 content (pos - 60) with
             | Err e => ([], Some (Err e))
             | Ok (r, n) =>
                 let (rs, end_) := usn_block k utf16 content (mkust (pos - 60 + n) (ust_offset s + n) (ust_block s - n)) in
                 (r :: rs, end_)
             end
  end.

(** usn_journal.py:70-85, the outer loop: the yielded records, and whether the generator ends or
    raises. *)
Fixpoint usn_blocks (fuel inner : nat) (utf16 : bytes -> option str) (content : bytes) (pos off : Z)
  : list usn_record * option (result unit) :=
  match fuel with
  | O => ([], None)
  | S k =>
      if len content <=? off then ([], Some (Ok tt))
      else match usn_block inner utf16 content (mkust pos off (Z.min 4096 (len content))) with
           | (rs, Some (Ok s)) =>
               let (rs', end_) := usn_blocks k inner utf16 content (ust_pos s) (ust_offset s + ust_block s) in
               (rs ++ rs', end_)
           | (rs, Some (Err e)) => (rs, Some (Err e))
           | (rs, None) => (rs, None)
           end
  end.

(** usn_journal.py:58-85 [ReadRecords]. *)
Definition usn_records (fuel inner : nat) (utf16 : bytes -> option str) (content : bytes)
  : list usn_record * option (result unit) :=
  usn_blocks fuel inner utf16 content 0 0.

(** Model of the Windows Restore Point change.log reader.

    Source: /repo/dtformats/rp_change_log.py, without debug output. *)

From Verif Require Import Base CoreModel VarModel SeqModel DictModel Utf16Model.

(** rp_change_log.py:10-28 [ChangeLogEntry]. *)
Record cl_entry := mkcl { cl_type : Z; cl_flags : Z; cl_attributes : Z; cl_sequence : Z; cl_process : str }.

Definition cl_signature : Z := 2882400018.

(** rp_change_log.yaml: rp_change_log_entry, 72 bytes. *)
Definition cl_layout : list fkind :=
  [FU LE 4; FU LE 4; FU LE 4; FU LE 4; FU LE 4; FU LE 4; FU LE 8; FB 32; FU LE 4; FU LE 4].

(** rp_change_log.py:268-290 and 345-369: the copy of the record size at the end of the data. *)
Definition cl_check_size (data : bytes) (size : Z) : result unit :=
  do vs <- as_parse_error (struct_bs [FU LE 4] (pyslice_from data (-4)));
  match vs with
  | [VI copy] => guard (size =? copy) ParseError
  | _ => Err OtherError
  end.

(** rp_change_log.py:371-446 [_ReadRecord]: the size of the record. The string of record types 4, 5
    and 9 is read, for other types another record header; neither is kept. *)
Definition cl_sub_record (data : bytes) (off : Z) : result Z :=
  do vs <- as_parse_error (struct_bs [FU LE 4; FU LE 4] (pyslice_from data off));
  match vs with
  | [VI size; VI type] =>
      let rest := pyslice_from data (off + 8) in
      do _ <-
        (if existsb (Z.eqb type) [4; 5; 9]
         then do _ <- utf16_cstr rest; Ok tt
         else do _ <- as_parse_error (struct_bs [FU LE 4; FU LE 4] rest); Ok tt);
      Ok size
  | _ => Err OtherError
  end.

(** rp_change_log.py:262-266: the loop over the sub records. *)
Fixpoint cl_sub_records (fuel : nat) (data : bytes) (off size : Z) : run unit :=
  if off <? size then
    match fuel with
    | O => OutOfFuel
    | S fuel =>
        match cl_sub_record data off with
        | Err e => Done (Err e)
        | Ok n => if n =? 0 then Done (Ok tt) else cl_sub_records fuel data (off + n) size
        end
    end
  else Done (Ok tt).

(** rp_change_log.py:181-297 [_ReadChangeLogEntry] at the file position [pos]: the entry and the
    file position behind it. *)
Definition cl_read_entry (fuel : nat) (content : bytes) (pos : Z) : run (cl_entry * Z) :=
  match read_struct content cl_layout pos with
  | Err e => Done (Err e)
  | Ok [VI size; VI type; VI signature; VI entry_type; VI flags; VI attributes; VI sequence; VB _; VI _; VI _] =>
      if negb (type =? 1) then Done (Err ParseError)
      else if negb (signature =? cl_signature) then Done (Err ParseError)
      else match read_here content (pos + 72) (size - 72) with
           | Err e => Done (Err e)
           | Ok data =>
               match utf16_cstr data with
               | Err e => Done (Err e)
               | Ok (name, n) =>
                   rdo _ <- cl_sub_records fuel data n (size - 72 - 4);
                   match cl_check_size data size with
                   | Err e => Done (Err e)
                   | Ok _ => Done (Ok (mkcl entry_type flags attributes sequence (pyslice_to name (-1)), pos + 72 + len data))
                   end
               end
           end
  | Ok _ => Done (Err OtherError)
  end.

(** rp_change_log.py:166-179 [_ReadChangeLogEntries]: the loop. *)
Fixpoint cl_entries (fuel inner : nat) (content : bytes) (pos : Z) : run (list cl_entry) :=
  if pos <? len content then
    match fuel with
    | O => OutOfFuel
    | S fuel =>
        rdo (e, pos) <- cl_read_entry inner content pos;
        rdo l <- cl_entries fuel inner content pos;
        Done (Ok (e :: l))
    end
  else Done (Ok []).

(** rp_change_log.py:448-481 [_ReadVolumePath]: the path, which is not kept. *)
Definition cl_volume_path (d : bytes) : result str :=
  do vs <- as_parse_error (struct_bs [FU LE 4; FU LE 4] d);
  match vs with
  | [VI size; VI type] =>
      let t := zfirstn (size - 8) (zskipn 8 d) in
      do _ <- guard (len t =? size - 8) ParseError;
      match utf16_decode t with
      | None => Err ParseError
      | Some path => do _ <- guard (type =? 2) ParseError; Ok path
      end
  | _ => Err OtherError
  end.

(** rp_change_log.py:299-369 [_ReadFileHeader]: the file position behind the header. *)
Definition cl_header (content : bytes) : result Z :=
  do vs <- read_struct content [FU LE 4; FU LE 4; FU LE 4; FU LE 4] 0;
  match vs with
  | [VI size; VI type; VI signature; VI version] =>
      do _ <- guard (signature =? cl_signature) ParseError;
      do _ <- guard (type =? 0) ParseError;
      do _ <- guard (version =? 2) ParseError;
      do data <- read_here content 16 (size - 16);
      do _ <- cl_volume_path (pyslice_to data (-4));
      do _ <- cl_check_size data size;
      Ok (16 + len data)
  | _ => Err OtherError
  end.

(** rp_change_log.py:483-493 [ReadFileObject]: the attributes [volume_path] and [entries]. *)
Definition read_cl (fuel : nat) (content : bytes) : run (option str * list cl_entry) :=
  match cl_header content with
  | Err e => Done (Err e)
  | Ok pos => rdo l <- cl_entries fuel fuel content pos; Done (Ok (None, l))
  end.

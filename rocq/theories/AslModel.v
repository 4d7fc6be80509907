(** Model of the Apple System Log (ASL) file reader.

    Source: /repo/dtformats/asl.py, /repo/dtformats/asl.yaml. The UTF-8 decoder is an argument. *)

From Verif Require Import Base CoreModel VarModel SeqModel StrModel DictModel.

(** asl.py:177-247 [_ReadRecordString] with a file position: the string and the position
    after it. *)
Definition asl_string (utf8 : bytes -> option str) (content : bytes) (pos off : Z) : result (option str * Z) :=
  if off =? 0 then Ok (None, pos)
  else if negb (Z.land off (Z.shiftl 1 63) =? 0) then
    do _ <- guard (Z.shiftr off 60 =? 8) ParseError;
    let size := Z.land (Z.shiftr off 56) 15 in
    do _ <- guard (size <? 8) ParseError;
    let data := map (fun i => Z.land (Z.shiftr off (8 * i)) 255) [6; 5; 4; 3; 2; 1; 0] in
    match utf8 (zfirstn size data) with
    | Some s => Ok (Some s, pos)
    | None => Err ParseError
    end
  else
    do (_, d, n) <- as_parse_error
      (read_var content [FU BE 2; FU BE 4] (fun vs => match vs with [_; VI n] => n | _ => 0 end) off);
    match utf8 d with
    | Some s => Ok (Some (rstrip 0 s), off + n)
    | None => Err ParseError
    end.

(** What debug output shows of a record: its strings and extra fields. *)
Record asl_rec := mkasl { as_host : option str; as_sender : option str; as_facility : option str; as_message : option str;
                          as_extra : sdict (option str) }.

(** asl.yaml: asl_record, 98 bytes. *)
Definition asl_layout : list fkind :=
  [FU BE 2; FU BE 4; FU BE 8; FU BE 8; FU BE 8; FU BE 4; FU BE 2; FU BE 2; FU BE 4; FS BE 4; FS BE 4; FS BE 4; FS BE 4;
   FU BE 8; FU BE 8; FU BE 8; FU BE 8; FU BE 8].

(** asl.py:113-127: the loop over the extra fields, with 145-175 [_ReadRecordExtraField]. *)
Fixpoint asl_fields (utf8 : bytes -> option str) (content : bytes) (n : nat) (d : bytes) (pos : Z) (extra : sdict (option str))
  : result (sdict (option str) * Z) :=
  match n with
  | O => Ok (extra, pos)
  | S n =>
      do vs <- as_parse_error (struct_bs [FU BE 8; FU BE 8] d);
      match vs with
      | [VI name_offset; VI value_offset] =>
          do (name, pos) <- asl_string utf8 content pos name_offset;
          do (value, pos) <- asl_string utf8 content pos value_offset;
          asl_fields utf8 content n (zskipn 16 d) pos
            (match name with Some s => sdict_set s value extra | None => extra end)
      | _ => Err OtherError
      end
  end.

(** The number of elements of [range(0, stop, 16)]. *)
Definition range16 (stop : Z) : nat := Z.to_nat ((stop + 15) / 16).

(** data_format.py:590-632 [_ReadData] of a size that can be negative. *)
Definition asl_read (content : bytes) (pos n : Z) : result (bytes * Z) :=
  do _ <- guard (-1 <=? n) ValueError; read_next content pos n.

(** asl.py:60-143 [_ReadRecord]: the record, the next record offset and the file position. *)
Definition asl_record (utf8 : bytes -> option str) (content : bytes) (pos off : Z) : result (asl_rec * Z * Z) :=
  do (_, pos) <- asl_read content pos (off - pos);
  do vs <- read_struct content asl_layout off;
  match vs with
  | [VI _; VI data_size; VI next; VI _; VI _; VI _; VI _; VI _; VI _; VI _; VI _; VI _; VI _; VI _;
     VI host; VI sender; VI facility; VI message] =>
      do (h, pos) <- asl_string utf8 content pos host;
      do (s, pos) <- asl_string utf8 content pos sender;
      do (f, pos) <- asl_string utf8 content pos facility;
      do (m, pos) <- asl_string utf8 content pos message;
      let additional := data_size + 6 - 98 in
      do _ <- guard (additional mod 8 =? 0) ParseError;
      do (d, pos) <- asl_read content (off + 98) additional;
      do (extra, pos) <- asl_fields utf8 content (range16 (additional - 8)) d pos [];
      Ok (mkasl h s f m extra, next, pos)
  | _ => Err OtherError
  end.

(** asl.py:261-266: the loop over the records. *)
Fixpoint asl_records (fuel : nat) (utf8 : bytes -> option str) (content : bytes) (pos off : Z) : run (list asl_rec) :=
  if off <? len content then
    match fuel with
    | O => OutOfFuel
    | S fuel =>
        match asl_record utf8 content pos off with
        | Err e => Done (Err e)
        | Ok (r, next, pos) =>
            if next =? 0 then Done (Ok [r])
            else rdo l <- asl_records fuel utf8 content pos next; Done (Ok (r :: l))
        end
    end
  else Done (Ok []).

(** asl.py:249-266 [ReadFileObject] with 37-58 [_ReadFileHeader]: the records. *)
Definition read_asl (fuel : nat) (utf8 : bytes -> option str) (content : bytes) : run (list asl_rec) :=
  match read_struct content [FB 12; FU BE 4; FU BE 8; FU BE 8; FU BE 4; FU BE 8; FB 36] 0 with
  | Err e => Done (Err e)
  | Ok [VB sig; VI _; VI first; VI _; VI _; VI _; VB _] =>
      if list_eqb sig (s2z "ASL DB" ++ [0; 0; 0; 0; 0; 0]) then
        if 0 <? first then asl_records fuel utf8 content 80 first else Done (Ok [])
      else Done (Err ParseError)
  | Ok _ => Done (Err OtherError)
  end.

(** Model of the reader of Mac OS login item alias data. *)

From Verif Require Import Base CoreModel StrModel TextModel SeqModel Utf16Model DictModel RdModel.
From Coq Require String.
Import String.StringSyntax.

(** alias_data.yaml alias_data_record_v2 and alias_data_record_v3. *)
Record alias_v2 := mkav2 {
  a2_type : Z; a2_volume : bytes; a2_volume_time : Z; a2_file_system : bytes; a2_disk : bytes; a2_parent : Z; a2_target : bytes;
  a2_target_id : Z; a2_target_time : Z }.
Record alias_v3 := mkav3 {
  a3_type : Z; a3_volume_time : Z; a3_file_system : bytes; a3_disk : Z; a3_parent : Z; a3_target_id : Z; a3_target_time : Z;
  a3_flags : Z; a3_unknown : bytes }.
Inductive alias_record := AliasV2 (r : alias_v2) | AliasV3 (r : alias_v3).

(** alias_data.py:55-82 [_ReadRecordHeader]: record size and format version. *)
Definition rd_alias_header : reader (Z * Z) :=
  rd info <- rd_bytes 4;
  rd size <- rd_int (FU BE 2);
  rd version <- rd_int (FU BE 2);
  rd _ <- rd_guard ((version =? 2) || (version =? 3));
  rd _ <- rd_guard (list_eqb info [0; 0; 0; 0]);
  rd_ret (size, version).

(** alias_data.py:84-108 [_ReadRecordV2]. *)
Definition rd_alias_v2 : reader alias_v2 :=
  rd type <- rd_int (FU BE 2);
  rd volume <- rd_bytes 28;
  rd vtime <- rd_int (FU BE 4);
  rd fs <- rd_bytes 2;
  rd disk <- rd_bytes 2;
  rd parent <- rd_int (FU BE 4);
  rd target <- rd_bytes 64;
  rd id <- rd_int (FU BE 4);
  rd ttime <- rd_int (FU BE 4);
  rd_ret (mkav2 type volume vtime fs disk parent target id ttime).

(** alias_data.py:110-134 [_ReadRecordV3]. *)
Definition rd_alias_v3 : reader alias_v3 :=
  rd type <- rd_int (FU BE 2);
  rd vtime <- rd_int (FU BE 8);
  rd fs <- rd_bytes 4;
  rd disk <- rd_int (FU BE 2);
  rd parent <- rd_int (FU BE 4);
  rd id <- rd_int (FU BE 4);
  rd ttime <- rd_int (FU BE 8);
  rd flags <- rd_int (FU BE 4);
  rd unknown <- rd_bytes 14;
  rd_ret (mkav3 type vtime fs disk parent id ttime flags unknown).

Inductive alias_value := AInts (l : list Z) | AText (s : str) | AData (d : bytes).

(** The 32-bit integers of a sequence with elements_data_size: as many as there are. *)
Fixpoint be_ints4 (d : bytes) : list Z :=
  match d with
  | a :: b :: c :: e :: r => be_int [a; b; c; e] :: be_ints4 r
  | _ => []
  end.

(** [bytes.decode("utf-16-be")]. *)
Fixpoint swap16 (d : bytes) : bytes :=
  match d with a :: b :: r => b :: a :: swap16 r | _ => d end.
Definition utf16be_decode (d : bytes) : option str := utf16_decode (swap16 d).

(** alias_data.yaml alias_data_tagged_value: the data of the base structure are mapped again with the
    structure of the tag. The string of a UTF-16 value can reach into the padding; what follows the
    string or the last integer is not looked at. *)
Definition alias_decode (utf8 : bytes -> option str) (tag : Z) (data pad : bytes) : option alias_value :=
  if tag =? 1 then Some (AInts (be_ints4 data))
  else if existsb (Z.eqb tag) [0; 2; 6; 0x12; 0x13] then option_map AText (utf8 data)
  else if existsb (Z.eqb tag) [0xe; 0xf] then
    match data ++ pad with
    | a :: b :: r => if 2 * be_int [a; b] <=? len r then option_map AText (utf16be_decode (zfirstn (2 * be_int [a; b]) r)) else None
    | _ => None
    end
  else Some (AData data).

(** alias_data.py:136-161 [_ReadTaggedValue]. The number of bytes read is that of the base structure. *)
Definition rd_alias_tagged (utf8 : bytes -> option str) : reader (Z * alias_value) :=
  rd tag <- rd_int (FU BE 2);
  rd size <- rd_int (FU BE 2);
  rd data <- rd_bytes size;
  rd pad <- rd_bytes (size mod 2);
  rd v <- rd_some (alias_decode utf8 tag data pad);
  rd_ret (tag, v).

(** alias_data.py:163-191 [ReadFileObject]: the record and the tagged values that are read. *)
Definition read_alias (fuel : nat) (utf8 : bytes -> option str) (content : bytes) : run (alias_record * list (Z * alias_value)) :=
  match rd_alias_header content 0 with
  | Err e => Done (Err e)
  | Ok ((size, version), _) =>
      if negb (size =? len content) then Done (Err ParseError)
      else
        rdo (r, off) <- Done (
          if version =? 2 then do (r, _) <- rd_alias_v2 content 8; Ok (AliasV2 r, 150)
          else do (r, _) <- rd_alias_v3 content 8; Ok (AliasV3 r, 58));
        rdo l <- rd_until fuel (rd_alias_tagged utf8) content off size;
        Done (Ok (r, l))
  end.

(** alias_data.py:34-53 [_FormatIntegerAsHFSTime64bit]; [hfs] is the text that dfDateTime gives for a
    number of seconds. *)
Definition hfs_time_text (hfs : Z -> option str) (v : Z) : str :=
  if v =? 0 then s2z "Not set (0)"%string
  else match hfs (v / 65536) with
       | Some ((_ :: _) as s) => s ++ s2z "."%string ++ fmt_int 10 3 (v mod 65536) ++ s2z " UTC"%string
       | _ => s2z "0x"%string ++ fmt_x 8 v
       end.

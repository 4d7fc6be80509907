(** Model of the reader of Windows Defender scan DetectionHistory files. *)

From Verif Require Import Base CoreModel StrModel TextModel SeqModel Utf16Model DictModel RdModel UuidModel JobModel.
From Coq Require String.
Import String.StringSyntax.

(** The object of a value; that of a GUID is given by its text. *)
Inductive dh_value := DInt (z : Z) | DTime (z : Z) | DText (s : str) | DGuid (s : str) | DData (d : bytes).

(** detection_history.yaml detection_history_value, detection_history.py:217-229: the data of the base
    structure are mapped again with the structure of the data type, which can require a data size; a
    type without structure is a MappingError. *)
Definition dh_decode (type : Z) (data : bytes) : option dh_value :=
  if (type =? 0) || (type =? 5) || (type =? 6) then if len data =? 4 then Some (DInt (le_int data)) else None
  else if type =? 8 then if len data =? 8 then Some (DInt (le_int data)) else None
  else if type =? 0xa then if len data =? 8 then Some (DTime (le_int data)) else None
  else if type =? 0x15 then option_map DText (wide_cut data)
  else if type =? 0x1e then if len data =? 16 then Some (DGuid (uuid_le_str data)) else None
  else if type =? 0x28 then Some (DData data)
  else None.

(** detection_history.py:192-231 [_ReadValue] *)
Definition rd_dh_value : reader dh_value :=
  rd size <- rd_int (FU LE 4);
  rd type <- rd_int (FU LE 4);
  rd data <- rd_bytes size;
  rd pad <- rd_bytes ((- size) mod 8);
  rd_some (dh_decode type data).

(** detection_history.py:233-249, the values that [ReadFileObject] reads. *)
Definition read_dh (fuel : nat) (content : bytes) : run (list dh_value) :=
  rd_until fuel rd_dh_value content 0 (len content).

Definition dh_magic : str := s2z "Magic.Version:1.2"%string.
Definition is_magic (v : dh_value) : bool := match v with DText s => list_eqb s dh_magic | _ => false end.

(** detection_history.py:251-273: the set and the index under which the values are shown. *)
Fixpoint dh_labels (set index : Z) (l : list dh_value) : list (Z * Z) :=
  match l with
  | [] => []
  | v :: l =>
      let set' := if is_magic v then if set <? 2 then set + 1 else set else set in
      let index' := if is_magic v then 0 else index in
      (set', index') :: dh_labels set' (index' + 1) l
  end.

(** Threat tracking values. *)
Inductive tt_value := TInt (z : Z) | TText (s : str) | TData (d : bytes).

(** detection_history.yaml threat_tracking_value, detection_history.py:160-190 [_ReadThreatTrackingValue] *)
Definition rd_tt_value : reader (str * tt_value) :=
  rd ksize <- rd_int (FU LE 4);
  rd kdata <- rd_bytes ksize;
  rd key <- rd_some (wide_cut kdata);
  rd type <- rd_int (FU LE 4);
  rd v <-
    (if type =? 5 then rd z <- rd_int (FU LE 1); rd_ret (TInt z)
     else if type =? 3 then rd z <- rd_int (FU LE 4); rd_ret (TInt z)
     else if type =? 4 then rd z <- rd_int (FU LE 8); rd_ret (TInt z)
     else if type =? 6 then rd size <- rd_int (FU LE 4); rd d <- rd_bytes size; rd s <- rd_some (wide_cut d); rd_ret (TText s)
     else if type =? 7 then rd d <- rd_bytes 5; rd_ret (TData d)
     else rd_some None);
  rd_ret (key, v).

(** The loop of [_ReadThreatTrackingData]; the slice behind the end of the data is empty, which is a
    ValueError. *)
Fixpoint tt_values (fuel : nat) (data : bytes) (pos stop : Z) : run (list (str * tt_value)) :=
  if pos <? stop then
    match fuel with
    | O => OutOfFuel
    | S fuel =>
        if len data <=? pos then Done (Err ValueError)
        else
          match rd_tt_value data pos with
          | Err e => Done (Err e)
          | Ok (v, pos) => rdo l <- tt_values fuel data pos stop; Done (Ok (v :: l))
          end
    end
  else Done (Ok []).

Definition rd_tt_header : reader (Z * Z) :=
  rd version <- rd_int (FU LE 4);
  rd header_size <- rd_int (FU LE 4);
  rd values_size <- rd_int (FU LE 4);
  rd total_size <- rd_int (FU LE 4);
  rd unknown2 <- rd_int (FU LE 4);
  rd_ret (header_size, total_size).

(** detection_history.py:91-131 [_ReadThreatTrackingData] and 133-158 [_ReadThreatTrackingHeader] *)
Definition read_tt (fuel : nat) (data : bytes) : run (list (str * tt_value)) :=
  match data with
  | [] => Done (Err ValueError)
  | _ =>
      rdo size <- Done (rd_data (rd_int (FU LE 4)) data);
      if negb (size =? 1) then tt_values fuel data 4 size
      else
        rdo h <- Done (rd_data rd_tt_header data);
        tt_values fuel data (fst h + 4) (snd h)
  end.

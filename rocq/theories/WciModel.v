(** Model of the instances of a WMI repository: the values of the properties of an object.

    [ansi] is [bytes.decode("cp1252")] as in WcdModel. Debug output and offsets that are only used in
    messages are not modelled. *)

From Verif Require Import Base CoreModel SeqModel StrModel DictModel Utf16Model GzipModel RdModel CatModel WcdModel WcmModel.

(** wmi_repository.yaml instance_block: what is used of it; [nbits] and [vsize] are
    property_state_bits_size and property_values_data_size of the context. *)
Record iblock := mkib { ib_name : Z; ib_values : bytes; ib_dyn : Z }.

Definition rd_iblock (nbits vsize : Z) : reader iblock :=
  rd name <- rd_int (FU LE 4);
  rd u1 <- rd_int (FU LE 1);
  rd bits <- rd_bytes nbits;
  rd values <- rd_bytes vsize;
  rd qsize <- rd_int (FU LE 4);
  rd quals <- rd_bytes (qsize - 4);
  rd dyn <- rd_int (FU LE 1);
  rd x <- rd_guard ((dyn =? 1) || (dyn =? 2));
  rd_ret (mkib name values dyn).

(** wmi_repository.py:3037-3040: 2 state bits per property. *)
Definition state_size (n : Z) : Z := n / 4 + (if 0 <? n mod 4 then 1 else 0).

(** wmi_repository.yaml instance_block_dynamic_type2_entry. *)
Definition rd_dyn_entry : reader bytes := rd size <- rd_int (FU LE 4); rd_bytes (size - 4).

(** wmi_repository.py:3099-3116: the loop over the entries of a dynamic block. *)
Fixpoint dyn_entries (n : nat) (data : bytes) (off : Z) : result Z :=
  match n with
  | O => Ok off
  | S n => do (d, size) <- rd_stream_size rd_dyn_entry (pyslice_from data off); dyn_entries n data (off + size)
  end.

(** wmi_repository.py:3052-3132: the instance block and the offset of the values data. *)
Definition instance_head (nbits vsize : Z) (data : bytes) : result (iblock * Z) :=
  do (b, off) <- rd_stream_size (rd_iblock nbits vsize) data;
  do off <- (if ib_dyn b =? 2 then
      do n <- rd_stream (rd_int (FU LE 4)) (pyslice_from data off); dyn_entries (Z.to_nat n) data (off + 4)
    else Ok off);
  do u <- rd_stream (rd_int (FU LE 4)) (pyslice_from data off);
  Ok (b, off + 4).

(** ** Values *)

Inductive pval := VNone | VBool (b : bool) | VNum (z : Z) | VStr (s : str) | VStrs (l : list str).

(** wmi_repository.yaml property_value_*: the types with a definition that are integers. *)
Definition value_kinds : list (str * fkind) :=
  [(s2z "uint8"%string, FU LE 1); (s2z "uint16"%string, FU LE 2); (s2z "sint32"%string, FS LE 4);
   (s2z "uint32"%string, FU LE 4); (s2z "uint64"%string, FU LE 8); (s2z "offset"%string, FU LE 4)].

(** wmi_repository.py:3154-3165: with no definition there is no data type map. *)
Definition fixed_value (qual : str) (data : bytes) : result pval :=
  if list_eqb qual (s2z "boolean"%string) then do b <- rd_stream rd_bool16 data; Ok (VBool b)
  else match sdict_get qual value_kinds with
    | Some k => do z <- rd_stream (rd_int k) data; Ok (VNum z)
    | None => Err ValueError
    end.

(** wmi_repository.yaml cim_string_array. *)
Definition rd_offsets : reader (list Z) :=
  rd n <- rd_int (FU LE 4);
  rd_times (Z.to_nat n) (rd_int (FU LE 4)).

Fixpoint strings (ansi : bytes -> option str) (values : bytes) (l : list Z) : result (list str) :=
  match l with
  | [] => Ok []
  | off :: l => do s <- cim_string ansi off values; do r <- strings ansi values l; Ok (s :: r)
  end.

(** wmi_repository.py:2969-2985. *)
Definition fixed_types : list Z := [0x2; 0x3; 0x4; 0x5; 0xb; 0x10; 0x11; 0x12; 0x13; 0x14; 0x15].
Definition string_types : list Z := [0x8; 0x65; 0x66].

(** wmi_repository.py:3145-3241: the value of a property; [pvals] are the property values data, [values]
    the values data. *)
Definition property_value (ansi : bytes -> option str) (pvals values : bytes) (m : pmap) : result pval :=
  let here := pyslice_from pvals (pm_offset m) in
  if existsb (Z.eqb (pm_type m)) fixed_types then fixed_value (pm_qual m) here
  else
    do off <- rd_stream (rd_int (FU LE 4)) here;
    if existsb (Z.eqb (pm_type m)) string_types then
      if 0 <? off then do s <- cim_string ansi off values; Ok (VStr s) else Ok VNone
    else if pm_type m =? 0x2008 then
      if 0 <? off then
        do l <- rd_stream rd_offsets (pyslice_from values off);
        do r <- strings ansi values l; Ok (VStrs r)
      else Ok VNone
    else Ok VNone.

(** wmi_repository.py:3142-3243: the loop over the properties. *)
Fixpoint property_values (ansi : bytes -> option str) (pvals values : bytes) (l : list pmap) (t : sdict pval) : result (sdict pval) :=
  match l with
  | [] => Ok t
  | m :: l =>
      do v <- property_value ansi pvals values m;
      property_values ansi pvals values l (sdict_set (pm_name m) v t)
  end.

(** wmi_repository.py:3019-3246 [ReadInstanceBlockData]: the class name and the properties. *)
Definition instance (ansi : bytes -> option str) (cm : cmap) (data : bytes) : result (str * sdict pval) :=
  do (b, off) <- instance_head (state_size (len (cm_props cm))) (cm_size cm) data;
  let values := pyslice_from data off in
  do name <- cim_string ansi (ib_name b) values;
  do t <- property_values ansi (ib_values b) values (map snd (cm_props cm)) [];
  Ok (name, t).

(** ** Object records *)

(** wmi_repository.yaml instance_object_record_v1 and instance_object_record_v2. *)
Definition rd_instance_record (hash_size : Z) : reader (str * bytes) :=
  rd h <- rd_bytes hash_size;
  rd hash <- rd_some (utf16_decode h);
  rd t1 <- rd_int (FU LE 8);
  rd t2 <- rd_int (FU LE 8);
  rd size <- rd_int (FU LE 4);
  rd data <- rd_bytes (size - 4);
  rd_ret (hash, data).

(** wmi_repository.py:2900-2932 [InstanceReference.ReadObjectRecord]; [old] is format version 2.1. *)
Definition instance_record (old : bool) (record : bytes) : result (str * bytes) :=
  rd_stream (rd_instance_record (if old then 64 else 128)) record.

(** wmi_repository.py:4050-4087 [_ReadInstanceFromObjectRecord] with the lookup of WcmModel: the class name
    is that of the class map. *)
Definition instance_of_record (fuel : nat) (ansi : bytes -> option str) (lower hash : str -> str) (defs : sdict cdef) (old : bool) (record : bytes)
  : run (cmap * sdict pval) :=
  rdo (h, data) <- Done (instance_record old record);
  rdo cm <- fresh_map fuel lower hash defs h;
  rdo (name, t) <- Done (instance ansi cm data);
  Done (Ok (cm, t)).

(** Model of the class definitions of a WMI repository.

    [ansi] is [bytes.decode("cp1252")], [None] is UnicodeDecodeError; [lower] is [str.lower]. Debug output
    and the methods of a class, which are not read, are not modelled. Offsets that are only used in error
    messages are left out. *)

From Verif Require Import Base CoreModel SeqModel StrModel DictModel Utf16Model GzipModel RdModel CatModel.

(** data_format.py:634-669 [_ReadStructureFromByteStream]. *)
Definition rd_stream {A} (r : reader A) (data : bytes) : result A :=
  do _ <- guard (negb (len data =? 0)) ValueError; rd_data r data.

(** As [rd_stream], with the size of the structure (byte_size of the context). *)
Definition rd_stream_size {A} (r : reader A) (data : bytes) : result (A * Z) :=
  do _ <- guard (negb (len data =? 0)) ValueError; r data 0.

(** wmi_repository.yaml cim_string: flags and a string with end-of-string character. *)
Definition rd_cim_string (ansi : bytes -> option str) : reader str :=
  rd flags <- rd_int (FU LE 1);
  rd_cstring ansi.

(** wmi_repository.py:2176-2205 [_ReadCIMString]. *)
Definition cim_string (ansi : bytes -> option str) (off : Z) (data : bytes) : result str :=
  rd_stream (rd_cim_string ansi) (pyslice_from data off).

(** ** Qualifiers *)

(** The value of a qualifier descriptor; the 4 or 8 bytes of a floating-point value are not decoded. *)
Inductive qraw := RBool (b : bool) | RInt (z : Z) | RFloat (d : bytes) | ROffset (z : Z).

Record qdesc := mkqd { qd_name : Z; qd_type : Z; qd_raw : qraw }.

Definition rd_rint (k : fkind) : reader qraw := rd z <- rd_int k; rd_ret (RInt z).
Definition rd_rfloat (n : Z) : reader qraw := rd d <- rd_bytes n; rd_ret (RFloat d).

(** wmi_repository.yaml bool16: other values than 0 and 0xffff are a MappingError. *)
Definition bool16 (z : Z) : option bool := if z =? 0 then Some false else if z =? 65535 then Some true else None.
Definition rd_bool16 : reader bool := rd z <- rd_int (FU LE 2); rd_some (bool16 z).

(** wmi_repository.yaml qualifier_descriptor_with_value_offset: the data types of its values. *)
Definition offset_types : list Z :=
  [0x8; 0x2002; 0x2003; 0x2004; 0x2005; 0x2008; 0x200b; 0x2010; 0x2011; 0x2012; 0x2013; 0x2014; 0x2015].

(** wmi_repository.yaml qualifier_descriptor: the structure depends on the data type. *)
Definition rd_raw (type : Z) : reader qraw :=
  if type =? 0x2 then rd_rint (FS LE 2)
  else if type =? 0x3 then rd_rint (FS LE 4)
  else if type =? 0x4 then rd_rfloat 4
  else if type =? 0x5 then rd_rfloat 8
  else if type =? 0xb then rd b <- rd_bool16; rd_ret (RBool b)
  else if type =? 0x10 then rd_rint (FS LE 1)
  else if type =? 0x11 then rd_rint (FU LE 1)
  else if type =? 0x12 then rd_rint (FU LE 2)
  else if type =? 0x13 then rd_rint (FU LE 4)
  else if type =? 0x14 then rd_rint (FS LE 8)
  else if type =? 0x15 then rd_rint (FU LE 8)
  else rd x <- rd_guard (existsb (Z.eqb type) offset_types); rd z <- rd_int (FU LE 4); rd_ret (ROffset z).

Definition rd_qdesc : reader qdesc :=
  rd name <- rd_int (FU LE 4);
  rd u1 <- rd_int (FU LE 1);
  rd type <- rd_int (FU LE 4);
  rd raw <- rd_raw type;
  rd_ret (mkqd name type raw).

(** wmi_repository.py:2276-2283 [_PREDEFINED_NAMES]. *)
Definition predefined_names : list (Z * str) :=
  [(1, s2z "key"%string); (3, s2z "read"%string); (4, s2z "write"%string); (6, s2z "provider"%string); (7, s2z "dynamic"%string); (10, s2z "type"%string)].

(** wmi_repository.py:2414-2453 [_ReadClassDefinitionPropertyName] and 2512-2552 [_ReadQualifierName]. *)
Definition name_at (ansi : bytes -> option str) (name_offset : Z) (values : bytes) : result str :=
  if negb (Z.land name_offset 0x80000000 =? 0) then
    let i := Z.land name_offset 0x7fffffff in
    Ok (match dict_get i predefined_names with Some s => s | None => s2z "UNKNOWN_"%string ++ fmt_d i end)
  else cim_string ansi name_offset values.

(** The value of a qualifier. *)
Inductive qval := QNone | QBool (b : bool) | QInt (z : Z) | QFloat (d : bytes) | QStr (s : str).

(** wmi_repository.py:2607-2652, the part of [_ReadQualifiers] that selects the value: the data types
    that are compared with names of cim_data_types. CIM-TYPE-UINT32 (0x13) is not one of them. The
    descriptor has the member of its data type. *)
Definition qualifier_value (ansi : bytes -> option str) (values : bytes) (q : qdesc) : result qval :=
  let type := qd_type q in
  if type =? 0xb then match qd_raw q with RBool b => Ok (QBool b) | _ => Err AttributeError end
  else if existsb (Z.eqb type) [0x2; 0x3; 0x10; 0x11; 0x12; 0x14; 0x15] then
    match qd_raw q with RInt z => Ok (QInt z) | _ => Err AttributeError end
  else if (type =? 0x4) || (type =? 0x5) then match qd_raw q with RFloat d => Ok (QFloat d) | _ => Err AttributeError end
  else if type =? 0x8 then
    match qd_raw q with ROffset z => do s <- cim_string ansi z values; Ok (QStr s) | _ => Err AttributeError end
  else Ok QNone.

(** wmi_repository.py:2553-2661 [_ReadQualifiers]; [off] is the offset in the data of the qualifiers. The
    fuel is not used up: every descriptor has at least 10 bytes. *)
Fixpoint qualifiers_loop (ansi : bytes -> option str) (lower : str -> str) (values data : bytes) (fuel : nat) (off : Z) (t : sdict qval)
  : result (sdict qval) :=
  if off <? len data then
    match fuel with
    | O => Err OtherError
    | S fuel =>
        do (q, n) <- rd_stream_size rd_qdesc (pyslice_from data off);
        do name <- name_at ansi (qd_name q) values;
        do v <- qualifier_value ansi values q;
        qualifiers_loop ansi lower values data fuel (off + n) (sdict_set (lower name) v t)
    end
  else Ok t.

Definition qualifiers (ansi : bytes -> option str) (lower : str -> str) (values data : bytes) : result (sdict qval) :=
  qualifiers_loop ansi lower values data (length data) 0 [].

(** ** Properties *)

(** wmi_repository.yaml property_definition, without the level. *)
Record pdef := mkpd { pd_type : Z; pd_index : Z; pd_offset : Z; pd_quals : bytes }.

Definition rd_pdef : reader pdef :=
  rd type <- rd_int (FU LE 4);
  rd index <- rd_int (FU LE 2);
  rd offset <- rd_int (FU LE 4);
  rd level <- rd_int (FU LE 4);
  rd size <- rd_int (FU LE 4);
  rd quals <- rd_bytes (size - 4);
  rd_ret (mkpd type index offset quals).

(** wmi_repository.py:16-35 [ClassDefinitionProperty]. *)
Record prop := mkprop { p_name : str; p_index : Z; p_offset : Z; p_type : Z; p_quals : sdict qval }.

(** wmi_repository.py:2485-2508, the loop of [_ReadClassDefinitionProperties]. *)
Fixpoint properties (ansi : bytes -> option str) (lower : str -> str) (values : bytes) (l : list (Z * Z)) (t : sdict prop) : result (sdict prop) :=
  match l with
  | [] => Ok t
  | (name_offset, definition_offset) :: l =>
      do name <- name_at ansi name_offset values;
      do p <- rd_stream rd_pdef (pyslice_from values definition_offset);
      do quals <- qualifiers ansi lower values (pd_quals p);
      properties ansi lower values l (sdict_set name (mkprop name (pd_index p) (pd_offset p) (pd_type p) quals) t)
  end.

(** ** Class definitions *)

(** wmi_repository.yaml class_definition_block, without the default values. *)
Record cblock := mkcb { cb_name : Z; cb_super : bytes; cb_quals : bytes; cb_descs : list (Z * Z); cb_values : bytes }.

Definition rd_pdesc : reader (Z * Z) :=
  rd name <- rd_int (FU LE 4);
  rd def <- rd_int (FU LE 4);
  rd_ret (name, def).

Definition rd_cblock : reader cblock :=
  rd u1 <- rd_int (FU LE 1);
  rd name <- rd_int (FU LE 4);
  rd dsize <- rd_int (FU LE 4);
  rd ssize <- rd_int (FU LE 4);
  rd super <- rd_bytes (ssize - 4);
  rd qsize <- rd_int (FU LE 4);
  rd quals <- rd_bytes (qsize - 4);
  rd n <- rd_int (FU LE 4);
  rd descs <- rd_times (Z.to_nat n) rd_pdesc;
  rd def <- rd_bytes dsize;
  rd vsize <- rd_int (FU LE 4);
  rd values <- rd_bytes (Z.land vsize 0x7ffffff);
  rd_ret (mkcb name super quals descs values).

(** wmi_repository.py:2208-2218 [ClassDefinition]. *)
Record cdef := mkcdef { c_name : str; c_super : option str; c_quals : sdict qval; c_props : sdict prop }.

(** wmi_repository.py:2705-2778 [ReadClassDefinitionBlock]. A block size of more than 4 is data that are
    not empty. *)
Definition class_block (ansi : bytes -> option str) (lower : str -> str) (data : bytes) : result cdef :=
  do b <- rd_stream rd_cblock data;
  do name <- cim_string ansi (cb_name b) (cb_values b);
  do super <- if 0 <? len (cb_super b) then do s <- cim_string ansi 0 (cb_super b); Ok (Some s) else Ok None;
  do quals <- if 0 <? len (cb_quals b) then qualifiers ansi lower (cb_values b) (cb_quals b) else Ok [];
  do props <- properties ansi lower (cb_values b) (cb_descs b) [];
  Ok (mkcdef name super quals props).

(** wmi_repository.yaml class_definition_object_record: the super class name and the block. *)
Definition rd_class_record : reader (str * bytes) :=
  rd n <- rd_int (FU LE 4);
  rd s <- rd_bytes (2 * n);
  rd name <- rd_some (utf16_decode s);
  rd time <- rd_int (FU LE 8);
  rd size <- rd_int (FU LE 4);
  rd data <- rd_bytes (size - 4);
  rd_ret (name, data).

(** wmi_repository.py:2832-2864 [ClassDefinitionReference.ReadObjectRecord] and its use in 4002-4009
    [_ReadClassDefinitionsFromObjectRecords]: the class definition of an object record. *)
Definition class_record (ansi : bytes -> option str) (lower : str -> str) (record : bytes) : result cdef :=
  do (name, data) <- rd_stream rd_class_record record;
  class_block ansi lower data.

(** wmi_repository.py:2697-2703 [IsAbstract]: the value of the qualifier. *)
Definition is_abstract (c : cdef) : qval :=
  match sdict_get (s2z "abstract"%string) (c_quals c) with Some v => v | None => QBool false end.

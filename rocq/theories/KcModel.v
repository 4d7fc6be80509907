(** Model of the MacOS keychain database file reader.

    Source: /repo/dtformats/keychain.py, /repo/dtformats/keychain.yaml. The debug output is not
    modelled. *)

From Verif Require Import Base CoreModel VarModel SeqModel StrModel CpioModel DictModel.

(** A column value. [KBlob b] stands for [repr(b)]. *)
Inductive kval := KNone | KInt (z : Z) | KStr (s : str) | KBlob (b : bytes).

(** A record: column names, which can be None, and values in insertion order. *)
Definition krow := list (option str * kval).

Definition oname_eqb (a b : option str) : bool :=
  match a, b with
  | None, None => true
  | Some x, Some y => list_eqb x y
  | _, _ => false
  end.

(** [record[name] = value]. *)
Fixpoint row_set (k : option str) (v : kval) (t : krow) : krow :=
  match t with
  | [] => [(k, v)]
  | (k', v') :: r => if oname_eqb k' k then (k, v) :: r else (k', v') :: row_set k v r
  end.

(** keychain.py:11-25 [KeychainDatabaseColumn]. *)
Record kcol := mkkcol { kc_type : kval; kc_id : kval; kc_name : option str }.

(** keychain.py:28-44 [KeychainDatabaseTable]. *)
Record ktable := mkktable { kt_id : Z; kt_name : str; kt_columns : list kcol; kt_records : list krow }.

Definition add_record (t : ktable) (r : krow) : ktable :=
  mkktable (kt_id t) (kt_name t) (kt_columns t) (kt_records t ++ [r]).
Definition add_column (t : ktable) (c : kcol) : ktable :=
  mkktable (kt_id t) (kt_name t) (kt_columns t ++ [c]) (kt_records t).

(** The data of an attribute value: keychain.py:226-227, 270-271, 314-315, 356-357. *)
Definition kc_slice (data : bytes) (data_offset value_offset : Z) : bytes :=
  pyslice_from data (value_offset - (data_offset + 1)).

(** keychain.yaml: the size and the stream of keychain_blob and keychain_string. *)
Definition kc_sized (d : bytes) : result bytes :=
  do vs <- struct_bs [FU BE 4] d;
  match vs with
  | [VI n] => let s := zfirstn n (zskipn 4 d) in
              if len s =? n then Ok s else Err ParseError
  | _ => Err OtherError
  end.

Definition is_ascii (b : bytes) : bool := forallb (fun c => (0 <=? c) && (c <? 128)) b.

(** keychain.py:280-320 [_ReadAttributeValueInteger]. *)
Definition kc_int (data : bytes) (data_offset value_offset : Z) : result kval :=
  if value_offset =? 0 then Ok KNone
  else do vs <- struct_bs [FU BE 4] (kc_slice data data_offset value_offset);
       match vs with [VI z] => Ok (KInt z) | _ => Err OtherError end.

(** keychain.py:322-364 [_ReadAttributeValueString]; data that is not ASCII is a MappingError. *)
Definition kc_string (data : bytes) (data_offset value_offset : Z) : result kval :=
  if value_offset =? 0 then Ok KNone
  else do s <- kc_sized (kc_slice data data_offset value_offset);
       do _ <- guard (is_ascii s) ParseError;
       Ok (KStr s).

(** keychain.py:236-278 [_ReadAttributeValueDateTime]. *)
Definition kc_date (data : bytes) (data_offset value_offset : Z) : result kval :=
  if value_offset =? 0 then Ok KNone
  else do vs <- struct_bs [FB 16] (kc_slice data data_offset value_offset);
       match vs with
       | [VB s] => do _ <- guard (is_ascii s) ParseError; Ok (KStr (rstrip 0 s))
       | _ => Err OtherError
       end.

(** keychain.py:192-234 [_ReadAttributeValueBinaryData]. *)
Definition kc_blob (data : bytes) (data_offset value_offset : Z) : result kval :=
  if value_offset =? 0 then Ok KNone
  else do b <- kc_sized (kc_slice data data_offset value_offset); Ok (KBlob b).

(** keychain.py:105-111 [_ATTRIBUTE_DATA_READ_FUNCTIONS] with keychain.py:465-482: without a
    read function the value is None. *)
Definition kc_value (data_type : kval) (data : bytes) (data_offset value_offset : Z) : result kval :=
  match data_type with
  | KInt 0 => kc_string data data_offset value_offset
  | KInt 1 => kc_int data data_offset value_offset
  | KInt 2 => kc_int data data_offset value_offset
  | KInt 5 => kc_date data data_offset value_offset
  | KInt 6 => kc_blob data data_offset value_offset
  | _ => Ok KNone
  end.

(** keychain.py:537-561 [_ReadRecordHeader]: the data size. *)
Definition kc_record_header (content : bytes) (off : Z) : result Z :=
  do vs <- read_struct content (repeat (FU BE 4) 6) off;
  match vs with
  | VI size :: _ => Ok size
  | _ => Err OtherError
  end.

(** keychain.py:488-535 [_ReadRecordAttributeValueOffset] at the file position. *)
Definition kc_offsets (content : bytes) (pos n : Z) : result (list Z) :=
  seq_bs (FU BE 4) n (zfirstn (n * 4) (zskipn pos content)).

(** keychain.py:441-484: the loop over the columns. *)
Fixpoint kc_values (columns : list kcol) (offsets : list Z) (data : bytes) (data_offset : Z) (row : krow) : result krow :=
  match columns, offsets with
  | [], _ => Ok row
  | c :: cs, o :: os =>
      do v <- kc_value (kc_type c) data data_offset o;
      kc_values cs os data data_offset (row_set (kc_name c) v row)
  | _ :: _, [] => Err IndexError
  end.

(** keychain.py:390-486 [_ReadRecord]. *)
Definition kc_read_record (content : bytes) (off record_type : Z) (tables : dict ktable) : result (dict ktable) :=
  match dict_get record_type tables with
  | None => Err ParseError
  | Some table =>
      do size <- kc_record_header content off;
      do row <-
        match kt_columns table with
        | [] => Ok []
        | columns =>
            do offsets <- kc_offsets content (off + 24) (len columns);
            let data_offset := 24 + 4 * len columns in
            do data <- read_here content (off + data_offset) (size - data_offset);
            kc_values columns offsets data data_offset []
        end;
      Ok (dict_set record_type (add_record table row) tables)
  end.

(** A column of the tables that describe the schema. *)
Definition kname (s : String.string) : option str := Some (s2z s).

(** keychain.py:563-711 [_ReadRecordSchemaAttributes]. Formatting None in the message at 681 is
    a TypeError. *)
Definition kc_read_attribute (content : bytes) (off : Z) (tables : dict ktable) : result (dict ktable) :=
  do size <- kc_record_header content off;
  do offsets <- kc_offsets content (off + 24) 6;
  match offsets with
  | [o0; o1; o2; o3; _; o5] =>
      do data <- read_here content (off + 48) (size - 48);
      do relation <- kc_int data 48 o0;
      do identifier <- kc_int data 48 o1;
      do format <- kc_int data 48 o2;
      do name <- kc_string data 48 o3;
      do data_type <- kc_int data 48 o5;
      match relation with
      | KInt rel =>
          match dict_get rel tables with
          | None => Err ParseError
          | Some table =>
              do name <-
                match name with
                | KStr s => Ok (Some s)
                | _ => if o1 =? 0 then Ok None
                       else do s <- decode_ascii (pyslice data (o1 - 49) (o1 - 49 + 4)); Ok (Some s)
                end;
              let tables := dict_set rel (add_column table (mkkcol data_type identifier name)) tables in
              match dict_get 2 tables with
              | None => Err ParseError
              | Some table2 =>
                  Ok (dict_set 2 (add_record table2
                        [(kname "RelationID", relation); (kname "AttributeID", identifier);
                         (kname "AttributeNameFormat", format);
                         (kname "AttributeName", match name with Some s => KStr s | None => KNone end);
                         (kname "AttributeFormat", data_type)]) tables)
              end
          end
      | _ => Err TypeError
      end
  | _ => Err OtherError
  end.

(** keychain.py:713-777 [_ReadRecordSchemaIndexes]. *)
Definition kc_read_index (content : bytes) (off : Z) (tables : dict ktable) : result (dict ktable) :=
  do _ <- kc_record_header content off;
  do offsets <- kc_offsets content (off + 24) 5;
  do _ <- guard (list_eqb offsets [45; 49; 53; 57; 61]) ParseError;
  do vs <- read_struct content (repeat (FU BE 4) 5) (off + 44);
  match vs with
  | [VI rel; VI index; VI attribute; VI kind; VI location] =>
      match dict_get rel tables, dict_get 1 tables with
      | Some _, Some table1 =>
          Ok (dict_set 1 (add_record table1
                [(kname "RelationID", KInt rel); (kname "IndexID", KInt index); (kname "AttributeID", KInt attribute);
                 (kname "IndexType", KInt kind); (kname "IndexedDataLocation", KInt location)]) tables)
      | _, _ => Err ParseError
      end
  | _ => Err OtherError
  end.

(** keychain.py:779-847 [_ReadRecordSchemaInformation]. *)
Definition kc_read_info (content : bytes) (off : Z) (tables : dict ktable) : result (dict ktable) :=
  do _ <- kc_record_header content off;
  do offsets <- kc_offsets content (off + 24) 2;
  do _ <- guard (list_eqb offsets [33; 37]) ParseError;
  do (vs, name, _) <- read_var content [FU BE 4; FU BE 4] (fun vs => match vs with [_; VI n] => n | _ => 0 end) (off + 32);
  match vs with
  | [VI rel; VI _] =>
      do name <- decode_ascii name;
      let tables := dict_set rel (mkktable rel name [] []) tables in
      match dict_get 0 tables with
      | None => Err ParseError
      | Some table0 =>
          Ok (dict_set 0 (add_record table0 [(kname "RelationID", KInt rel); (kname "RelationName", KStr name)]) tables)
      end
  | _ => Err OtherError
  end.

(** keychain.py:868-886: a record of a table. *)
Definition kc_read_any (content : bytes) (record_type off : Z) (tables : dict ktable) : result (dict ktable) :=
  match record_type with
  | 0 => kc_read_info content off tables
  | 1 => kc_read_index content off tables
  | 2 => kc_read_attribute content off tables
  | _ => kc_read_record content off record_type tables
  end.

(** keychain.py:864-886: the loop over the record offsets. *)
Fixpoint kc_read_records (content : bytes) (record_type table_offset : Z) (offsets : list Z) (tables : dict ktable)
  : result (dict ktable) :=
  match offsets with
  | [] => Ok tables
  | o :: r =>
      if o =? 0 then kc_read_records content record_type table_offset r tables
      else do tables <- kc_read_any content record_type (o + table_offset) tables;
           kc_read_records content record_type table_offset r tables
  end.

(** keychain.py:849-890 [_ReadTable] with 892-916 [_ReadTableHeader]. *)
Definition kc_read_table (content : bytes) (table_offset : Z) (tables : dict ktable) : result (dict ktable) :=
  do (vs, d, _) <- read_var content (repeat (FU BE 4) 7) (fun vs => match vs with [_; _; _; _; _; _; VI n] => 4 * n | _ => 0 end) table_offset;
  match vs with
  | [VI _; VI record_type; VI _; VI _; VI _; VI _; VI n] =>
      match map_struct (repeat (FU BE 4) (Z.to_nat n)) d with
      | Some l => kc_read_records content record_type table_offset (ints l) tables
      | None => Err ParseError
      end
  | _ => Err OtherError
  end.

(** keychain.py:940-949: the loop over the tables. *)
Fixpoint kc_read_tables (content : bytes) (array_offset : Z) (offsets : list Z) (tables : dict ktable) : result (dict ktable) :=
  match offsets with
  | [] => Ok tables
  | o :: r => do tables <- kc_read_table content (array_offset + o) tables; kc_read_tables content array_offset r tables
  end.

(** keychain.py:918-949 [_ReadTablesArray]. *)
Definition kc_read_array (content : bytes) (array_offset : Z) : result (dict ktable) :=
  do (vs, d, _) <- read_var content [FU BE 4; FU BE 4] (fun vs => match vs with [_; VI n] => 4 * n | _ => 0 end) array_offset;
  match vs with
  | [VI _; VI n] =>
      match map_struct (repeat (FU BE 4) (Z.to_nat n)) d with
      | Some l => kc_read_tables content array_offset (ints l) []
      | None => Err ParseError
      end
  | _ => Err OtherError
  end.

(** keychain.py:366-388 [_ReadFileHeader] and 951-965 [ReadFileObject]: the tables. *)
Definition read_keychain (content : bytes) : result (dict ktable) :=
  do vs <- read_struct content [FB 4; FU BE 2; FU BE 2; FU BE 4; FU BE 4; FU BE 4] 0;
  match vs with
  | [VB sig; VI _; VI _; VI _; VI array_offset; VI _] =>
      do _ <- guard (list_eqb sig (s2z "kych")) ParseError;
      kc_read_array content array_offset
  | _ => Err OtherError
  end.

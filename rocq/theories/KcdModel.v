(** Model of the reading of MacOS keychain database files with debug output.

    Source: /repo/dtformats/keychain.py, /repo/dtformats/keychain.debug.yaml and data_format.py (TextModel). Every
    function returns the text it prints with what it reads. Simplified: the text printed before a failure is dropped. *)

From Verif Require Import Base CoreModel VarModel SeqModel StrModel CpioModel DictModel TextModel KcModel.
From Coq Require String.
Import String.StringSyntax.

(** data_format.py:72-81 [_DebugPrintData]. *)
Definition print_data (description : str) (data : bytes) : str := description ++ [58; 10] ++ fst (format_hexdump data).

(** data_format.py:149-158 [_DebugPrintValue] of a string. *)
Definition print_line (description v : str) : str := description ++ alignment_string description ++ [58; 32] ++ v ++ [10].

(** The attributes of the debug definitions with built-in formats. *)
Definition at_dec (d : str) (n : Z) : dattr := mkattr (Some d) (Some (fun _ => CTuple (TextModel.DStr (fmt_d n)) false)) (Some (TextModel.DObj (fmt_d n))).
Definition at_hex8 (d : str) (n : Z) : dattr :=
  mkattr (Some d) (Some (fun _ => CTuple (TextModel.DStr (s2z "0x" ++ fmt_x 8 n)) false)) (Some (TextModel.DObj (fmt_d n))).
(** An attribute with a custom format, whose function returns a string. *)
Definition at_custom (d : str) (s : str) : dattr := mkattr (Some d) (Some (fun _ => CPlain (TextModel.DStr s))) (Some (TextModel.DObj s)).

(** [str(self._FormatIntegerAsHexadecimal8(integer))]: the text of a tuple. *)
Definition hex8_tuple (n : Z) : str := s2z "('0x" ++ fmt_x 8 n ++ s2z "', False)".

(** [for index, x in enumerate(l)] with lines that are joined. *)
Fixpoint enum_text (f : Z -> Z -> str) (i : Z) (l : list Z) : str :=
  match l with
  | [] => []
  | x :: l => f i x ++ enum_text f (i + 1) l
  end.

(** keychain.py:132-147 [_FormatRecordOffsets] and 175-190 [_FormatTableOffsets]. *)
Definition record_offsets_text (l : list Z) : str := enum_text (fun i o => print_line (s2z "Record offset: " ++ fmt_d i) (hex8_tuple o)) 0 l.
Definition table_offsets_text (l : list Z) : str := enum_text (fun i o => print_line (s2z "Table offset: " ++ fmt_d i) (hex8_tuple o)) 0 l.

(** keychain.py:149-161 [_FormatIntegerAsRecordValue]. *)
Definition record_value_text (v : kval) : str := match v with KInt n => hex8_tuple n | _ => s2z "NULL" end.

(** keychain.py:68-92 [_TABLE_NAMES]. *)
Definition table_names : list (Z * String.string) :=
  [(0, "CSSM_DL_DB_SCHEMA_INFO"); (1, "CSSM_DL_DB_SCHEMA_INDEXES"); (2, "CSSM_DL_DB_SCHEMA_ATTRIBUTES");
   (3, "CSSM_DL_DB_SCHEMA_PARSING_MODULE"); (10, "CSSM_DL_DB_RECORD_ANY"); (11, "CSSM_DL_DB_RECORD_CERT");
   (12, "CSSM_DL_DB_RECORD_CRL"); (13, "CSSM_DL_DB_RECORD_POLICY"); (14, "CSSM_DL_DB_RECORD_GENERIC");
   (15, "CSSM_DL_DB_RECORD_PUBLIC_KEY"); (16, "CSSM_DL_DB_RECORD_PRIVATE_KEY"); (17, "CSSM_DL_DB_RECORD_SYMMETRIC_KEY");
   (18, "CSSM_DL_DB_RECORD_ALL_KEYS"); (0x80000000, "CSSM_DL_DB_RECORD_GENERIC_PASSWORD");
   (0x80000001, "CSSM_DL_DB_RECORD_INTERNET_PASSWORD"); (0x80000002, "CSSM_DL_DB_RECORD_APPLESHARE_PASSWORD");
   (0x80000003, "CSSM_DL_DB_RECORD_USER_TRUST"); (0x80000004, "CSSM_DL_DB_RECORD_X509_CRL");
   (0x80000005, "CSSM_DL_DB_RECORD_UNLOCK_REFERRAL"); (0x80000006, "CSSM_DL_DB_RECORD_EXTENDED_ATTRIBUTE");
   (0x80001000, "CSSM_DL_DB_RECORD_X509_CERTIFICATE"); (0x80008000, "CSSM_DL_DB_RECORD_METADATA")]%string.

(** keychain.py:94-103 [_ATTRIBUTE_DATA_TYPES]. *)
Definition data_types : list (Z * String.string) :=
  [(0, "CSSM_DB_ATTRIBUTE_FORMAT_STRING"); (1, "CSSM_DB_ATTRIBUTE_FORMAT_SINT32"); (2, "CSSM_DB_ATTRIBUTE_FORMAT_UINT32");
   (3, "CSSM_DB_ATTRIBUTE_FORMAT_BIG_NUM"); (4, "CSSM_DB_ATTRIBUTE_FORMAT_REAL"); (5, "CSSM_DB_ATTRIBUTE_FORMAT_TIME_DATE");
   (6, "CSSM_DB_ATTRIBUTE_FORMAT_BLOB"); (7, "CSSM_DB_ATTRIBUTE_FORMAT_MULTI_UINT32"); (8, "CSSM_DB_ATTRIBUTE_FORMAT_COMPLEX")]%string.

(** [names.get(n, "UNKNOWN")] *)
Definition name_of (names : list (Z * String.string)) (n : Z) : str :=
  match find (fun p => fst p =? n) names with Some (_, s) => s2z s | None => s2z "UNKNOWN" end.

(** keychain.py:163-173 [_FormatIntegerAsRecordType]. *)
Definition record_type_text (n : Z) : str := s2z "0x" ++ fmt_x 8 n ++ s2z " (" ++ name_of table_names n ++ s2z ")".

(** keychain.py:648-657 and 680-689. *)
Definition data_type_text (v : kval) : str :=
  match v with KInt n => fmt_d n ++ s2z " (" ++ name_of data_types n ++ s2z ")" | _ => s2z "NULL" end.

(** keychain.py:537-561 [_ReadRecordHeader]: the data size and the key data size. *)
Definition kd_record_header (content : bytes) (off : Z) : result (str * (Z * Z)) :=
  do vs <- read_struct content (repeat (FU BE 4) 6) off;
  match vs with
  | [VI size; VI index; VI unknown2; VI unknown3; VI key_size; VI unknown4] =>
      do t <- format_structure
        [at_dec (s2z "Data size") size; at_dec (s2z "Record index") index; at_hex8 (s2z "Unknown2") unknown2;
         at_hex8 (s2z "Unknown3") unknown3; at_dec (s2z "Key data size") key_size; at_hex8 (s2z "Unknown4") unknown4];
      Ok (t, (size, key_size))
  | _ => Err OtherError
  end.

(** keychain.py:488-535 [_ReadRecordAttributeValueOffset]. *)
Definition kd_offsets (content : bytes) (pos n : Z) : result (str * list Z) :=
  let d := zfirstn (n * 4) (zskipn pos content) in
  do l <- seq_bs (FU BE 4) n d;
  Ok (print_data (s2z "Attribute value offsets data") d
      ++ enum_text (fun i o => print_line (s2z "Attribute value offset: " ++ fmt_d i) (hex8_tuple o)) 0 l ++ [10], l).

(** [sorted(l)] *)
Fixpoint sort_in (x : Z) (l : list Z) : list Z :=
  match l with
  | [] => [x]
  | y :: r => if x <=? y then x :: y :: r else y :: sort_in x r
  end.
Definition sorted (l : list Z) : list Z := fold_right sort_in [] l.

(** keychain.py:433-439 [data_offsets]. *)
Definition value_ends (offsets : list Z) (first size : Z) : list Z :=
  tl (map (fun o => o - first - 1) (filter (fun o => first <? o) (sorted offsets)) ++ [size - first]).

(** keychain.py:450-453: the list is not empty when its first element is used, or IndexError. *)
Fixpoint next_end (start : Z) (ends : list Z) : result (Z * list Z) :=
  match ends with
  | [] => Err IndexError
  | e :: r => if e <=? start then next_end start r else Ok (e, ends)
  end.

(** keychain.py:443-453: the start and end of a value, and the ends that are left. *)
Definition value_range (first o : Z) (ends : list Z) : result (Z * Z * list Z) :=
  if o =? 0 then Ok (0, 0, ends)
  else do (e, ends) <- next_end (o - first - 1) ends; Ok (o - first - 1, e, ends).

(** keychain.py:455-462 *)
Definition value_text (i : Z) (name : str) (d : bytes) : str :=
  print_data (s2z "Attribute value: " ++ fmt_d i ++ s2z " (" ++ name ++ s2z ") data") d.

(** keychain.py:441-484: the loop over the columns. Formatting None at 456 is a TypeError. *)
Fixpoint kd_values (i : Z) (columns : list kcol) (offsets ends : list Z) (data : bytes) (first : Z) (row : krow) : result (str * krow) :=
  match columns, offsets with
  | [], _ => Ok ([], row)
  | c :: cs, o :: os =>
      do (a, b, ends) <- value_range first o ends;
      match kc_name c with
      | None => Err TypeError
      | Some name =>
          do v <- kc_value (kc_type c) data first o;
          do (t, row) <- kd_values (i + 1) cs os ends data first (row_set (kc_name c) v row);
          Ok (value_text i name (pyslice data a b) ++ t, row)
      end
  | _ :: _, [] => Err IndexError
  end.

(** keychain.py:390-486 [_ReadRecord]: the tables and the file position at the end. *)
Definition kd_read_record (content : bytes) (off record_type : Z) (tables : dict ktable) : result (str * (dict ktable * Z)) :=
  match dict_get record_type tables with
  | None => Err ParseError
  | Some table =>
      do (t0, (size, key_size)) <- kd_record_header content off;
      do (t, (row, pos)) <-
        match kt_columns table with
        | [] => Ok ([], ([], off + 24))
        | columns =>
            do (t1, offsets) <- kd_offsets content (off + 24) (len columns);
            let first := 24 + 4 * len columns in
            do data <- read_here content (off + first) (size - first);
            let t2 := (if 0 <? key_size then print_data (s2z "Key data") (pyslice_to data key_size) else [])
                      ++ print_data (s2z "Attribute values data") (pyslice_from data key_size) in
            do (t3, row) <- kd_values 0 columns offsets (value_ends offsets first size) data first [];
            Ok (t1 ++ t2 ++ t3, (row, off + first + len data))
        end;
      Ok (t0 ++ t, (dict_set record_type (add_record table row) tables, pos))
  end.

(** keychain.py:563-711 [_ReadRecordSchemaAttributes]. *)
Definition kd_read_attribute (content : bytes) (off : Z) (tables : dict ktable) : result (str * (dict ktable * Z)) :=
  do (t0, (size, _)) <- kd_record_header content off;
  do (t1, offsets) <- kd_offsets content (off + 24) 6;
  match offsets with
  | [o0; o1; o2; o3; _; o5] =>
      do data <- read_here content (off + 48) (size - 48);
      do relation <- kc_int data 48 o0;
      do identifier <- kc_int data 48 o1;
      do format <- kc_int data 48 o2;
      do name <- kc_string data 48 o3;
      do data_type <- kc_int data 48 o5;
      let t2 := print_data (s2z "Attribute values data") data
                ++ print_line (s2z "Relation identifier") (match relation with KInt n => record_type_text n | _ => s2z "NULL" end)
                ++ print_line (s2z "Attribute identifier") (record_value_text identifier)
                ++ print_line (s2z "Attribute name data type") (data_type_text format)
                ++ print_line (s2z "Attribute name") (match name with KStr s => s | _ => s2z "NULL" end)
                ++ print_line (s2z "Attribute data type") (data_type_text data_type) ++ [10] in
      match relation with
      | KInt rel =>
          match dict_get rel tables with
          | None => Err ParseError
          | Some table =>
              do name <-
                match name with
                | KStr s => Ok (Some s)
                | _ => if o1 =? 0 then Ok None
                       else do s <- decode_ascii (pyslice data (o1 - 49) (o1 - 49 + 4)); Ok (Some s)
                end;
              let tables := dict_set rel (add_column table (mkkcol data_type identifier name)) tables in
              match dict_get 2 tables with
              | None => Err ParseError
              | Some table2 =>
                  Ok (t0 ++ t1 ++ t2, (dict_set 2 (add_record table2
                        [(kname "RelationID", relation); (kname "AttributeID", identifier);
                         (kname "AttributeNameFormat", format);
                         (kname "AttributeName", match name with Some s => KStr s | None => KNone end);
                         (kname "AttributeFormat", data_type)]) tables, off + 48 + len data))
              end
          end
      | _ => Err TypeError
      end
  | _ => Err OtherError
  end.

(** keychain.py:748-756 and 820-828: the data of a record behind its values, at the file position. *)
Definition kd_trailing (content : bytes) (off size pos : Z) : result (str * Z) :=
  let n := size - (pos - off) in
  if n =? 0 then Ok ([10], pos)
  else do d <- read_here content pos n; Ok (print_data (s2z "Record trailing data") d, pos + len d).

(** keychain.py:713-777 [_ReadRecordSchemaIndexes]. *)
Definition kd_read_index (content : bytes) (off : Z) (tables : dict ktable) : result (str * (dict ktable * Z)) :=
  do (t0, (size, _)) <- kd_record_header content off;
  do (t1, offsets) <- kd_offsets content (off + 24) 5;
  do _ <- guard (list_eqb offsets [45; 49; 53; 57; 61]) ParseError;
  do vs <- read_struct content (repeat (FU BE 4) 5) (off + 44);
  match vs with
  | [VI rel; VI index; VI attribute; VI kind; VI location] =>
      do t2 <- format_structure
        [at_hex8 (s2z "Relation identifier") rel; at_hex8 (s2z "Index identifier") index; at_hex8 (s2z "Attribute identifier") attribute;
         at_hex8 (s2z "Index type") kind; at_hex8 (s2z "Index data location") location];
      do (t3, pos) <- kd_trailing content off size (off + 64);
      match dict_get rel tables, dict_get 1 tables with
      | Some _, Some table1 =>
          Ok (t0 ++ t1 ++ t2 ++ t3, (dict_set 1 (add_record table1
                [(kname "RelationID", KInt rel); (kname "IndexID", KInt index); (kname "AttributeID", KInt attribute);
                 (kname "IndexType", KInt kind); (kname "IndexedDataLocation", KInt location)]) tables, pos))
      | _, _ => Err ParseError
      end
  | _ => Err OtherError
  end.

(** keychain.py:779-847 [_ReadRecordSchemaInformation]. *)
Definition kd_read_info (content : bytes) (off : Z) (tables : dict ktable) : result (str * (dict ktable * Z)) :=
  do (t0, (size, _)) <- kd_record_header content off;
  do (t1, offsets) <- kd_offsets content (off + 24) 2;
  do _ <- guard (list_eqb offsets [33; 37]) ParseError;
  do (vs, name, n) <- read_var content [FU BE 4; FU BE 4] (fun vs => match vs with [_; VI n] => n | _ => 0 end) (off + 32);
  match vs with
  | [VI rel; VI name_size] =>
      do name <- decode_ascii name;
      let t2 := print_line (s2z "Relation identifier") (s2z "0x" ++ fmt_x 8 rel) ++ print_line (s2z "Relation name size") (fmt_d name_size)
                ++ print_line (s2z "Relation name") name in
      do (t3, pos) <- kd_trailing content off size (off + 32 + n);
      let tables := dict_set rel (mkktable rel name [] []) tables in
      match dict_get 0 tables with
      | None => Err ParseError
      | Some table0 =>
          Ok (t0 ++ t1 ++ t2 ++ t3,
              (dict_set 0 (add_record table0 [(kname "RelationID", KInt rel); (kname "RelationName", KStr name)]) tables, pos))
      end
  | _ => Err OtherError
  end.

(** keychain.py:868-886: a record of a table. *)
Definition kd_read_any (content : bytes) (record_type off : Z) (tables : dict ktable) : result (str * (dict ktable * Z)) :=
  match record_type with
  | 0 => kd_read_info content off tables
  | 1 => kd_read_index content off tables
  | 2 => kd_read_attribute content off tables
  | _ => kd_read_record content off record_type tables
  end.

(** keychain.py:864-886: the loop over the record offsets; [pos] is the file position. *)
Fixpoint kd_read_records (content : bytes) (record_type table_offset : Z) (offsets : list Z) (tables : dict ktable) (pos : Z)
  : result (str * (dict ktable * Z)) :=
  match offsets with
  | [] => Ok ([], (tables, pos))
  | o :: r =>
      if o =? 0 then kd_read_records content record_type table_offset r tables pos
      else do (t, (tables, pos)) <- kd_read_any content record_type (o + table_offset) tables;
           do (t', x) <- kd_read_records content record_type table_offset r tables pos;
           Ok (t ++ t', x)
  end.

(** keychain.py:884-890: the data behind the last record that was read. *)
Definition kd_table_trailing (content : bytes) (off size pos : Z) : result str :=
  let n := size - (pos - off) in
  if n =? 0 then Ok [] else do d <- read_here content pos n; Ok (print_data (s2z "Table trailing data") d).

(** keychain.py:849-890 [_ReadTable] with 892-916 [_ReadTableHeader]. *)
Definition kd_read_table (content : bytes) (table_offset : Z) (tables : dict ktable) : result (str * dict ktable) :=
  do (vs, d, header_size) <- read_var content (repeat (FU BE 4) 7) (fun vs => match vs with [_; _; _; _; _; _; VI n] => 4 * n | _ => 0 end) table_offset;
  match vs with
  | [VI size; VI record_type; VI records; VI array; VI unknown1; VI unknown2; VI n] =>
      match map_struct (repeat (FU BE 4) (Z.to_nat n)) d with
      | Some l =>
          do t0 <- format_structure
            [at_dec (s2z "Data size") size; at_custom (s2z "Record type") (record_type_text record_type); at_dec (s2z "Number of records") records;
             at_hex8 (s2z "Record array offset") array; at_hex8 (s2z "Unknown1") unknown1; at_hex8 (s2z "Unknown2") unknown2;
             at_dec (s2z "Number of records offsets") n; at_custom (s2z "Records offsets") (record_offsets_text (ints l))];
          do (t1, (tables, pos)) <- kd_read_records content record_type table_offset (ints l) tables (table_offset + header_size);
          do t2 <- kd_table_trailing content table_offset size pos;
          Ok (t0 ++ t1 ++ t2, tables)
      | None => Err ParseError
      end
  | _ => Err OtherError
  end.

(** keychain.py:940-949: the loop over the tables. *)
Fixpoint kd_read_tables (content : bytes) (array_offset : Z) (offsets : list Z) (tables : dict ktable) : result (str * dict ktable) :=
  match offsets with
  | [] => Ok ([], tables)
  | o :: r =>
      do (t, tables) <- kd_read_table content (array_offset + o) tables;
      do (t', tables) <- kd_read_tables content array_offset r tables;
      Ok (t ++ t', tables)
  end.

(** keychain.py:918-949 [_ReadTablesArray]. *)
Definition kd_read_array (content : bytes) (array_offset : Z) : result (str * dict ktable) :=
  do (vs, d, _) <- read_var content [FU BE 4; FU BE 4] (fun vs => match vs with [_; VI n] => 4 * n | _ => 0 end) array_offset;
  match vs with
  | [VI size; VI n] =>
      match map_struct (repeat (FU BE 4) (Z.to_nat n)) d with
      | Some l =>
          do t0 <- format_structure
            [at_dec (s2z "Data size") size; at_dec (s2z "Number of tables") n; at_custom (s2z "Table offsets") (table_offsets_text (ints l))];
          do (t1, tables) <- kd_read_tables content array_offset (ints l) [];
          Ok (t0 ++ t1, tables)
      | None => Err ParseError
      end
  | _ => Err OtherError
  end.

(** keychain.py:366-388 [_ReadFileHeader] and 951-965 [ReadFileObject]. *)
Definition kd_read (content : bytes) : result (str * dict ktable) :=
  do vs <- read_struct content [FB 4; FU BE 2; FU BE 2; FU BE 4; FU BE 4; FU BE 4] 0;
  match vs with
  | [VB sig; VI major; VI minor; VI size; VI array_offset; VI unknown1] =>
      do _ <- guard (list_eqb sig (s2z "kych")) ParseError;
      do t0 <- format_structure
        [at_custom (s2z "Signature") (format_stream sig); at_dec (s2z "Major format version") major; at_dec (s2z "Minor format version") minor;
         at_dec (s2z "Data size") size; at_hex8 (s2z "Tables array offset") array_offset; at_hex8 (s2z "Unknown1") unknown1];
      do (t1, tables) <- kd_read_array content array_offset;
      Ok (t0 ++ t1, tables)
  | _ => Err OtherError
  end.

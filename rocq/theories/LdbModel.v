(** Model of the LevelDB and IndexedDB readers.

    Source: /repo/dtformats/leveldb.py, /repo/dtformats/indexeddb.py, layouts from
    /repo/dtformats/leveldb.yaml. Debug output is not modelled; what the readers decode is
    returned instead. *)

From Verif Require Import Base CoreModel VarModel StrModel.

(** ** Variable size integers: leveldb.py:79-105 [_ReadVariableSizeInteger] *)

Fixpoint varint_loop (data : bytes) (byte_value bit_shift integer_value bytes_read : Z) : Z * Z :=
  match data with
  | [] => (integer_value, bytes_read)
  | b :: r =>
      if Z.land byte_value 128 =? 0 then (integer_value, bytes_read)
      else
        let bit_shift := bit_shift + 7 in
        varint_loop r b bit_shift (Z.lor integer_value (Z.shiftl (Z.land b 127) bit_shift))
          (bytes_read + 1)
  end.

Definition read_varint (data : bytes) : result (Z * Z) :=
  match data with
  | [] => Err IndexError
  | b :: r => Ok (varint_loop r b 0 (Z.land b 127) 1)
  end.

(** leveldb.py:214-237 [_ReadRecordValueSlice]. *)
Definition read_slice (data : bytes) : result (bytes * Z) :=
  do (data_size, bytes_read) <- read_varint data;
  Ok (pyslice data bytes_read (bytes_read + data_size), bytes_read + data_size).

(** ** Write batches *)

Inductive logop :=
| Put (key value : bytes)
| Delete (key : bytes).

(** leveldb.py:165-186, the loop of [LevelDBDatabaseLogFile._ReadRecord]. *)
Fixpoint read_ops (fuel : nat) (data : bytes) (data_offset : Z) (acc : list logop)
  : run (list logop) :=
  if data_offset <? len data then
    match fuel with
    | O => OutOfFuel
    | S k =>
        match pyindex data data_offset with
        | Err e => Done (Err e)
        | Ok value_type =>
            let o1 := data_offset + 1 in
            if negb ((value_type =? 0) || (value_type =? 1)) then Done (Err ParseError)
            else match read_slice (pyslice_from data o1) with
                 | Err e => Done (Err e)
                 | Ok (key, n) =>
                     let o2 := o1 + n in
                     if value_type =? 1 then
                       match read_slice (pyslice_from data o2) with
                       | Err e => Done (Err e)
                       | Ok (value, m) => read_ops k data (o2 + m) (acc ++ [Put key value])
                       end
                     else read_ops k data o2 (acc ++ [Delete key])
                 end
        end
    end
  else Done (Ok acc).

(** leveldb.yaml: leveldb_log_value_header; leveldb.py:188-212 returns 12. *)
Definition log_value_header := [FU LE 8; FU LE 4].

(** leveldb.py:146-186 [LevelDBDatabaseLogFile._ReadRecord]: sequence number, number of
    values and the operations. *)
Definition read_log_record (fuel : nat) (data : bytes) : run (Z * Z * list logop) :=
  match struct_bs log_value_header data with
  | Err e => Done (Err e)
  | Ok [VI sequence_number; VI number_of_values] =>
      match read_ops fuel data 12 [] with
      | OutOfFuel => OutOfFuel
      | Done (Err e) => Done (Err e)
      | Done (Ok ops) => Done (Ok (sequence_number, number_of_values, ops))
      end
  | Ok _ => Done (Err OtherError)
  end.

(** ** Log files *)

(** leveldb.yaml: leveldb_log_block; leveldb.py:119-144 [_ReadBlock]: record type, record
    data and number of bytes read. *)
Definition log_block_header := [FU LE 4; FU LE 2; FU LE 1].
Definition log_block_ext (vs : list fval) : Z :=
  match vs with [_; VI n; _] => n | _ => 0 end.

Definition read_log_block (content : bytes) (off : Z) : result (Z * bytes * Z) :=
  do (vs, d, n) <- read_var content log_block_header log_block_ext off;
  match vs with
  | [_; _; VI t] => Ok (t, d, n)
  | _ => Err OtherError
  end.

Definition page_bytes : Z := 32768.

(** leveldb.py:239-271 [LevelDBDatabaseLogFile.ReadFileObject]; [rr] is [_ReadRecord] of the
    class (offset and data of the record), and the values it decodes are collected. *)
Fixpoint log_read {R} (fuel : nat) (rr : Z -> bytes -> run R) (content : bytes)
  (file_offset page_size : Z) (record_data : bytes) (record_offset : Z) (acc : list R)
  : run (list R) :=
  if file_offset <? len content then
    match fuel with
    | O => OutOfFuel
    | S k =>
        match read_log_block content file_offset with
        | Err e => Done (Err e)
        | Ok (record_type, data, bytes_read) =>
            let '(record_data, record_offset) :=
              if (record_type =? 1) || (record_type =? 2) then (data, file_offset)
              else if (record_type =? 3) || (record_type =? 4) then (record_data ++ data, record_offset)
              else (record_data, record_offset) in
            let next acc :=
              let file_offset := file_offset + bytes_read in
              let page_size := page_size - bytes_read in
              if page_size <=? 6
              then log_read k rr content (file_offset + page_size) page_bytes record_data record_offset acc
              else log_read k rr content file_offset page_size record_data record_offset acc in
            if (record_type =? 1) || (record_type =? 4) then
              match rr record_offset record_data with
              | OutOfFuel => OutOfFuel
              | Done (Err e) => Done (Err e)
              | Done (Ok r) => next (acc ++ [r])
              end
            else next acc
        end
    end
  else Done (Ok acc).

Definition read_log {R} (fuel : nat) (rr : Z -> bytes -> run R) (content : bytes) : run (list R) :=
  log_read fuel rr content 0 page_bytes [] 0 [].

(** ** Descriptors *)

Inductive dkind := KInt | KSlice | KString.
Inductive dvalue := DI (z : Z) | DB (b : bytes) | DS (s : str).

(** leveldb.py:318-387: the values behind each tag, in order. *)
Definition tag_values (tag : Z) : option (list dkind) :=
  if tag =? 1 then Some [KString]
  else if tag =? 2 then Some [KInt]
  else if tag =? 3 then Some [KInt]
  else if tag =? 4 then Some [KInt]
  else if tag =? 5 then Some [KInt; KSlice]
  else if tag =? 6 then Some [KInt; KInt]
  else if tag =? 7 then Some [KInt; KInt; KInt; KSlice; KSlice]
  else if tag =? 9 then Some [KInt]
  else None.

(** leveldb.py:391-410 [_ReadRecordValueInteger], 214-237 [_ReadRecordValueSlice] and 412-437
    [_ReadRecordValueString]; [utf8] is [bytes.decode("utf-8")]. *)
Definition read_dvalue (utf8 : bytes -> result str) (k : dkind) (data : bytes) : result (dvalue * Z) :=
  match k with
  | KInt => do (v, n) <- read_varint data; Ok (DI v, n)
  | KSlice => do (v, n) <- read_slice data; Ok (DB v, n)
  | KString =>
      do (data_size, bytes_read) <- read_varint data;
      do s <- utf8 (pyslice data bytes_read (bytes_read + data_size));
      Ok (DS s, bytes_read + data_size)
  end.

Fixpoint read_dvalues (utf8 : bytes -> result str) (ks : list dkind) (data : bytes)
  (data_offset : Z) : result (list dvalue * Z) :=
  match ks with
  | [] => Ok ([], data_offset)
  | k :: r =>
      do (v, n) <- read_dvalue utf8 k (pyslice_from data data_offset);
      do (vs, o) <- read_dvalues utf8 r data (data_offset + n);
      Ok (v :: vs, o)
  end.

(** leveldb.py:288-389 [LevelDBDatabaseDescriptorFile._ReadRecord]. *)
Fixpoint read_edits (fuel : nat) (utf8 : bytes -> result str) (data : bytes) (data_offset : Z)
  (acc : list (Z * list dvalue)) : run (list (Z * list dvalue)) :=
  if data_offset <? len data then
    match fuel with
    | O => OutOfFuel
    | S k =>
        match read_varint (pyslice_from data data_offset) with
        | Err e => Done (Err e)
        | Ok (tag, n) =>
            match tag_values tag with
            | None => Done (Err ParseError)
            | Some ks =>
                match read_dvalues utf8 ks data (data_offset + n) with
                | Err e => Done (Err e)
                | Ok (vs, o) => read_edits k utf8 data o (acc ++ [(tag, vs)])
                end
            end
        end
    end
  else Done (Ok acc).

Definition read_descriptor_record (fuel : nat) (utf8 : bytes -> result str) (data : bytes)
  : run (list (Z * list dvalue)) := read_edits fuel utf8 data 0 [].

(** ** Sorted tables *)

(** leveldb.py:36-58 [LevelDBDatabaseTableEntry]. *)
Record tentry := mkte { te_key : bytes; te_seq : Z; te_type : Z; te_value : bytes }.

(** leveldb.yaml: leveldb_table_block_trailer. *)
Definition block_trailer := [FU LE 1; FU LE 4].

(** leveldb.py:459-507 [LevelDBDatabaseTableFile._ReadBlock]; the two decompressors are
    arguments. *)
Definition read_block (snappy zstd : bytes -> result bytes) (content : bytes) (file_offset size : Z)
  : result bytes :=
  do block_data <- read_at content file_offset size;
  do _ <- guard (len block_data =? size) ParseError;
  do vs <- read_struct content block_trailer (file_offset + size);
  match vs with
  | [VI compression_type; _] =>
      if compression_type =? 0 then Ok block_data
      else if compression_type =? 1 then snappy block_data
      else if compression_type =? 2 then zstd block_data
      else Err ParseError
  | _ => Err OtherError
  end.

(** leveldb.py:509-536 [_ReadBlockHandle]: offset, size and number of bytes read. *)
Definition read_block_handle (data : bytes) : result (Z * Z * Z) :=
  do (block_offset, data_offset) <- read_varint data;
  do (block_size, bytes_read) <- read_varint (pyslice_from data data_offset);
  Ok (block_offset, block_size, data_offset + bytes_read).

(** leveldb.py:715-808, the loop of [_ReadTable]. The fuel is the number of iterations. *)
Fixpoint read_entries (fuel : nat) (td : bytes) (end_offset data_offset : Z) (shared_key_data : bytes)
  (acc : list tentry) : run (list tentry) :=
  if data_offset <? end_offset then
    match fuel with
    | O => OutOfFuel
    | S k =>
        match read_varint (pyslice_from td data_offset) with
        | Err e => Done (Err e)
        | Ok (shared, n1) =>
            let o1 := data_offset + n1 in
            match read_varint (pyslice_from td o1) with
            | Err e => Done (Err e)
            | Ok (non_shared, n2) =>
                let o2 := o1 + n2 in
                match read_varint (pyslice_from td o2) with
                | Err e => Done (Err e)
                | Ok (value_size, n3) =>
                    let o3 := o2 + n3 in
                    let key_end := o3 + non_shared in
                    let key_part := pyslice td o3 key_end in
                    let '(key_data, key_data_size) :=
                      if 0 <? shared
                      then (pyslice_to shared_key_data shared ++ key_part, non_shared + shared)
                      else (key_part, non_shared) in
                    if key_data_size <? 8 then Done (Err ParseError)
                    else match struct_bs [FU LE 8] (pyslice_from key_data (-8)) with
                         | Err e => Done (Err e)
                         | Ok [VI suffix] =>
                             let value_end := key_end + value_size in
                             let e := mkte (pyslice_to key_data (-8)) (Z.shiftr suffix 8)
                                        (Z.land suffix 255) (pyslice td key_end value_end) in
                             read_entries k td end_offset value_end key_data (acc ++ [e])
                         | Ok _ => Done (Err OtherError)
                         end
                end
            end
        end
    end
  else Done (Ok acc).

(** leveldb.py:645-714, [_ReadTable] behind reading the block: number of restart values,
    restart values (dtFabric sequence of that many uint32le: an error if there are fewer
    bytes), entries. *)
Definition read_table_data (fuel : nat) (td : bytes) : run (list tentry) :=
  match struct_bs [FU LE 4] (pyslice_from td (-4)) with
  | Err e => Done (Err e)
  | Ok [VI n] =>
      let end_offset := len td - 4 - 4 * n in
      if len (pyslice_from td end_offset) <? 4 * n then Done (Err ParseError)
      else read_entries fuel td end_offset 0 [] []
  | Ok _ => Done (Err OtherError)
  end.

Definition read_table (fuel : nat) (snappy zstd : bytes -> result bytes) (content : bytes)
  (file_offset size : Z) : run (list tentry) :=
  match read_block snappy zstd content file_offset size with
  | Err e => Done (Err e)
  | Ok td => read_table_data fuel td
  end.

(** leveldb.yaml: leveldb_table_footer; the value of the signature is checked by dtFabric. *)
Definition table_footer := [FB 40; FB 8].
Definition table_signature : bytes := [87; 251; 128; 139; 36; 117; 71; 219].

(** leveldb.py:559-597 [_ReadFileFooter]: metaindex and index block handles. *)
Definition read_footer (content : bytes) : result ((Z * Z) * (Z * Z)) :=
  do vs <- read_struct content table_footer (len content - 48);
  match vs with
  | [VB data; VB signature] =>
      do _ <- guard (list_eqb signature table_signature) ParseError;
      do (mo, ms, n) <- read_block_handle data;
      do (io, is, _) <- read_block_handle (pyslice_from data n);
      Ok ((mo, ms), (io, is))
  | _ => Err OtherError
  end.

(** leveldb.py:810-821 [ReadFileObject]: the index block handle that is kept; the metaindex
    block data is read (625-643). *)
Definition table_open (content : bytes) : result (Z * Z) :=
  do ((mo, ms), ix) <- read_footer content;
  do d <- read_at content mo ms;
  do _ <- guard (len d =? ms) ParseError;
  Ok ix.

(** leveldb.py:599-623 [_ReadIndexBlock] with 538-557 [_ReadDataBlock], and 823-835
    [ReadTableEntries]: generators, so entries are delivered until an error occurs. The
    result is the list of delivered entries and the error that ended the iteration. *)
Fixpoint read_data_blocks (fuel : nat) (snappy zstd : bytes -> result bytes) (content : bytes)
  (index : list tentry) : run (list tentry * option exn) :=
  match index with
  | [] => Done (Ok ([], None))
  | e :: r =>
      match read_block_handle (te_value e) with
      | Err x => Done (Ok ([], Some x))
      | Ok (o, s, _) =>
          match read_table fuel snappy zstd content o s with
          | OutOfFuel => OutOfFuel
          | Done (Err x) => Done (Ok ([], Some x))
          | Done (Ok es) =>
              match read_data_blocks fuel snappy zstd content r with
              | OutOfFuel => OutOfFuel
              | Done (Err x) => Done (Err x)
              | Done (Ok (es', x)) => Done (Ok (es ++ es', x))
              end
          end
      end
  end.

Definition read_table_entries (fuel : nat) (snappy zstd : bytes -> result bytes) (content : bytes)
  (index_handle : Z * Z) : run (list tentry * option exn) :=
  match read_table fuel snappy zstd content (fst index_handle) (snd index_handle) with
  | OutOfFuel => OutOfFuel
  | Done (Err x) => Done (Ok ([], Some x))
  | Done (Ok index) => read_data_blocks fuel snappy zstd content index
  end.

(** ** IndexedDB keys *)

(** indexeddb.py:50-69: one identifier of the key prefix. *)
Fixpoint read_id (n : nat) (data : bytes) (bytes_read bit_shift acc : Z) : result (Z * Z) :=
  match n with
  | O => Ok (acc, bytes_read)
  | S k =>
      do b <- pyindex data bytes_read;
      read_id k data (bytes_read + 1) (bit_shift + 8) (Z.lor acc (Z.shiftl b bit_shift))
  end.

(** indexeddb.py:35-73 [_ReadKeyPrefix]. *)
Definition read_key_prefix (data : bytes) : result (Z * Z * Z * Z) :=
  do b <- pyindex data 0;
  do (d, n) <- read_id (Z.to_nat (Z.shiftr b 5 + 1)) data 1 0 0;
  do (o, n) <- read_id (Z.to_nat (Z.shiftr (Z.land b 31) 2 + 1)) data n 0 0;
  do (i, n) <- read_id (Z.to_nat (Z.land b 3 + 1)) data n 0 0;
  Ok (d, o, i, n).

(** CPython [bytes.__repr__] without the leading b. *)
Definition repr_char (quote c : Z) : str :=
  if (c =? quote) || (c =? 92) then [92; c]
  else if c =? 9 then [92; 116]
  else if c =? 10 then [92; 110]
  else if c =? 13 then [92; 114]
  else if (c <? 32) || (127 <=? c) then [92; 120] ++ fmt_x 2 c
  else [c].

Definition bytes_repr (d : bytes) : str :=
  let quote := if has_char 39 d && negb (has_char 34 d) then 34 else 39 in
  [quote] ++ concat (map (repr_char quote) d) ++ [quote].

(** indexeddb.py:86-100: the key segments of an entry. *)
Definition key_segments (key : bytes) : result (list str) :=
  do (d, o, i, n) <- read_key_prefix key;
  let segments := [fmt_d d; fmt_d o; fmt_d i] in
  do (segments, n) <-
    (if (d =? 0) && (o =? 0) && (i =? 0) then
       do m <- pyindex key n;
       Ok (segments ++ [fmt_d m], n + 1)
     else Ok (segments, n));
  Ok (if n <? len key then segments ++ [bytes_repr (pyslice_from key n)] else segments).

(** indexeddb.py:75-107 [ReadEntries]: entries with key segments; a key that cannot be read
    ends the iteration. *)
Record ientry := mkie { ie_segments : list str; ie_seq : Z; ie_type : Z; ie_value : bytes }.

Fixpoint read_ientries (es : list tentry) (x : option exn) : list ientry * option exn :=
  match es with
  | [] => ([], x)
  | e :: r =>
      match key_segments (te_key e) with
      | Err y => ([], Some y)
      | Ok segs => let '(l, y) := read_ientries r x in
                   (mkie segs (te_seq e) (te_type e) (te_value e) :: l, y)
      end
  end.

(** Model of the Apple Spotlight store reader.

    Source: /repo/dtformats/spotlight_storedb.py, layouts from
    /repo/dtformats/spotlight_storedb.yaml.  Debug output is not modelled. UTF-8 decoding and
    the LZ4 and zlib decompressors are arguments. *)

From Verif Require Import Base CoreModel VarModel DictModel GzipModel.

(** ** Variable size integers *)

Definition vint_masks : list Z := [128; 192; 224; 240; 248; 252; 254; 255].

(** spotlight_storedb.py:1904-1911: number of additional bytes, and the mask at which the
    loop stopped. *)
Fixpoint vint_count (b : Z) (masks : list Z) : nat * Z :=
  match masks with
  | [] => (0%nat, 255)
  | m :: r => if negb (Z.land b m =? m) then (0%nat, m)
              else let (n, k) := vint_count b r in (S n, k)
  end.

(** spotlight_storedb.py:1918-1925. *)
Fixpoint vint_more (n : nat) (data : bytes) (bytes_read value : Z) : result (Z * Z) :=
  match n with
  | O => Ok (value, bytes_read)
  | S k => do b <- pyindex data bytes_read;
           vint_more k data (bytes_read + 1) (Z.shiftl value 8 + b)
  end.

(** spotlight_storedb.py:1894-1926 [_ReadVariableSizeInteger] (the same code is at 169-201):
    value and number of bytes read. *)
Definition read_vint (data : bytes) : result (Z * Z) :=
  do byte_value <- pyindex data 0;
  let (n, bitmask) := vint_count byte_value vint_masks in
  let byte_value := if Nat.ltb 4 n then 0
                    else if Nat.ltb 0 n then Z.land byte_value (Z.lxor bitmask 255)
                    else byte_value in
  vint_more n data 1 byte_value.

(** ** Streams maps *)

(** spotlight_storedb.yaml: spotlight_database_streams_map_header. *)
Definition streams_header_layout : list fkind := FB 8 :: repeat (FU LE 4) 12.

(** spotlight_storedb.py:273-299 [SpotlightStreamsMapHeaderFile.ReadFileObject]: data size and
    number of offsets. *)
Definition read_streams_header (content : bytes) : result (Z * Z) :=
  do vs <- read_struct content streams_header_layout 0;
  match vs with
  | [VB sig; VI _; VI _; VI _; VI data_size; VI _; VI number_of_offsets; VI _; VI _; VI _; VI _; VI _; VI _] =>
      do _ <- guard (list_eqb sig ([0] ++ s2z "PataD" ++ [0; 0])) ParseError;
      Ok (data_size, number_of_offsets)
  | _ => Err OtherError
  end.

(** dtFabric sequence of [n] unsigned 32-bit little-endian integers. *)
Fixpoint map_uint32s (n : nat) (d : bytes) : option (list Z) :=
  match n with
  | O => Some []
  | S k => if Nat.ltb (length d) 4 then None
           else match map_uint32s k (skipn 4 d) with
                | Some l => Some (le_int (firstn 4 d) :: l)
                | None => None
                end
  end.

(** spotlight_storedb.py:375-389, the loop behind the first offset. *)
Fixpoint ranges_from (last_offset : Z) (offsets : list Z) : list (Z * Z) * Z :=
  match offsets with
  | [] => ([], last_offset)
  | o :: r => let (l, e) := ranges_from o r in ((last_offset, o - last_offset) :: l, e)
  end.

(** spotlight_storedb.py:371-400: offset and size pairs. *)
Definition offset_ranges (data_size : Z) (offsets : list Z) : list (Z * Z) :=
  let (l, last_offset) := match offsets with [] => ([], 0) | o :: r => ranges_from o r end in
  l ++ (if last_offset =? 0 then [] else [(last_offset, data_size - last_offset)]).

(** spotlight_storedb.py:344-405 [SpotlightStreamsMapOffsetsFile.ReadFileObject]. *)
Definition read_streams_offsets (content : bytes) (data_size n : Z) : result (list (Z * Z)) :=
  match map_uint32s (Z.to_nat n) (zfirstn (n * 4) content) with
  | None => Err ParseError
  | Some offsets => Ok (offset_ranges data_size offsets)
  end.

(** spotlight_storedb.py:203-229 [SpotlightStreamsMapDataFile.ReadFileObject]. *)
Definition read_streams_data (content : bytes) (data_size : Z) (ranges : list (Z * Z)) : list bytes :=
  let data := zfirstn data_size content in
  map (fun r => pyslice data (fst r) (fst r + snd r)) ranges.

(** The files of one streams map: header, offsets and data. *)
Record streams_files := mksf { sf_header : bytes; sf_offsets : bytes; sf_data : bytes }.

(** spotlight_storedb.py:1836-1892 [_ReadStreamsMap]; a missing file is an OSError (one file
    system helper error for all three files). *)
Definition read_streams_map (f : option streams_files) : result (list bytes) :=
  match f with
  | None => Err OSError
  | Some f =>
      do h <- read_streams_header (sf_header f);
      let (data_size, n) := h in
      do ranges <- read_streams_offsets (sf_offsets f) data_size n;
      Ok (read_streams_data (sf_data f) data_size ranges)
  end.

(** ** LZ4 pages *)

(** [lz4.block.decompress(data, uncompressed_size, dict)]. *)
Definition lz4_fun := option bytes -> Z -> bytes -> result bytes.

Definition lz4_header_layout : list fkind := [FB 4; FU LE 4; FU LE 4].

(** spotlight_storedb.py:577-629 [_DecompressLZ4Block]: uncompressed data, bytes read. *)
Definition lz4_block (lz4 : lz4_fun) (compressed_data : bytes) (previous : option bytes)
  : result (bytes * Z) :=
  match map_struct lz4_header_layout compressed_data with
  | Some [VB sig; VI usize; VI csize] =>
      if list_eqb sig (s2z "bv41") then
        do d <- lz4 previous usize (pyslice compressed_data 12 (12 + csize));
        Ok (d, 12 + csize)
      else if list_eqb sig (s2z "bv4-") then
        Ok (pyslice compressed_data 8 (8 + usize), 8 + usize)
      else Err ParseError
  | _ => Err ParseError
  end.

(** spotlight_storedb.py:631-677 [_DecompressLZ4PageData]; [marker] is the last block marker,
    [None] before the first iteration. *)
Fixpoint lz4_page_loop (fuel : nat) (lz4 : lz4_fun) (data : bytes) (off : Z) (last : option bytes)
  (marker : option bytes) (acc : list bytes) : run bytes :=
  match fuel with
  | O => OutOfFuel
  | S k =>
      let finish m :=
        match m with
        | None => Done (Err UnboundLocalError)
        | Some m => if negb (list_eqb m (s2z "bv4$")) then Done (Err ParseError) else Done (Ok (concat acc))
        end in
      if off <? len data then
        let m := pyslice data off (off + 4) in
        if list_eqb m (s2z "bv4$") then finish (Some m)
        else match lz4_block lz4 (pyslice_from data off) last with
             | Err e => Done (Err e)
             | Ok (u, n) => lz4_page_loop k lz4 data (off + n) (Some u) (Some m) (acc ++ [u])
             end
      else finish marker
  end.

Definition lz4_page (fuel : nat) (lz4 : lz4_fun) (data : bytes) : run bytes :=
  lz4_page_loop fuel lz4 data 0 None None [].

(** ** Pages *)

(** spotlight_storedb.yaml: spotlight_store_db_property_page_header. *)
Definition page_header_layout : list fkind := [FB 4; FU LE 4; FU LE 4; FU LE 4; FU LE 4].

Record page_header := mkph { ph_size : Z; ph_used : Z; ph_type : Z; ph_uncompressed : Z }.

(** spotlight_storedb.py:1528-1561 [_ReadPropertyPageHeader]. *)
Definition read_page_header (content : bytes) (off : Z) : result page_header :=
  do vs <- read_struct content page_header_layout off;
  match vs with
  | [VB sig; VI size; VI used; VI type; VI unc] =>
      do _ <- guard (list_eqb sig (s2z "2pbd")) ParseError;
      Ok (mkph size used type unc)
  | _ => Err OtherError
  end.

(** ** Record pages *)

(** spotlight_storedb.py:1714-1765 [_ReadRecordPage]: the page data. *)
Definition read_record_page (fuel : nat) (lz4 : lz4_fun) (zlib : bytes -> result bytes)
  (content : bytes) (off : Z) : run bytes :=
  match read_page_header content off with
  | Err e => Done (Err e)
  | Ok h =>
      if negb (existsb (Z.eqb (ph_type h)) [9; 4105; 16393; 20489]) then Done (Err ParseError)
      else
        match read_here content (off + 20) (ph_size h - 20) with
        | Err e => Done (Err e)
        | Ok page_data =>
        if 0 <? ph_uncompressed h then
          let m := pyslice page_data 0 4 in
          if negb (Z.land (ph_type h) 4096 =? 0) && (list_eqb m (s2z "bv41") || list_eqb m (s2z "bv4-"))
          then lz4_page fuel lz4 page_data
          else match pyindex page_data 0 with
               | Err e => Done (Err e)
               | Ok b => if b =? 120 then Done (zlib page_data) else Done (Err ParseError)
               end
        else Done (Ok page_data)
        end
  end.

Record rec_header := mkrh {
  rh_size : Z; rh_id : Z; rh_flags : Z; rh_item : Z; rh_parent : Z; rh_time : Z }.

(** spotlight_storedb.py:1658-1712 [_ReadRecordHeader] with 1928-1951
    [_ReadVariableSizeIntegers]: header and number of bytes read. *)
Definition read_record_header (data : bytes) : result (rec_header * Z) :=
  match map_struct [FU LE 4] data with
  | Some [VI data_size] =>
      do (id, n1) <- read_vint (pyslice_from data 4);
      let o := 4 + n1 in
      do flags <- pyindex data o;
      let rest := pyslice_from data (o + 1) in
      do (item, n2) <- read_vint (pyslice_from rest 0);
      do (parent, n3) <- read_vint (pyslice_from rest n2);
      do (time, n4) <- read_vint (pyslice_from rest (n2 + n3));
      Ok (mkrh data_size id flags item parent time, o + 1 + (n2 + n3 + n4))
  | _ => Err ParseError
  end.

(** Record descriptors: page offset, page value offset and the values of the header. *)
Record rec_desc := mkrd {
  rd_page : Z; rd_offset : Z; rd_id : Z; rd_item : Z; rd_parent : Z; rd_time : Z }.

(** spotlight_storedb.py:1767-1834 [_ReadRecordPageValues]. *)
Fixpoint read_records (fuel : nat) (page_data : bytes) (page_offset off : Z) (t : dict rec_desc)
  : run (dict rec_desc) :=
  match fuel with
  | O => OutOfFuel
  | S k =>
      if off <? len page_data then
        match read_record_header (pyslice_from page_data off) with
        | Err e => Done (Err e)
        | Ok (h, _) =>
            let d := mkrd page_offset (off + 20) (rh_id h) (rh_item h) (rh_parent h) (rh_time h) in
            read_records k page_data page_offset (off + (4 + rh_size h)) (dict_set (rh_id h) d t)
        end
      else Done (Ok t)
  end.

(** ** Property tables *)

(** Property values: metadata attribute types (value type, property type, key name), metadata
    attribute values, lists of values. *)
Inductive prop :=
| PType (value_type property_type : Z) (key : str)
| PValue (name : str)
| PList (values : list str).

(** [getattr(x, "value_name", default)], [getattr(x, "values_list", [])]. *)
Definition value_name (p : option prop) (default : str) : str :=
  match p with Some (PValue n) => n | _ => default end.
Definition values_list (p : option prop) : list str :=
  match p with Some (PList l) => l | _ => [] end.

(** dtFabric structure of fixed-size members and a NUL-terminated UTF-8 string: the members,
    the string and the size. *)
Definition map_struct_cstring (utf8 : bytes -> option str) (ks : list fkind) (d : bytes)
  : result (list fval * str * Z) :=
  match map_struct ks d with
  | None => Err ParseError
  | Some vs =>
      match cstring_end (skipn (struct_size ks) d) with
      | None => Err ParseError
      | Some s => match utf8 s with
                  | None => Err ParseError
                  | Some t => Ok (vs, t, Z.of_nat (struct_size ks) + len s + 1)
                  end
      end
  end.

(** spotlight_storedb.py:1254-1274, one value: the index, the property and the size. *)
Definition attribute_value (utf8 : bytes -> option str) (type : Z) (d : bytes) : result (Z * prop * Z) :=
  if type =? 17 then
    match map_struct_cstring utf8 [FU LE 4; FU LE 1; FU LE 1] d with
    | Ok ([VI i; VI vt; VI pt], key, n) => Ok (i, PType vt pt key, n)
    | Ok _ => Err OtherError
    | Err e => Err e
    end
  else
    match map_struct_cstring utf8 [FU LE 4] d with
    | Ok ([VI i], name, n) => Ok (i, PValue name, n)
    | Ok _ => Err OtherError
    | Err e => Err e
    end.

(** spotlight_storedb.py:1220-1278 [_ReadMetadataAttributePageValues]. *)
Fixpoint read_attribute_values (fuel : nat) (utf8 : bytes -> option str) (type : Z) (page_data : bytes)
  (size off : Z) (t : dict prop) : run (dict prop) :=
  match fuel with
  | O => OutOfFuel
  | S k =>
      if off <? size then
        match attribute_value utf8 type (pyslice_from page_data off) with
        | Err e => Done (Err e)
        | Ok (i, p, n) => read_attribute_values k utf8 type page_data size (off + n) (dict_set i p t)
        end
      else Done (Ok t)
  end.

(** spotlight_storedb.py:795-799 and 881-885: the names of the values of an index. *)
Definition index_names (values : dict prop) (l : list Z) : list str :=
  map (fun i => value_name (dict_get i values) []) l.

(** spotlight_storedb.py:741-836 [_ReadIndexPageValues]. *)
Fixpoint read_index_values (fuel : nat) (values : dict prop) (page_data : bytes) (size off : Z)
  (t : dict prop) : run (dict prop) :=
  match fuel with
  | O => OutOfFuel
  | S k =>
      if off <? size then
        match map_struct [FU LE 4] (pyslice_from page_data off) with
        | Some [VI table_index] =>
            match read_vint (pyslice_from page_data (off + 4)) with
            | Err e => Done (Err e)
            | Ok (index_size, bytes_read) =>
                let padding := index_size mod 4 in
                let n := 4 + (bytes_read + padding) in
                let index_size := index_size - padding in
                match map_uint32s (Z.to_nat (index_size / 4)) (pyslice_from page_data (off + n)) with
                | None => Done (Err ParseError)
                | Some l => read_index_values k values page_data size (off + (n + index_size))
                              (dict_set table_index (PList (index_names values l)) t)
                end
            end
        | _ => Done (Err ParseError)
        end
      else Done (Ok t)
  end.

(** spotlight_storedb.py:1470-1526 [_ReadPropertyPage]: the next block number and the table. *)
Definition read_property_page (fuel : nat) (utf8 : bytes -> option str) (values : dict prop)
  (content : bytes) (off : Z) (t : dict prop) : run (Z * dict prop) :=
  match read_page_header content off with
  | Err e => Done (Err e)
  | Ok h =>
      if negb (existsb (Z.eqb (ph_type h)) [17; 33; 65; 129]) then Done (Err ParseError)
      else
        match read_here content (off + 20) (ph_size h - 20) with
        | Err e => Done (Err e)
        | Ok page_data =>
        match struct_bs [FU LE 4; FU LE 8] page_data with
        | Err e => Done (Err e)
        | Ok [VI next; VI _] =>
            rdo t' <- (if (ph_type h =? 17) || (ph_type h =? 33)
                       then read_attribute_values fuel utf8 (ph_type h) page_data (ph_used h - 20) 12 t
                       else if ph_type h =? 129
                       then read_index_values fuel values page_data (ph_used h - 20) 12 t
                       else Done (Ok t));
            Done (Ok (next, t'))
        | Ok _ => Done (Err OtherError)
        end
        end
  end.

(** spotlight_storedb.py:1563-1580 [_ReadPropertyPages], the loop. When the table that is read
    is the one of the metadata values, the names are looked up in the table under
    construction; [own] tells so. *)
Fixpoint read_property_loop (fuel : nat) (utf8 : bytes -> option str) (own : bool) (values : dict prop)
  (content : bytes) (off : Z) (t : dict prop) : run (dict prop) :=
  match fuel with
  | O => OutOfFuel
  | S k =>
      if off =? 0 then Done (Ok t)
      else rdo (next, t') <- read_property_page fuel utf8 (if own then t else values) content off t;
           read_property_loop k utf8 own values content (next * 4096) t'
  end.

Definition read_property_pages fuel utf8 own values content block_number t :=
  read_property_loop fuel utf8 own values content (block_number * 4096) t.

(** spotlight_storedb.py:1328-1390 [_ReadMetadataAttributeStreamsMap] behind the read of the
    streams: [index] counts the stream values. *)
Fixpoint attribute_streams (utf8 : bytes -> option str) (number index : Z) (l : list bytes) (t : dict prop)
  : result (dict prop) :=
  match l with
  | [] => Ok t
  | s :: r =>
      if index =? 0 then attribute_streams utf8 number (index + 1) r t
      else
        do (data_size, o) <- read_vint s;
        if negb (o + data_size =? len s) then attribute_streams utf8 number (index + 1) r t
        else
          do p <- (if number =? 1 then
                     do (vs, key, _) <- map_struct_cstring utf8 [FU LE 1; FU LE 1] (pyslice_from s o);
                     match vs with
                     | [VI vt; VI pt] => Ok (PType vt pt key)
                     | _ => Err OtherError
                     end
                   else
                     do (_, name, _) <- map_struct_cstring utf8 [] (pyslice_from s o);
                     Ok (PValue name));
          attribute_streams utf8 number (index + 1) r (dict_set index p t)
  end.

(** spotlight_storedb.py:838-918 [_ReadIndexStreamsMap] behind the read of the streams. *)
Fixpoint index_streams (values : dict prop) (index : Z) (l : list bytes) (t : dict prop)
  : result (dict prop) :=
  match l with
  | [] => Ok t
  | s :: r =>
      if index =? 0 then index_streams values (index + 1) r t
      else
        do (_, o) <- read_vint s;
        do (index_size, n) <- read_vint (pyslice_from s o);
        let o := o + n in
        let padding := index_size mod 4 in
        let index_size := index_size - padding in
        match map_uint32s (Z.to_nat (index_size / 4)) (pyslice_from s (o + padding)) with
        | None => Err ParseError
        | Some li => index_streams values (index + 1) r (dict_set index (PList (index_names values li)) t)
        end
  end.

(** ** Map pages *)

Definition map_header_layout : list fkind := [FB 4; FU LE 4; FU LE 4; FU LE 4; FU LE 4].
Definition map_value_layout : list fkind := [FU LE 8; FU LE 4; FU LE 4].

(** spotlight_storedb.py:972-997 [_ReadMapPageValues]: the block numbers. *)
Fixpoint read_map_values (n : nat) (content : bytes) (off : Z) : result (list Z) :=
  match n with
  | O => Ok []
  | S k =>
      do vs <- read_struct content map_value_layout off;
      match vs with
      | [VI _; VI block; VI _] => do r <- read_map_values k content (off + 16); Ok (block :: r)
      | _ => Err OtherError
      end
  end.

(** spotlight_storedb.py:920-952 [_ReadMapPage]: the page size and the block numbers. *)
Definition read_map_page (content : bytes) (off : Z) : result (Z * list Z) :=
  do vs <- read_struct content map_header_layout off;
  match vs with
  | [VB sig; VI page_size; VI n; VI _; VI _] =>
      do _ <- guard (list_eqb sig (s2z "1mbd") || list_eqb sig (s2z "2mbd")) ParseError;
      do l <- read_map_values (Z.to_nat n) content (off + 20);
      Ok (page_size, l)
  | _ => Err OtherError
  end.

(** spotlight_storedb.py:954-970 [_ReadMapPages]. *)
Fixpoint read_map_pages (fuel : nat) (content : bytes) (off end_ : Z) (acc : list Z) : run (list Z) :=
  match fuel with
  | O => OutOfFuel
  | S k =>
      if off <? end_ then
        match read_map_page content off with
        | Err e => Done (Err e)
        | Ok (page_size, l) => read_map_pages k content (off + page_size) end_ (acc ++ l)
        end
      else Done (Ok acc)
  end.

(** ** Metadata attributes *)

(** Attribute values. A floating-point value is kept as its bytes. *)
Inductive attr_value :=
| AInt (z : Z)
| AInts (l : list Z)
| AByte (b : Z)
| ABytes (l : list Z)
| AFloat (d : bytes)
| AFloats (l : list bytes)
| AString (s : str)
| AStrings (l : list str)
| AData (d : bytes)
| ANone.

Record attribute := mkattr { at_key : str; at_property : Z; at_type : Z; at_value : attr_value }.

(** The tables that attributes refer to. *)
Record tables := mktab {
  tb_types : dict prop; tb_values : dict prop; tb_lists : dict prop; tb_localized : dict prop }.

(** dtFabric sequence with elements of [n] bytes and a data size. A remainder is ignored. *)
Fixpoint chunks (count n : nat) (d : bytes) : option (list bytes) :=
  match count with
  | O => Some []
  | S k => if Nat.ltb (length d) n then None
           else match chunks k n (skipn n d) with
                | Some l => Some (firstn n d :: l)
                | None => None
                end
  end.

(** dtFabric sequence of NUL-terminated UTF-8 strings that fills the data. *)
Fixpoint map_cstrings (fuel : nat) (utf8 : bytes -> option str) (d : bytes) : result (list str) :=
  match d with
  | [] => Ok []
  | _ =>
      match fuel with
      | O => Err OtherError
      | S k =>
          match cstring_end d with
          | None => Err ParseError
          | Some s => match utf8 s with
                      | None => Err ParseError
                      | Some t => do r <- map_cstrings k utf8 (zskipn (len s + 1) d); Ok (t :: r)
                      end
          end
      end
  end.

(** [value.split("\x16\x02")[0]] if the separator occurs, [value] otherwise. *)
Fixpoint before_language (s : str) : str :=
  match s with
  | [] => []
  | c :: r => match r with
              | e :: _ => if (c =? 22) && (e =? 2) then [] else c :: before_language r
              | [] => [c]
              end
  end.

(** spotlight_storedb.py:1454-1466, the loop of
    [_ReadMetadataAttributeVariableSizeIntegerValue]. *)
Fixpoint read_ints (fuel : nat) (data : bytes) (off size : Z) : result (list Z) :=
  if off <? size then
    match fuel with
    | O => Err OtherError
    | S k =>
        do (v, n) <- read_vint (pyslice data off size);
        do r <- read_ints k data (off + n) size;
        Ok (v :: r)
    end
  else Ok [].

(** spotlight_storedb.py:1438-1468 [_ReadMetadataAttributeVariableSizeIntegerValue]. The fuel
    is enough because every integer takes a byte of the data
    (SpotProofs.read_ints_fuel). *)
Definition read_int_value (property_type : Z) (data : bytes) : result (attr_value * Z) :=
  do (v, n) <- read_vint data;
  if Z.land property_type 2 =? 0 then Ok (AInt v, n)
  else do l <- read_ints (S (length data)) data 0 v; Ok (AInts l, n + v).

(** spotlight_storedb.py:1084-1126 [_ReadMetadataAttributeByteValue]. *)
Definition read_byte_value (property_type : Z) (data : bytes) : result (attr_value * Z) :=
  do (size, n) <- (if negb (Z.land property_type 2 =? 0) then read_vint data else Ok (1, 0));
  match chunks (Z.to_nat size) 1 (pyslice data n (n + size)) with
  | None => Err ParseError
  | Some l =>
      do v <- (if n =? 0 then do b <- pyindex (concat l) 0; Ok (AByte b) else Ok (ABytes (concat l)));
      Ok (v, n + size)
  end.

(** spotlight_storedb.py:1128-1218 [_ReadMetadataAttributeFloat32Value] ([w] = 4) and
    [_ReadMetadataAttributeFloat64Value] ([w] = 8). *)
Definition read_float_value (w : nat) (property_type : Z) (data : bytes) : result (attr_value * Z) :=
  do (size, n) <- (if Z.land property_type 2 =? 0 then Ok (Z.of_nat w, 0) else read_vint data);
  match chunks (Z.to_nat (size / Z.of_nat w)) w (pyslice data n (n + size)) with
  | None => Err ParseError
  | Some l =>
      do v <- (if n =? 0 then do b <- pyindex l 0; Ok (AFloat b) else Ok (AFloats l));
      Ok (v, n + size)
  end.

(** spotlight_storedb.py:1392-1436 [_ReadMetadataAttributeStringValue]. *)
Definition read_string_value (utf8 : bytes -> option str) (property_type : Z) (data : bytes)
  : result (attr_value * Z) :=
  do (size, n) <- read_vint data;
  let d := pyslice data n (n + size) in
  do l <- map_cstrings (length d) utf8 d;
  do v <- (if Z.land property_type 3 =? 3 then do s <- pyindex l 0; Ok (AString (before_language s))
           else if Z.land property_type 3 =? 2 then Ok (AStrings l)
           else do s <- pyindex l 0; Ok (AString s));
  Ok (v, n + size).

(** spotlight_storedb.py:1280-1326 [_ReadMetadataAttributeReferenceValue]. *)
Definition read_reference_value (tb : tables) (property_type : Z) (data : bytes) : result (attr_value * Z) :=
  do (i, n) <- read_vint data;
  Ok (if Z.land property_type 3 =? 3 then
        match values_list (dict_get i (tb_localized tb)) with
        | [] => AString (s2z "(null)")
        | s :: _ => AString (before_language s)
        end
      else if Z.land property_type 3 =? 2 then AStrings (values_list (dict_get i (tb_lists tb)))
      else AString (value_name (dict_get i (tb_values tb)) (s2z "(null)")), n).

(** spotlight_storedb.py:999-1082 [_ReadMetadataAttribute] for a metadata type. *)
Definition read_attribute (utf8 : bytes -> option str) (tb : tables) (vt pt : Z) (key : str) (data : bytes)
  : result (attribute * Z) :=
  do (v, n) <-
    (if list_eqb key (s2z "kMDStoreAccumulatedSizes") then Ok (AData data, len data)
     else if existsb (Z.eqb vt) [0; 2; 6] then do (v, n) <- read_vint data; Ok (AInt v, n)
     else if vt =? 7 then read_int_value pt data
     else if vt =? 8 then read_byte_value pt data
     else if vt =? 9 then read_float_value 4 pt data
     else if (vt =? 10) || (vt =? 12) then read_float_value 8 pt data
     else if vt =? 11 then read_string_value utf8 pt data
     else if vt =? 14 then
       do (size, n) <- read_vint data; Ok (AData (pyslice data n (n + size)), n + size)
     else if vt =? 15 then read_reference_value tb pt data
     else Ok (ANone, 0));
  Ok (mkattr key pt vt v, n).

(** spotlight_storedb.py:1613-1654, the loop of [_ReadRecord]. An attribute whose type is not
    known is [None], and its [key] is an AttributeError. *)
Fixpoint read_attributes (fuel : nat) (utf8 : bytes -> option str) (tb : tables) (page_data : bytes)
  (data_size end_offset off rec_off type_index : Z) (attrs : sdict attribute)
  : run (sdict attribute) :=
  match fuel with
  | O => OutOfFuel
  | S k =>
      if rec_off <? data_size then
        match read_vint (pyslice page_data off end_offset) with
        | Err e => Done (Err e)
        | Ok (rel, n) =>
            let type_index := type_index + rel in
            match dict_get type_index (tb_types tb) with
            | Some (PType vt pt key) =>
                match read_attribute utf8 tb vt pt key (pyslice page_data (off + n) end_offset) with
                | Err e => Done (Err e)
                | Ok (a, m) =>
                    read_attributes k utf8 tb page_data data_size end_offset (off + n + m)
                      (rec_off + n + m) type_index (sdict_set (at_key a) a attrs)
                end
            | _ => Done (Err AttributeError)
            end
        end
      else Done (Ok attrs)
  end.

Record item := mkitem {
  it_id : Z; it_item : Z; it_parent : Z; it_time : Z; it_attrs : sdict attribute }.

(** spotlight_storedb.py:1582-1656 [_ReadRecord]. *)
Definition read_record (fuel : nat) (utf8 : bytes -> option str) (tb : tables) (page_data : bytes)
  (page_value_offset : Z) : run item :=
  let off := page_value_offset - 20 in
  match read_record_header (pyslice_from page_data off) with
  | Err e => Done (Err e)
  | Ok (h, n) =>
      rdo attrs <- read_attributes fuel utf8 tb page_data (rh_size h) (off + n + rh_size h) (off + n) n 0 [];
      Done (Ok (mkitem (rh_id h) (rh_item h) (rh_parent h) (rh_time h) attrs))
  end.

(** ** Store files *)

(** spotlight_storedb.yaml: spotlight_store_db_file_header. *)
Definition store_header_layout : list fkind := FB 4 :: repeat (FU LE 4) 16 ++ [FB 256; FB 256].

Record store_header := mksh {
  sh_map_offset : Z; sh_map_size : Z; sh_types : Z; sh_values : Z; sh_unknown41 : Z; sh_lists : Z;
  sh_localized : Z }.

(** The string that a fixed-size member stores: up to the first NUL. *)
Fixpoint cut_nul (d : bytes) : bytes :=
  match d with
  | [] => []
  | c :: r => if c =? 0 then [] else c :: cut_nul r
  end.

(** spotlight_storedb.py:711-739 [_ReadFileHeader]. *)
Definition read_store_header (utf8 : bytes -> option str) (content : bytes) : result store_header :=
  do vs <- read_struct content store_header_layout 0;
  match vs with
  | [VB sig; VI _; VI _; VI _; VI _; VI _; VI _; VI _; VI _; VI mo; VI ms; VI _; VI ty; VI va; VI un; VI li; VI lo; VB _; VB path] =>
      do _ <- guard (list_eqb sig (s2z "8tsd")) ParseError;
      do _ <- match utf8 (cut_nul path) with Some _ => Ok tt | None => Err ParseError end;
      Ok (mksh mo ms ty va un li lo)
  | _ => Err OtherError
  end.

(** What [ReadFileObject] leaves in the object. *)
Record store := mkstore {
  st_tables : tables; st_descs : dict rec_desc; st_cache : dict bytes }.

(** spotlight_storedb.py:2014-2022, the record pages. *)
Fixpoint read_record_pages (fuel : nat) (lz4 : lz4_fun) (zlib : bytes -> result bytes) (content : bytes)
  (blocks : list Z) (descs : dict rec_desc) (cache : dict bytes) : run (dict rec_desc * dict bytes) :=
  match blocks with
  | [] => Done (Ok (descs, cache))
  | b :: r =>
      let off := b * 4096 in
      rdo page_data <- read_record_page fuel lz4 zlib content off;
      rdo descs' <- read_records fuel page_data off 0 descs;
      read_record_pages fuel lz4 zlib content r descs' (dict_set off page_data cache)
  end.

(** spotlight_storedb.py:1964-2022 [ReadFileObject] of a new object. [streams] are the files
    of the streams maps next to the store file. *)
Definition read_store (fuel : nat) (utf8 : bytes -> option str) (lz4 : lz4_fun) (zlib : bytes -> result bytes)
  (streams : Z -> option streams_files) (content : bytes) : run store :=
  rdo h <- Done (read_store_header utf8 content);
  rdo blocks <- read_map_pages fuel content (sh_map_offset h) (sh_map_offset h + sh_map_size h) [];
  rdo types <- (if sh_types h =? 0
                then Done (do l <- read_streams_map (streams 1); attribute_streams utf8 1 0 l [])
                else read_property_pages fuel utf8 false [] content (sh_types h) []);
  rdo values <- (if sh_values h =? 0
                 then Done (do l <- read_streams_map (streams 2); attribute_streams utf8 2 0 l [])
                 else read_property_pages fuel utf8 true [] content (sh_values h) []);
  rdo _ <- (if sh_unknown41 h =? 0
            then Done (do l <- read_streams_map (streams 3); index_streams values 0 l [])
            else read_property_pages fuel utf8 false values content (sh_unknown41 h) []);
  rdo lists <- (if sh_lists h =? 0
                then Done (do l <- read_streams_map (streams 4); index_streams values 0 l [])
                else read_property_pages fuel utf8 false values content (sh_lists h) []);
  rdo localized <- (if sh_localized h =? 0
                    then Done (do l <- read_streams_map (streams 5); index_streams values 0 l [])
                    else read_property_pages fuel utf8 false values content (sh_localized h) []);
  rdo (descs, cache) <- read_record_pages fuel lz4 zlib content blocks [] [];
  Done (Ok (mkstore (mktab types values lists localized) descs cache)).

(** spotlight_storedb.py:1953-1962 [GetMetadataItemByIdentifier] with 679-709
    [_GetMetadataItemByIdentifier]; the cache is not changed by a page that is in it. *)
Definition get_item (fuel : nat) (utf8 : bytes -> option str) (lz4 : lz4_fun) (zlib : bytes -> result bytes)
  (content : bytes) (st : store) (id : Z) : run (option item * store) :=
  match dict_get id (st_descs st) with
  | None => Done (Ok (None, st))
  | Some d =>
      rdo (page_data, st') <-
        match dict_get (rd_page d) (st_cache st) with
        | Some (c :: r) => Done (Ok (c :: r, st))
        | _ => rdo p <- read_record_page fuel lz4 zlib content (rd_page d);
               Done (Ok (p, mkstore (st_tables st) (st_descs st) (dict_set (rd_page d) p (st_cache st))))
        end;
      rdo i <- read_record fuel utf8 (st_tables st) page_data (rd_offset d);
      Done (Ok (Some i, st'))
  end.

(** spotlight_storedb.py:441-444 [number_of_metadata_items]. *)
Definition number_of_items (st : store) : Z := len (st_descs st).

(** Model of the WMI (CIM) repository readers: mapping files, the index, object records and opening a
    repository. *)

From Verif Require Import Base StrModel CoreModel VarModel SeqModel GzipModel DictModel.
From Coq Require String.
Import String.StringSyntax.

(** ** Mapping files *)

(** [n] integers of [size] bytes, the first [part] bytes of which count. *)
Fixpoint le_ints (part size : Z) (n : nat) (d : bytes) : list Z :=
  match n with
  | O => []
  | S n => le_int (zfirstn part d) :: le_ints part size n (zskipn size d)
  end.

(** wmi_repository.yaml cim_map_header_v1 and cim_map_header_v2. *)
Definition map_header (version : Z) : list fkind :=
  if version =? 1 then [FU LE 4; FU LE 4; FU LE 4] else [FU LE 4; FU LE 4; FU LE 4; FU LE 4; FU LE 4].

(** wmi_repository.py:760-788 [_ReadFileHeader]: the values behind the signature. *)
Definition read_map_header (version : Z) (content : bytes) (off : Z) : result (list fval) :=
  do vs <- read_struct content (map_header version) off;
  match vs with
  | VI signature :: r => do _ <- guard (signature =? 0xabcd) ParseError; Ok r
  | _ => Err OtherError
  end.

(** wmi_repository.py:719-735 [_ReadDetermineFormatVersion]. *)
Definition map_version (content : bytes) : result Z :=
  do vs <- read_map_header 2 content 0;
  match vs with
  | [VI _; VI unknown1; VI unknown2; VI _] => Ok (if unknown1 =? unknown2 + 1 then 2 else 1)
  | _ => Err OtherError
  end.

(** The size of a header and of an entry, wmi_repository.yaml. *)
Definition map_header_size (version : Z) : Z := if version =? 1 then 12 else 20.
Definition map_entry_size (version : Z) : Z := if version =? 1 then 4 else 24.

(** A table: a number of entries and that many entries of [size] bytes. *)
Definition read_table (size : Z) (content : bytes) (off : Z) : result (list Z * Z) :=
  do (vs, d, n) <- read_var content [FU LE 4] (fun vs => match vs with [VI n] => size * n | _ => 0 end) off;
  match vs with
  | [VI k] => Ok (le_ints 4 size (Z.to_nat k) d, n)
  | _ => Err OtherError
  end.

(** wmi_repository.py:790-816 [_ReadMappingTable], 818-841 [_ReadUnknownTable] and 737-758
    [_ReadFileFooter] one after the other: the page numbers and the offset behind. *)
Definition read_map_tables (version : Z) (content : bytes) (off : Z) : result (list Z * Z) :=
  do (table, n) <- read_table (map_entry_size version) content off;
  do (_, m) <- read_table 4 content (off + n);
  do vs <- read_struct content [FU LE 4] (off + n + m);
  match vs with
  | [VI signature] => do _ <- guard (signature =? 0xdcba) ParseError; Ok (table, off + n + m + 4)
  | _ => Err OtherError
  end.

(** The attributes of a mapping file, wmi_repository.py:659-665. *)
Record mapfile := mkmapfile { mf_version : Z; mf_sequence : Z; mf_table1 : list Z; mf_table2 : option (list Z) }.

(** wmi_repository.py:859-900 [ReadFileObject]; [old2] is the second table of the object before, which
    stays if the file has none. *)
Definition read_map_again (old2 : option (list Z)) (content : bytes) : result mapfile :=
  do version <- map_version content;
  do vs <- read_map_header version content 0;
  match vs with
  | VI sequence :: _ =>
      do (table1, pos) <- read_map_tables version content (map_header_size version);
      if (version =? 2) || (pos <? len content) then
        match read_map_header version content pos with
        | Ok _ =>
            do (table2, _) <- read_map_tables version content (pos + map_header_size version);
            Ok (mkmapfile version sequence table1 (Some table2))
        | Err ParseError => if version =? 2 then Err ParseError else Ok (mkmapfile version sequence table1 old2)
        | Err e => Err e
        end
      else Ok (mkmapfile version sequence table1 old2)
  | _ => Err OtherError
  end.

Definition read_map (content : bytes) : result mapfile := read_map_again None content.

(** wmi_repository.py:843-849 [GetIndexMappingTable] and wmi_repository.py:851-857
    [GetObjectsMappingTable]. *)
Definition index_table (m : mapfile) : list Z := match mf_table2 m with Some t => t | None => mf_table1 m end.
Definition objects_table (m : mapfile) : list Z := mf_table1 m.

(** wmi_repository.py:184-194 [ResolveMappedPageNumber]. *)
Definition resolve (table : list Z) (n : Z) : result Z := pyindex table n.

(** ** Index *)

(** wmi_repository.py:146-170 [IndexBinaryTreePage]; sub pages and keys. *)
Record wpage := mkwpage { wp_type : Z; wp_root : Z; wp_subs : list Z; wp_keys : list str }.

(** The next [n] integers of [size] bytes, or bytes, of a structure that is mapped. *)
Definition take_ints (size n : Z) (d : bytes) : result (list Z * bytes) :=
  if size * n <=? len d then Ok (le_ints size size (Z.to_nat n) d, zskipn (size * n) d) else Err ParseError.

Definition take_int (size : Z) (d : bytes) : result (Z * bytes) :=
  if size <=? len d then Ok (le_int (zfirstn size d), zskipn size d) else Err ParseError.

Definition take_bytes (n : Z) (d : bytes) : result (bytes * bytes) :=
  if n <=? len d then Ok (zfirstn n d, zskipn n d) else Err ParseError.

(** wmi_repository.yaml cim_page_body: sub pages, key offsets, key data, value offsets and value data. *)
Definition page_body (d : bytes) : result (list Z * list Z * bytes * list Z * bytes) :=
  do (nkeys, d) <- take_int 4 d;
  do (_, d) <- take_ints 4 nkeys d;
  do (subs, d) <- take_ints 4 (nkeys + 1) d;
  do (key_offsets, d) <- take_ints 2 nkeys d;
  do (key_size, d) <- take_int 2 d;
  do (key_data, d) <- take_bytes (2 * key_size) d;
  do (nvalues, d) <- take_int 2 d;
  do (value_offsets, d) <- take_ints 2 nvalues d;
  do (value_size, d) <- take_int 2 d;
  do (value_data, _) <- take_bytes value_size d;
  Ok (subs, key_offsets, key_data, value_offsets, value_data).

(** wmi_repository.py:532-547: the segments of a key. *)
Definition key_segments (key_data : bytes) (offset : Z) : result (list Z) :=
  match zskipn (2 * offset) key_data with
  | [] => Err ValueError
  | d => do (n, d) <- take_int 2 d; do (l, _) <- take_ints 2 n d; Ok l
  end.

(** wmi_repository.py:589-598: a value. An end-of-string character that is missing is not a
    MappingError. *)
Definition page_value (value_data : bytes) (offset : Z) : result str :=
  match cstring_end (zskipn offset value_data) with
  | None => Err OtherError
  | Some s => if forallb (fun c => c <? 128) s then Ok s else Err ParseError
  end.

(** wmi_repository.py:474-485: the key with the given segments. *)
Definition key_path (values : list str) (segments : list Z) : result str :=
  do l <- mapr (pyindex values) segments;
  Ok (92 :: join [92] l).

(** wmi_repository.py:401-487 [_ReadPage], with [_ReadPageHeader] 489-515, [_ReadPageKeyData] 517-569 and
    [_ReadPageValueData] 571-604, without debug output. *)
Definition index_page (content : bytes) (off : Z) : result wpage :=
  do (data, _) <- read_next content off 8192;
  do vs <- struct_bs [FU LE 4; FU LE 4; FU LE 4; FU LE 4] (zfirstn 16 data);
  match vs with
  | [VI type; VI _; VI _; VI root] =>
      if type =? 0xaccc then
        do (subs, key_offsets, key_data, value_offsets, value_data) <- page_body (zskipn 16 data);
        do segments <- mapr (key_segments key_data) key_offsets;
        do values <- mapr (page_value value_data) value_offsets;
        do keys <- mapr (key_path values) segments;
        Ok (mkwpage type root (filter (fun n => negb (existsb (Z.eqb n) [0; 0xffffffff])) subs) keys)
      else Ok (mkwpage type root [] [])
  | _ => Err OtherError
  end.

(** wmi_repository.py:606-621 [GetPage]. *)
Definition get_index_page (content : bytes) (n : Z) : result (option wpage) :=
  if len content <=? n * 8192 then Ok None
  else do p <- index_page content (n * 8192); Ok (Some p).

(** wmi_repository.py:3633-3650 [_GetIndexPageByMappedPageNumber]. *)
Definition mapped_index_page (table : list Z) (content : bytes) (n : Z) : result (option wpage) :=
  do p <- resolve table n; get_index_page content p.

(** wmi_repository.py:3705-3718 [_GetKeysFromIndexPage]; the fuel bounds the depth of the recursion, thus
    OutOfFuel stands for a RecursionError. *)
Fixpoint page_keys (fuel : nat) (table : list Z) (content : bytes) (page : option wpage) : run (list str) :=
  match page with
  | None => Done (Ok [])
  | Some p =>
      match fuel with
      | O => OutOfFuel
      | S fuel =>
          rdo l <- (fix subs (l : list Z) : run (list str) :=
             match l with
             | [] => Done (Ok [])
             | n :: l =>
                 match mapped_index_page table content n with
                 | Err e => Done (Err e)
                 | Ok q => rdo a <- page_keys fuel table content q; rdo b <- subs l; Done (Ok (a ++ b))
                 end
             end) (wp_subs p);
          Done (Ok (wp_keys p ++ l))
      end
  end.

(** wmi_repository.py:3652-3676 [_GetIndexFirstMappedPage] and 3678-3703 [_GetIndexRootPage]; [v21] tells
    whether the format version is 2.1. *)
Definition index_root (v21 : bool) (table : list Z) (content : bytes) : result (option wpage) :=
  do root <-
    (if v21 then
       do p <- mapped_index_page table content 0;
       match p with
       | None => Err RuntimeError
       | Some p => do _ <- guard (wp_type p =? 0xaddd) RuntimeError; Ok (wp_root p)
       end
     else Ok 1);
  mapped_index_page table content root.

(** wmi_repository.py:4234-4242 [GetIndexKeys]. *)
Definition index_keys (fuel : nat) (v21 : bool) (table : list Z) (content : bytes) : run (list str) :=
  match index_root v21 table content with
  | Err e => Done (Err e)
  | Ok p => page_keys fuel table content p
  end.

(** ** Object records *)

(** wmi_repository.yaml cim_object_descriptor. *)
Record wdesc := mkwdesc { wd_id : Z; wd_offset : Z; wd_size : Z; wd_checksum : Z }.

(** wmi_repository.py:919-962 [_ReadObjectDescriptor] and wmi_repository.py:964-979
    [_ReadObjectDescriptors]. *)
Fixpoint descriptors (fuel : nat) (content : bytes) (pos : Z) : run (list wdesc) :=
  match fuel with
  | O => OutOfFuel
  | S fuel =>
      let d := zfirstn 16 (zskipn pos content) in
      if list_eqb d (repeat 0 16) then Done (Ok [])
      else
        match struct_bs [FU LE 4; FU LE 4; FU LE 4; FU LE 4] d with
        | Err e => Done (Err e)
        | Ok [VI id; VI offset; VI size; VI checksum] =>
            rdo l <- descriptors fuel content (pos + 16); Done (Ok (mkwdesc id offset size checksum :: l))
        | Ok _ => Done (Err OtherError)
        end
  end.

(** wmi_repository.py:223-247 [GetObjectDescriptor]. *)
Definition find_descriptor (l : list wdesc) (id size : Z) : option wdesc :=
  match find (fun d => wd_id d =? id) l with
  | Some d => if wd_size d =? size then Some d else None
  | None => None
  end.

(** wmi_repository.py:1038-1071 [ReadObjectRecordDataSegment]. *)
Definition data_segment (content : bytes) (page_offset offset size : Z) : result bytes :=
  let available := 8192 - offset in
  let n := if available <? size then available else size in
  if n <? -1 then Err ValueError
  else if n =? -1 then Ok (zskipn (page_offset + offset) content)
  else Ok (zfirstn n (zskipn (page_offset + offset) content)).

(** wmi_repository.py:3720-3738 [_GetObjectsPageByMappedPageNumber] and wmi_repository.py:1011-1026
    [GetPage]: the offset of a page. *)
Definition objects_page (table : list Z) (content : bytes) (n : Z) : result Z :=
  do p <- resolve table n;
  do _ <- guard (p * 8192 <? len content) ParseError;
  Ok (p * 8192).

(** wmi_repository.py:3760-3799, the loop of [_GetObjectRecord]; [offset] is None in the first pass. *)
Fixpoint record_loop (fuel : nat) (table : list Z) (content : bytes) (n id size : Z) (first : bool) : run bytes :=
  if 0 <? size then
    match fuel with
    | O => OutOfFuel
    | S fuel =>
        match objects_page table content n with
        | Err e => Done (Err e)
        | Ok page =>
            rdo offset <-
              (if first then
                 rdo l <- descriptors (S (length content)) content page;
                 match find_descriptor l id size with
                 | None => Done (Err AttributeError)
                 | Some d => Done (Ok (wd_offset d))
                 end
               else Done (Ok 0));
            match data_segment content page offset size with
            | Err e => Done (Err e)
            | Ok [] => Done (Err ParseError)
            | Ok d => rdo r <- record_loop fuel table content (n + 1) id (size - len d) false; Done (Ok (d ++ r))
            end
        end
    end
  else Done (Ok []).

(** wmi_repository.py:3740-3799 [_GetObjectRecord], the data of the record. *)
Definition object_record (table : list Z) (content : bytes) (n id size : Z) : run bytes :=
  record_loop (Z.to_nat size) table content n id size true.

(** wmi_repository.py:3801-3843 [_GetObjectRecordValuesFromKey]: data type, name hash, page number,
    identifier and size. [pyint] is [int(s, 10)] without the error, [lower] is [str.lower]. *)
Definition key_record (pyint : str -> option Z) (lower : str -> str) (segment : str) : option (str * str * Z * Z * Z) :=
  if negb (has_char 46 segment) then None
  else
    match split_on 46 segment with
    | [a; b; c; d] =>
        match pyint b, pyint c, pyint d with
        | Some page, Some id, Some size =>
            let hash := match split_on 95 a with [] => [] | _ :: r => join [95] r end in
            Some (match split_on 95 a with t :: _ => t | [] => [] end, lower hash, page, id, size)
        | _, _, _ => None
        end
    | _ => None
    end.

(** wmi_repository.py:4245-4261 [GetObjectRecordByKey]. Without values the comparison of None with 0 is a
    TypeError. *)
Definition record_by_key (pyint : str -> option Z) (lower : str -> str) (table : list Z) (content : bytes) (key : str) : run (str * bytes) :=
  match key_record pyint lower (last (split_on 92 key) []) with
  | None => Done (Err TypeError)
  | Some (type, _, n, id, size) => rdo d <- object_record table content n id size; Done (Ok (type, d))
  end.

(** ** Opening a repository *)

(** wmi_repository.py:3438-3457 [_FormatFilenameAsGlob]; the functions are [str.isalpha], [str.upper] and
    [str.lower] of a character. *)
Definition glob_of (isalpha : Z -> bool) (upper lower : Z -> str) (filename : str) : str :=
  flat_map (fun c => if isalpha c then [91] ++ upper c ++ lower c ++ [93] else [c]) filename.

(** [a, b = s] for a string. *)
Definition unpack2 (s : str) : result (Z * Z) :=
  match s with [a; b] => Ok (a, b) | _ => Err ValueError end.

(** The first statement of wmi_repository.py:3845-3972 [_OpenIndexBinaryTreeFile], [_OpenMappingFile],
    [_OpenMappingVersionFile], [_OpenObjectsDataFile] and [_OpenRepositoryFile] for the given file name;
    [rest] is what follows, with the first character of the glob as pattern. *)
Definition open_file {A} (isalpha : Z -> bool) (upper lower : Z -> str) (filename : str) (rest : Z -> result A) : result A :=
  do (a, _) <- unpack2 (glob_of isalpha upper lower filename);
  rest a.

Definition map_names : list str :=
  [s2z "index.map"; s2z "mapping1.map"; s2z "mapping2.map"; s2z "mapping3.map"; s2z "objects.map"].

(** wmi_repository.py:4263-4325 [Open]. [basename] is [os.path.basename(path).lower()]; [cont] stands for
    everything that follows the opening of the first file, with its name. *)
Definition repository_open (isalpha : Z -> bool) (upper lower : Z -> str) (basename : str) (cont : str -> Z -> result unit) : result unit :=
  if existsb (list_eqb basename) map_names then
    open_file isalpha upper lower basename (cont basename)
  else if list_eqb basename (s2z "cim.rep") then
    open_file isalpha upper lower (s2z "cim.rep") (cont (s2z "cim.rep"))
  else
    open_file isalpha upper lower (s2z "index.map") (cont (s2z "index.map")).

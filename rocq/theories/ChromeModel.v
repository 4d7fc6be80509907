(** Model of /repo/dtformats/chrome_cache.py: cache addresses, data block files, index
    files and the directory parser.  The hash is in HashModel.v. *)

From Verif Require Import Base CoreModel StrModel TextModel CpioModel.

(** ** Cache addresses *)

(** chrome_cache.py:77-113 [CacheAddress]; number, size and offset are set together. *)
Record cblock := mkcblock { cb_number : Z; cb_size : Z; cb_offset : Z }.
Record caddr := mkcaddr {
  ca_value : Z; ca_initialized : bool; ca_type : Z; ca_filename : option str;
  ca_block : option cblock }.

(** chrome_cache.py:110 [_FILE_TYPE_BLOCK_SIZES], indexed with a file type in 1..4. *)
Definition file_block_size (file_type : Z) : Z :=
  if file_type =? 1 then 36 else if file_type =? 2 then 256
  else if file_type =? 3 then 1024 else 4096.

(** chrome_cache.py:112-142 [CacheAddress.__init__]. *)
Definition cache_address (v : Z) : caddr :=
  let init := negb (Z.land v 2147483648 =? 0) in
  let ty := Z.shiftr (Z.land v 1879048192) 28 in
  if v =? 0 then mkcaddr v init ty None None
  else if ty =? 0 then
    mkcaddr v init ty (Some (s2z "f_" ++ fmt_x 6 (Z.land v 268435455))) None
  else if (1 <=? ty) && (ty <=? 4) then
    let bs := file_block_size ty in
    let number := Z.land v 65535 in
    mkcaddr v init ty (Some (s2z "data_" ++ fmt_d (Z.shiftr (Z.land v 16711680) 16)))
      (Some (mkcblock number (Z.shiftr (Z.land v 50331648) 24 * bs) (8192 + number * bs)))
  else mkcaddr v init ty None None.

(** [f"{b!s}"] *)
Definition fmt_bool (b : bool) : str := if b then s2z "True" else s2z "False".

(** chrome_cache.py:99-105 [_FILE_TYPE_DESCRIPTIONS] with the default. *)
Definition file_type_description (ty : Z) : str :=
  if ty =? 0 then s2z "Separate file"
  else if ty =? 1 then s2z "Rankings block file"
  else if ty =? 2 then s2z "256 byte block file"
  else if ty =? 3 then s2z "1024 byte block file"
  else if ty =? 4 then s2z "4096 byte block file"
  else s2z "Unknown".

(** chrome_cache.py:144-170 [GetDebugString]; the format specifications ":s" and ":d" raise
    TypeError for None. *)
Definition debug_string (a : caddr) : result str :=
  if ca_value a =? 0 then Ok (s2z "0x" ++ fmt_x 8 (ca_value a) ++ s2z " (uninitialized)")
  else
    let head := s2z "0x" ++ fmt_x 8 (ca_value a) ++ s2z " (initialized: "
                ++ fmt_bool (ca_initialized a) ++ s2z ", file type: "
                ++ file_type_description (ca_type a) ++ s2z ", filename: " in
    match ca_filename a with
    | None => Err TypeError
    | Some name =>
        if ca_type a =? 0 then Ok (head ++ name ++ s2z ")")
        else match ca_block a with
             | None => Err TypeError
             | Some b => Ok (head ++ name ++ s2z ", block number: " ++ fmt_d (cb_number b)
                             ++ s2z ", block offset: 0x" ++ fmt_x 8 (cb_offset b)
                             ++ s2z ", block size: " ++ fmt_d (cb_size b) ++ s2z ")")
             end
    end.

(** ** Allocation bitmap *)

(** chrome_cache.py:231-266 [_DebugPrintAllocationBitmap] with debugging on: the loop state
    is the block number, and the open range if [in_block_range].  One step per bit; returns
    the printed (start, end) pairs. *)
Record bmstate := mkbm { bm_number : Z; bm_range : option (Z * Z) }.

Definition bitmap_bit (s : bmstate) (bit : bool) : bmstate * list (Z * Z) :=
  if bit then
    let (a, b) := match bm_range s with Some r => r | None => (bm_number s, bm_number s) end in
    (mkbm (bm_number s + 1) (Some (a, b + 1)), [])
  else match bm_range s with
       | Some r => (mkbm (bm_number s + 1) None, [r])
       | None => (mkbm (bm_number s + 1) None, [])
       end.

(** The [for unused_bit in range(32)] loop. *)
Fixpoint bitmap_value (n : nat) (s : bmstate) (value : Z) : bmstate * list (Z * Z) :=
  match n with
  | O => (s, [])
  | S n' =>
      let (s1, o1) := bitmap_bit s (negb (Z.land value 1 =? 0)) in
      let (s2, o2) := bitmap_value n' s1 (Z.shiftr value 1) in
      (s2, o1 ++ o2)
  end.

Fixpoint bitmap_loop (s : bmstate) (l : list Z) : bmstate * list (Z * Z) :=
  match l with
  | [] => (s, [])
  | v :: r =>
      let (s1, o1) := bitmap_value 32 s v in
      let (s2, o2) := bitmap_loop s1 r in
      (s2, o1 ++ o2)
  end.

Definition bitmap_ranges (l : list Z) : list (Z * Z) := snd (bitmap_loop (mkbm 0 None) l).

(** The printed value of a range. *)
Definition range_text (r : Z * Z) : str :=
  fmt_d (fst r) ++ s2z " - " ++ fmt_d (snd r) ++ s2z " (" ++ fmt_d (snd r - fst r) ++ s2z ")".

(** ** Data block files *)

(** chrome_cache.yaml: chrome_cache_data_block_file_header.  The sequences of integers are
    kept as byte streams: their values are only used for debug output. *)
Definition block_header_layout : list fkind :=
  [FU LE 4; FU LE 2; FU LE 2; FU LE 2; FU LE 2; FU LE 4; FU LE 4; FU LE 4;
   FB 16; FB 16; FU LE 4; FB 20; FB (Z.to_nat 8112)].

(** The format version check of chrome_cache.py:367-374 and 549-556:
    [f"{major:d}.{minor:d}" in ("2.0", "2.1")]. *)
Definition supported_version (major minor : Z) : bool :=
  let s := fmt_d major ++ s2z "." ++ fmt_d minor in
  list_eqb s (s2z "2.0") || list_eqb s (s2z "2.1").

(** chrome_cache.py:345-377 [DataBlockFile._ReadFileHeader] and 426-435 [ReadFileObject]:
    version, block size and number of entries. The signature is a constant of the
    structure: another value is a MappingError. *)
Definition read_block_file (content : bytes) : result (str * Z * Z) :=
  do vs <- read_struct content block_header_layout 0;
  match vs with
  | [VI sig; VI minor; VI major; VI _; VI _; VI bsize; VI number; VI _; VB _; VB _; VI _; VB _; VB _] =>
      if negb (sig =? 3238316739) then Err ParseError
      else if supported_version major minor
      then Ok (fmt_d major ++ s2z "." ++ fmt_d minor, bsize, number)
      else Err ParseError
  | _ => Err OtherError
  end.

(** chrome_cache.yaml: chrome_cache_entry. *)
Definition entry_layout : list fkind :=
  [FU LE 4; FU LE 4; FU LE 4; FU LE 4; FU LE 4; FU LE 4; FU LE 8; FU LE 4; FU LE 4;
   FB 16; FB 16; FU LE 4; FB 16; FU LE 4; FB 160].

(** chrome_cache.py:173-195 [CacheEntry]. *)
Record centry := mkcentry {
  ce_creation : Z; ce_hash : Z; ce_key : str; ce_next : caddr; ce_rankings : caddr }.

(** [decode("ascii", errors="replace")]: every byte that is not ASCII becomes U+FFFD; on
    ASCII bytes it agrees with [decode("ascii")]. *)
Definition ascii_replace (b : bytes) : str := map (fun c => if c <? 128 then c else 65533) b.

(** chrome_cache.py:379-424 [ReadCacheEntry] with a file open; [None] as an offset makes
    [seek] raise TypeError. *)
Definition read_cache_entry (content : bytes) (block_offset : option Z) : result centry :=
  match block_offset with
  | None => Err TypeError
  | Some off =>
      do vs <- read_struct content entry_layout off;
      match vs with
      | [VI hash; VI next; VI rankings; VI _; VI _; VI _; VI creation; VI _; VI _; VB _; VB _;
         VI _; VB _; VI _; VB key] =>
          Ok (mkcentry creation hash (ascii_replace (before_nul key)) (cache_address next)
                (cache_address rankings))
      | _ => Err OtherError
      end
  end.

(** ** Index files *)

(** chrome_cache.yaml: chrome_cache_index_file_header, chrome_cache_index_file_lru_data. *)
Definition index_header_layout : list fkind :=
  [FU LE 4; FU LE 2; FU LE 2; FU LE 4; FU LE 4; FU LE 4; FU LE 4; FU LE 4; FU LE 4; FU LE 4; FU LE 4;
   FU LE 8; FB 208].
Definition lru_layout : list fkind :=
  [FB 8; FU LE 4; FB 20; FB 20; FB 20; FU LE 4; FU LE 4; FU LE 4; FB 28].

(** The dictionary [index_table], in insertion order. *)
Definition itable := list (Z * caddr).

(** [d[k] = v]: an existing key keeps its place. *)
Fixpoint it_set (k : Z) (v : caddr) (t : itable) : itable :=
  match t with
  | [] => [(k, v)]
  | (k', v') :: r => if k' =? k then (k, v) :: r else (k', v') :: it_set k v r
  end.

(** chrome_cache.py:575-618 [_ReadIndexTable] without debug output: [rest] is what the file
    has left behind the current position. *)
Fixpoint read_index_table (fuel : nat) (t : itable) (index : Z) (rest : bytes) : run itable :=
  match fuel with
  | O => OutOfFuel
  | S k =>
      let data := zfirstn 4 rest in
      if len data =? 4 then
        let v := le_int data in
        read_index_table k (if v =? 0 then t else it_set index (cache_address v) t) (index + 1)
          (zskipn 4 rest)
      else Done (Ok t)
  end.

(** chrome_cache.py:524-558 [IndexFile._ReadFileHeader]: version and creation time. *)
Definition read_index_header (content : bytes) : result (str * Z) :=
  do vs <- read_struct content index_header_layout 0;
  match vs with
  | [VI sig; VI minor; VI major; VI _; VI _; VI _; VI _; VI _; VI _; VI _; VI _; VI creation; VB _] =>
      if negb (sig =? 3238251203) then Err ParseError
      else if supported_version major minor
      then Ok (fmt_d major ++ s2z "." ++ fmt_d minor, creation)
      else Err ParseError
  | _ => Err OtherError
  end.

(** chrome_cache.py:620-631 [IndexFile.ReadFileObject]: the header, the LRU data at the
    position behind it and the index table behind that.  [t] is the table of the object
    before the call: it is only emptied by the constructor (483). *)
Definition read_index_file (fuel : nat) (t : itable) (content : bytes) : run (str * Z * itable) :=
  match (do h <- read_index_header content;
         do _ <- read_struct content lru_layout (Z.of_nat (struct_size index_header_layout));
         Ok h) with
  | Err e => Done (Err e)
  | Ok (version, creation) =>
      match read_index_table fuel t 0
              (zskipn (Z.of_nat (struct_size index_header_layout + struct_size lru_layout)) content) with
      | OutOfFuel => OutOfFuel
      | Done (Err e) => Done (Err e)
      | Done (Ok t') => Done (Ok (version, creation, t'))
      end
  end.

(** ** Parsing a file or a directory *)

(** chrome_cache.py:754-788 [ParseFile]: [MapByteStream] of fewer than 4 bytes is a
    MappingError. *)
Definition parse_file (fuel : nat) (content : bytes) : run unit :=
  let d := zfirstn 4 content in
  if negb (len d =? 4) then Done (Err ParseError)
  else if le_int d =? 3238316739 then
    Done (do _ <- read_block_file content; Ok tt)
  else if le_int d =? 3238251203 then
    match read_index_file fuel [] content with
    | OutOfFuel => OutOfFuel
    | Done (Err e) => Done (Err e)
    | Done (Ok _) => Done (Ok tt)
    end
  else Done (Err ParseError).

(** The environment of [ParseDirectory]: [JoinPath] called with two arguments, the files. *)
Definition join2 := str -> option str -> result str.
Definition filesystem := str -> option bytes.

(** file_system.py:149-158, dfvfs_helpers.py:88: [JoinPath] has one parameter, so both
    calls raise TypeError whatever the arguments are. *)
Definition actual_join2 : join2 := fun path name =>
  call_join_path [[path]; match name with Some n => [n] | None => [] end].

Definition opt_str_eqb (a b : option str) : bool :=
  match a, b with
  | None, None => true
  | Some x, Some y => list_eqb x y
  | _, _ => false
  end.

Fixpoint dbf_get (name : option str) (l : list (option str * bytes)) : option bytes :=
  match l with
  | [] => None
  | (n, c) :: r => if opt_str_eqb n name then Some c else dbf_get name r
  end.

(** chrome_cache.py:675-696: opening the data block files; [Open] reads the file header. *)
Fixpoint open_block_files (join : join2) (fs : filesystem) (path : str) (l : list caddr)
  (files : list (option str * bytes)) (have_all : bool)
  : result (list (option str * bytes) * bool) :=
  match l with
  | [] => Ok (files, have_all)
  | a :: r =>
      match dbf_get (ca_filename a) files with
      | Some _ => open_block_files join fs path r files have_all
      | None =>
          do p <- join path (ca_filename a);
          match fs p with
          | None => open_block_files join fs path r files false
          | Some content =>
              do _ <- read_block_file content;
              open_block_files join fs path r (files ++ [(ca_filename a, content)]) have_all
          end
      end
  end.

(** chrome_cache.py:700-743: one chain, at most 64 entries; returns the printed keys.
    [cache_entry.key] is a [str] (404-413), which has no [decode]: AttributeError. [decode]
    is what the call does with the key. *)
Fixpoint walk_chain (decode : str -> result str) (files : list (option str * bytes)) (n : nat)
  (a : caddr) : list str * result unit :=
  if ca_value a =? 0 then ([], Ok tt)
  else match n with
       | O => ([], Ok tt)
       | S n' =>
           match dbf_get (ca_filename a) files with
           | None => ([], Ok tt)
           | Some content =>
               match read_cache_entry content (match ca_block a with
                                               | Some b => Some (cb_offset b)
                                               | None => None
                                               end) with
               | Err e => ([], Err e)
               | Ok entry =>
                   match decode (ce_key entry) with
                   | Err e => ([], Err e)
                   | Ok _ =>
                       let (out, r) := walk_chain decode files n' (ce_next entry) in
                       (ce_key entry :: out, r)
                   end
               end
           end
       end.

Definition str_decode (s : str) : result str := Err AttributeError.

Fixpoint walk_chains (decode : str -> result str) (files : list (option str * bytes))
  (l : list caddr) : list str * result unit :=
  match l with
  | [] => ([], Ok tt)
  | a :: r =>
      match walk_chain decode files 64 a with
      | (out, Err e) => (out, Err e)
      | (out, Ok _) => let (out', res) := walk_chains decode files r in (out ++ out', res)
      end
  end.

(** chrome_cache.py:659-752 [ParseDirectory]: the printed keys and the outcome.
    Simplified: the date and time of the printed lines is left out, the error raised when a
    date is out of range too; closing the files has no effect on the result. *)
Definition parse_directory (fuel : nat) (join : join2) (decode : str -> result str)
  (fs : filesystem) (path : str) : list str * run unit :=
  match join path (Some (s2z "index")) with
  | Err e => ([], Done (Err e))
  | Ok p =>
      match fs p with
      | None => ([], Done (Err ParseError))
      | Some content =>
          match read_index_file fuel [] content with
          | OutOfFuel => ([], OutOfFuel)
          | Done (Err e) => ([], Done (Err e))
          | Done (Ok (_, _, t)) =>
              match open_block_files join fs path (map snd t) [] true with
              | Err e => ([], Done (Err e))
              | Ok (_, false) => ([], Done (Err ParseError))
              | Ok (files, true) =>
                  let (out, r) := walk_chains decode files (map snd t) in (out, Done r)
              end
          end
      end
  end.

(** Independent description of Apple Spotlight stores (documentation/Apple Spotlight store
    database file format.asciidoc). *)

From Verif Require Import Base BaseFacts CoreModel DictModel SpotModel.

Definition u (n : nat) (v : Z) : Prop := 0 <= v < 256 ^ Z.of_nat n.

(** ** Variable size integers *)

(** An integer and the number of additional bytes that are used to store it. *)
Record vi := mkvi { vi_w : nat; vi_v : Z }.

(** The first byte starts with as many one bits as there are additional bytes, followed (up to
    four additional bytes) by the most significant bits of the value. *)
Definition vi_bytes (x : vi) : bytes :=
  (256 - 2 ^ (8 - Z.of_nat (vi_w x)) + vi_v x / 256 ^ Z.of_nat (vi_w x)) ::
  be_enc (vi_w x) (vi_v x mod 256 ^ Z.of_nat (vi_w x)).

Definition vi_ok (x : vi) : Prop :=
  (vi_w x <= 8)%nat /\ 0 <= vi_v x /\
  ((vi_w x <= 4)%nat -> vi_v x < 2 ^ (7 * Z.of_nat (vi_w x + 1))) /\
  ((4 < vi_w x)%nat -> vi_v x < 256 ^ Z.of_nat (vi_w x)).

(** ** Positions *)

(** [d] is stored at offset [off]. *)
Definition located (content : bytes) (off : Z) (d : bytes) : Prop :=
  exists pre post, content = pre ++ d ++ post /\ len pre = off.

(** ** Streams maps *)

Definition offsets_of (first : Z) (l : list bytes) : list Z :=
  (fix go o l := match l with [] => [] | x :: r => o :: go (o + len x) r end) first l.

Definition streams_of (l : list bytes) (unk : list Z) (trailing1 trailing2 trailing3 : bytes) : streams_files :=
  mksf (([0] ++ s2z "PataD" ++ [0; 0]) ++ concat (map (le_enc 4)
          (match unk with
           | [a; b; c; d; e; f; g; h; i; j] =>
               [a; b; c; len (concat l); d; len l; e; f; g; h; i; j]
           | _ => []
           end)) ++ trailing1)
       (concat (map (le_enc 4) (offsets_of 0 l)) ++ trailing2)
       (concat l ++ trailing3).

(** ** LZ4 pages *)

(** Blocks: compressed data with its size when decompressed, or stored data. *)
Inductive lz4_stored := LCompressed (usize : Z) (d : bytes) | LStored (d : bytes).

Definition lz4_stored_ok (b : lz4_stored) : Prop :=
  match b with LCompressed usize d => u 4 usize /\ u 4 (len d) | LStored d => u 4 (len d) end.

Definition lz4_stored_bytes (b : lz4_stored) : bytes :=
  match b with
  | LCompressed usize d => s2z "bv41" ++ le_enc 4 usize ++ le_enc 4 (len d) ++ d
  | LStored d => s2z "bv4-" ++ le_enc 4 (len d) ++ d
  end.

(** The contents of the blocks: a compressed block is decompressed with the content of the
    block before it. *)
Inductive lz4_contents (lz4 : lz4_fun) : option bytes -> list lz4_stored -> list bytes -> Prop :=
| lc_nil p : lz4_contents lz4 p [] []
| lc_compressed p usize d c bs cs : lz4 p usize d = Ok c -> lz4_contents lz4 (Some c) bs cs ->
    lz4_contents lz4 p (LCompressed usize d :: bs) (c :: cs)
| lc_stored p d bs cs : lz4_contents lz4 (Some d) bs cs ->
    lz4_contents lz4 p (LStored d :: bs) (d :: cs).

(** ** Records *)

(** A record: the values of its header and the data of its attributes. *)
Record srec := mksr { sr_id : vi; sr_flags : Z; sr_item : vi; sr_parent : vi; sr_time : vi; sr_attrs : bytes }.

Definition sr_head (r : srec) : bytes :=
  vi_bytes (sr_id r) ++ [sr_flags r] ++ vi_bytes (sr_item r) ++ vi_bytes (sr_parent r) ++ vi_bytes (sr_time r).
Definition sr_body (r : srec) : bytes := sr_head r ++ sr_attrs r.
Definition sr_bytes (r : srec) : bytes := le_enc 4 (len (sr_body r)) ++ sr_body r.
Definition sr_ok (r : srec) : Prop :=
  vi_ok (sr_id r) /\ vi_ok (sr_item r) /\ vi_ok (sr_parent r) /\ vi_ok (sr_time r) /\ u 4 (len (sr_body r)).

(** The descriptors of the records that a page at [page] stores from offset [off]. *)
Fixpoint descs_of (page off : Z) (l : list srec) : list (Z * rec_desc) :=
  match l with
  | [] => []
  | r :: q => (vi_v (sr_id r), mkrd page (off + 20) (vi_v (sr_id r)) (vi_v (sr_item r)) (vi_v (sr_parent r)) (vi_v (sr_time r)))
              :: descs_of page (off + len (sr_bytes r)) q
  end.

Definition page_of (type size used unc : Z) (data : bytes) : bytes :=
  s2z "2pbd" ++ le_enc 4 size ++ le_enc 4 used ++ le_enc 4 type ++ le_enc 4 unc ++ data.

(** A record page with the given content. *)
Inductive record_page (lz4 : lz4_fun) (zlib : bytes -> result bytes) (content : bytes) : bytes -> Prop :=
| rp_plain type used data :
    In type [9; 4105; 16393; 20489] -> u 4 (20 + len data) -> u 4 used -> content = data ->
    record_page lz4 zlib content (page_of type (20 + len data) used 0 data)
| rp_zlib type used unc data :
    In type [9; 4105; 16393; 20489] -> u 4 (20 + len data) -> u 4 used -> u 4 unc -> 0 < unc ->
    hd_error data = Some 120 -> zlib data = Ok content ->
    record_page lz4 zlib content (page_of type (20 + len data) used unc data)
| rp_lz4 type used unc blocks contents pad :
    In type [4105; 20489] -> u 4 used -> u 4 unc -> 0 < unc -> blocks <> [] ->
    Forall lz4_stored_ok blocks -> lz4_contents lz4 None blocks contents -> content = concat contents ->
    u 4 (20 + len (concat (map lz4_stored_bytes blocks) ++ s2z "bv4$" ++ pad)) ->
    record_page lz4 zlib content
      (page_of type (20 + len (concat (map lz4_stored_bytes blocks) ++ s2z "bv4$" ++ pad)) used unc
         (concat (map lz4_stored_bytes blocks) ++ s2z "bv4$" ++ pad)).

(** The records of pages at blocks. *)
Inductive pages_stored (lz4 : lz4_fun) (zlib : bytes -> result bytes) (content : bytes)
  : list Z -> list (list srec) -> Prop :=
| pgs_nil : pages_stored lz4 zlib content [] []
| pgs_cons b page recs bs rs : 0 <= b -> Forall sr_ok recs ->
    record_page lz4 zlib (concat (map sr_bytes recs)) page -> located content (b * 4096) page ->
    pages_stored lz4 zlib content bs rs -> pages_stored lz4 zlib content (b :: bs) (recs :: rs).

Fixpoint page_descs (blocks : list Z) (recs : list (list srec)) : list (Z * rec_desc) :=
  match blocks, recs with
  | b :: bs, r :: rs => descs_of (b * 4096) 0 r ++ page_descs bs rs
  | _, _ => []
  end.

Fixpoint page_cache (blocks : list Z) (recs : list (list srec)) : list (Z * bytes) :=
  match blocks, recs with
  | b :: bs, r :: rs => (b * 4096, concat (map sr_bytes r)) :: page_cache bs rs
  | _, _ => []
  end.

(** ** Property tables *)

(** The name of a value. *)
Definition named (values : dict prop) (i : Z) (name : str) : Prop :=
  match dict_get i values with Some (PValue n) => name = n | _ => name = [] end.

(** Values of property pages: the index, the property and the bytes. *)
Inductive prop_stored (utf8 : bytes -> option str) (values : dict prop) : Z -> Z -> prop -> bytes -> Prop :=
| ps_type i vt pt raw key : u 4 i -> u 1 vt -> u 1 pt -> ~ In 0 raw -> utf8 raw = Some key ->
    prop_stored utf8 values 17 i (PType vt pt key) (le_enc 4 i ++ le_enc 1 vt ++ le_enc 1 pt ++ raw ++ [0])
| ps_value i raw name : u 4 i -> ~ In 0 raw -> utf8 raw = Some name ->
    prop_stored utf8 values 33 i (PValue name) (le_enc 4 i ++ raw ++ [0])
| ps_list i x pad idx names : u 4 i -> vi_ok x -> vi_v x = len pad + 4 * len idx -> len pad < 4 ->
    Forall (u 4) idx -> Forall2 (named values) idx names ->
    prop_stored utf8 values 129 i (PList names) (le_enc 4 i ++ vi_bytes x ++ pad ++ concat (map (le_enc 4) idx)).

(** A property page of a type with the values, the number of the next block and unused space
    behind the values. *)
Definition prop_page (type unc next unk : Z) (data pad : bytes) : bytes :=
  page_of type (32 + len data + len pad) (32 + len data) unc (le_enc 4 next ++ le_enc 8 unk ++ data ++ pad).

Definition prop_page_ok (type unc next unk : Z) (data pad : bytes) : Prop :=
  u 4 (32 + len data + len pad) /\ u 4 unc /\ u 4 next /\ u 8 unk.

(** A chain of property pages, of the types given, that starts at a block: the assignments of
    its values. Pages of type 0x41 have no known values. *)
Inductive prop_chain (utf8 : bytes -> option str) (values : dict prop) (content : bytes) (types : list Z)
  : Z -> list (Z * prop) -> nat -> Prop :=
| pc_end : prop_chain utf8 values content types 0 [] 0
| pc_page block type unc next unk data pad kvs pieces rest n :
    0 < block -> located content (block * 4096) (prop_page type unc next unk data pad) ->
    prop_page_ok type unc next unk data pad ->
    (type = 65 /\ kvs = [] \/
     Forall2 (fun kv d => prop_stored utf8 values type (fst kv) (snd kv) d) kvs pieces /\ data = concat pieces /\
     In type types) ->
    prop_chain utf8 values content types next rest n ->
    prop_chain utf8 values content types block (kvs ++ rest) (S (n + length kvs)).

(** Values of streams maps, for the map number and the index of the stream. *)
Inductive stream_stored (utf8 : bytes -> option str) : Z -> option prop -> bytes -> Prop :=
| ss_type x vt pt raw key rest : vi_ok x -> u 1 vt -> u 1 pt -> ~ In 0 raw -> utf8 raw = Some key ->
    vi_v x = len ([vt; pt] ++ raw ++ 0 :: rest) ->
    stream_stored utf8 1 (Some (PType vt pt key)) (vi_bytes x ++ [vt; pt] ++ raw ++ 0 :: rest)
| ss_value x raw name rest : vi_ok x -> ~ In 0 raw -> utf8 raw = Some name ->
    vi_v x = len (raw ++ 0 :: rest) ->
    stream_stored utf8 2 (Some (PValue name)) (vi_bytes x ++ raw ++ 0 :: rest)
| ss_remnant number x rest : vi_ok x -> vi_v x <> len rest ->
    stream_stored utf8 number None (vi_bytes x ++ rest).

(** The assignments of the streams, numbered from [i]. *)
Fixpoint numbered (i : Z) (l : list (option prop)) : list (Z * prop) :=
  match l with
  | [] => []
  | None :: r => numbered (i + 1) r
  | Some p :: r => (i, p) :: numbered (i + 1) r
  end.

Inductive list_stored (values : dict prop) : prop -> bytes -> Prop :=
| ls_list y x pad idx names rest : vi_ok y -> vi_ok x -> vi_v x = len pad + 4 * len idx -> len pad < 4 ->
    Forall (u 4) idx -> Forall2 (named values) idx names ->
    list_stored values (PList names) (vi_bytes y ++ vi_bytes x ++ pad ++ concat (map (le_enc 4) idx) ++ rest).

(** ** Map pages *)

Definition map_page (sig : bytes) (unk1 unk2 : Z) (values : list (Z * Z * Z)) (pad : bytes) : bytes :=
  sig ++ le_enc 4 (20 + 16 * len values + len pad) ++ le_enc 4 (len values) ++ le_enc 4 unk1 ++ le_enc 4 unk2 ++
  concat (map (fun v => le_enc 8 (fst (fst v)) ++ le_enc 4 (snd (fst v)) ++ le_enc 4 (snd v)) values) ++ pad.

Definition map_page_ok (sig : bytes) (unk1 unk2 : Z) (values : list (Z * Z * Z)) (pad : bytes) : Prop :=
  (sig = s2z "1mbd" \/ sig = s2z "2mbd") /\ u 4 unk1 /\ u 4 unk2 /\ u 4 (20 + 16 * len values + len pad) /\
  Forall (fun v => u 8 (fst (fst v)) /\ u 4 (snd (fst v)) /\ u 4 (snd v)) values.

(** Map pages that follow each other: their bytes and the block numbers. *)
Inductive map_stored : bytes -> list Z -> nat -> Prop :=
| ms_nil : map_stored [] [] 0
| ms_page sig unk1 unk2 values pad d blocks n : map_page_ok sig unk1 unk2 values pad -> map_stored d blocks n ->
    map_stored (map_page sig unk1 unk2 values pad ++ d) (map (fun v => snd (fst v)) values ++ blocks) (S n).

(** ** Attributes *)

(** The two low bits of the property type. *)
Definition multi (pt : Z) : bool := Z.testbit pt 1.
Definition localized (pt : Z) : bool := Z.testbit pt 1 && Z.testbit pt 0.

(** Strings with their terminators. *)
Inductive strings_stored (utf8 : bytes -> option str) : list str -> bytes -> Prop :=
| sg_nil : strings_stored utf8 [] []
| sg_cons raw s l d : ~ In 0 raw -> utf8 raw = Some s -> strings_stored utf8 l d ->
    strings_stored utf8 (s :: l) (raw ++ 0 :: d).

(** The text of a localized string: what comes before the first SYN, STX. *)
Definition text_of (s t : str) : Prop :=
  (s = t /\ (forall a b, s <> a ++ [22; 2] ++ b)) \/
  (exists lang, s = t ++ [22; 2] ++ lang /\ (forall a b, t ++ [22] <> a ++ [22; 2] ++ b)).

(** How attribute values are stored for a value type and a property type. Multi-valued
    variable size integers are not included, see C49. *)
Inductive stored (utf8 : bytes -> option str) (tb : tables) (vt pt : Z) : attr_value -> bytes -> Prop :=
| st_int x : In vt [0; 2; 6] \/ vt = 7 /\ multi pt = false -> vi_ok x ->
    stored utf8 tb vt pt (AInt (vi_v x)) (vi_bytes x)
| st_byte b : vt = 8 -> multi pt = false -> stored utf8 tb vt pt (AByte b) [b]
| st_bytes x d : vt = 8 -> multi pt = true -> vi_ok x -> vi_v x = len d ->
    stored utf8 tb vt pt (ABytes d) (vi_bytes x ++ d)
| st_float w d : vt = 9 /\ w = 4%nat \/ In vt [10; 12] /\ w = 8%nat -> multi pt = false -> length d = w ->
    stored utf8 tb vt pt (AFloat d) d
| st_floats w x l : vt = 9 /\ w = 4%nat \/ In vt [10; 12] /\ w = 8%nat -> multi pt = true ->
    Forall (fun d => length d = w) l -> vi_ok x -> vi_v x = len (concat l) ->
    stored utf8 tb vt pt (AFloats l) (vi_bytes x ++ concat l)
| st_string x s l d : vt = 11 -> multi pt = false -> strings_stored utf8 (s :: l) d -> vi_ok x -> vi_v x = len d ->
    stored utf8 tb vt pt (AString s) (vi_bytes x ++ d)
| st_localized x s t l d : vt = 11 -> localized pt = true -> strings_stored utf8 (s :: l) d -> text_of s t ->
    vi_ok x -> vi_v x = len d -> stored utf8 tb vt pt (AString t) (vi_bytes x ++ d)
| st_strings x l d : vt = 11 -> multi pt = true -> localized pt = false -> strings_stored utf8 l d ->
    vi_ok x -> vi_v x = len d -> stored utf8 tb vt pt (AStrings l) (vi_bytes x ++ d)
| st_data x d : vt = 14 -> vi_ok x -> vi_v x = len d -> stored utf8 tb vt pt (AData d) (vi_bytes x ++ d)
| st_ref_value x name : vt = 15 -> multi pt = false -> vi_ok x -> dict_get (vi_v x) (tb_values tb) = Some (PValue name) ->
    stored utf8 tb vt pt (AString name) (vi_bytes x)
| st_ref_list x l : vt = 15 -> multi pt = true -> localized pt = false -> vi_ok x ->
    dict_get (vi_v x) (tb_lists tb) = Some (PList l) -> stored utf8 tb vt pt (AStrings l) (vi_bytes x)
| st_ref_localized x s t l : vt = 15 -> localized pt = true -> vi_ok x ->
    dict_get (vi_v x) (tb_localized tb) = Some (PList (s :: l)) -> text_of s t ->
    stored utf8 tb vt pt (AString t) (vi_bytes x).

Definition accumulated : str := s2z "kMDStoreAccumulatedSizes".

(** Attributes of a record: type indexes are stored relative to the one of the attribute
    before. Every attribute with its bytes. *)
Inductive attrs_stored (utf8 : bytes -> option str) (tb : tables) : Z -> list (attribute * bytes) -> Prop :=
| as_nil i : attrs_stored utf8 tb i []
| as_cons i x vt pt key v d l : vi_ok x ->
    dict_get (i + vi_v x) (tb_types tb) = Some (PType vt pt key) -> key <> accumulated ->
    stored utf8 tb vt pt v d -> attrs_stored utf8 tb (i + vi_v x) l ->
    attrs_stored utf8 tb i ((mkattr key pt vt v, vi_bytes x ++ d) :: l).

Definition attrs_bytes (l : list (attribute * bytes)) : bytes := concat (map snd l).

(** The dictionary of attributes. *)
Definition attrs_dict (l : list (attribute * bytes)) : sdict attribute :=
  fold_left (fun t a => sdict_set (at_key (fst a)) (fst a) t) l [].

(** ** Store files *)

Record store_head := mkhd {
  hd_unknown : list Z; hd_map_offset : Z; hd_map_size : Z; hd_unknown2 : Z; hd_types : Z; hd_values : Z; hd_unknown41 : Z;
  hd_lists : Z; hd_localized : Z; hd_unknown3 : bytes; hd_path : bytes }.

Definition store_head_bytes (h : store_head) : bytes :=
  s2z "8tsd" ++ concat (map (le_enc 4) (hd_unknown h ++ [hd_map_offset h; hd_map_size h; hd_unknown2 h; hd_types h;
    hd_values h; hd_unknown41 h; hd_lists h; hd_localized h])) ++ hd_unknown3 h ++ hd_path h.

(** [path] is the path of the volume, with its terminator and what follows it in [hd_path]. *)
Definition store_head_ok (utf8 : bytes -> option str) (h : store_head) : Prop :=
  length (hd_unknown h) = 8%nat /\
  Forall (u 4) (hd_unknown h ++ [hd_map_offset h; hd_map_size h; hd_unknown2 h; hd_types h;
    hd_values h; hd_unknown41 h; hd_lists h; hd_localized h]) /\
  length (hd_unknown3 h) = 256%nat /\ is_bytes (hd_unknown3 h) /\
  length (hd_path h) = 256%nat /\ is_bytes (hd_path h) /\
  exists path pad text, hd_path h = path ++ 0 :: pad /\ ~ In 0 path /\ utf8 path = Some text.

(** The streams of a streams map. *)
Definition streams_are (f : option streams_files) (l : list bytes) : Prop :=
  exists unk t1 t2 t3, f = Some (streams_of l unk t1 t2 t3) /\ length unk = 10%nat /\ Forall (u 4) unk /\
    concat (removelast l) <> [] /\ u 4 (len (concat l)) /\ u 4 (len l).

(** A table of types (1) or values (2): in property pages, or in a streams map if the block
    number is 0. The stream before the first one is not used. *)
Inductive attr_table (utf8 : bytes -> option str) (content : bytes) (f : option streams_files) (number : Z)
  (types : list Z) (block : Z) : list (Z * prop) -> nat -> Prop :=
| at_pages kvs n : 0 < block -> prop_chain utf8 [] content types block kvs n ->
    attr_table utf8 content f number types block kvs n
| at_streams first l sl : block = 0 -> streams_are f (first :: sl) -> Forall2 (stream_stored utf8 number) l sl ->
    attr_table utf8 content f number types block (numbered 1 l) 0.

Inductive list_table (utf8 : bytes -> option str) (values : dict prop) (content : bytes) (f : option streams_files)
  (block : Z) : list (Z * prop) -> nat -> Prop :=
| lt_pages kvs n : 0 < block -> prop_chain utf8 values content [129] block kvs n ->
    list_table utf8 values content f block kvs n
| lt_streams first l sl : block = 0 -> streams_are f (first :: sl) -> Forall2 (list_stored values) l sl ->
    list_table utf8 values content f block (numbered 1 (map Some l)) 0.

(** A store: its tables and the records of its pages. *)
Record stored_file := mkfile {
  fl_head : store_head; fl_types : list (Z * prop); fl_values : list (Z * prop); fl_unknown : list (Z * prop);
  fl_lists : list (Z * prop); fl_localized : list (Z * prop); fl_blocks : list Z; fl_records : list (list srec) }.

Definition file_tables (s : stored_file) : tables :=
  mktab (dict_of (fl_types s) []) (dict_of (fl_values s) []) (dict_of (fl_lists s) []) (dict_of (fl_localized s) []).

Definition store_file (utf8 : bytes -> option str) (lz4 : lz4_fun) (zlib : bytes -> result bytes)
  (streams : Z -> option streams_files) (content : bytes) (s : stored_file) : Prop :=
  let h := fl_head s in let values := dict_of (fl_values s) [] in
  store_head_ok utf8 h /\ located content 0 (store_head_bytes h) /\
  (exists d n, map_stored d (fl_blocks s) n /\ located content (hd_map_offset h) d /\ len d = hd_map_size h) /\
  (exists n, attr_table utf8 content (streams 1) 1 [17] (hd_types h) (fl_types s) n) /\
  (exists n, attr_table utf8 content (streams 2) 2 [33] (hd_values h) (fl_values s) n) /\
  (exists n, list_table utf8 values content (streams 3) (hd_unknown41 h) (fl_unknown s) n) /\
  (exists n, list_table utf8 values content (streams 4) (hd_lists h) (fl_lists s) n) /\
  (exists n, list_table utf8 values content (streams 5) (hd_localized h) (fl_localized s) n) /\
  pages_stored lz4 zlib content (fl_blocks s) (fl_records s).

(** All records in the order of the pages. *)
Definition file_records (s : stored_file) : list srec := concat (fl_records s).

(** The item that a record describes, if its attributes are [l]. *)
Definition item_of (r : srec) (l : list (attribute * bytes)) : item :=
  mkitem (vi_v (sr_id r)) (vi_v (sr_item r)) (vi_v (sr_parent r)) (vi_v (sr_time r)) (attrs_dict l).

Definition rid (r : srec) : Z := vi_v (sr_id r).

(** The object for a store. *)
Definition store_of (s : stored_file) : store :=
  mkstore (file_tables s) (dict_of (page_descs (fl_blocks s) (fl_records s)) [])
    (dict_of (page_cache (fl_blocks s) (fl_records s)) []).

(** The attributes that the reader gets: all but the last ones with at most 4 bytes. *)
Definition reads (l1 l2 : list (attribute * bytes)) : Prop :=
  len (attrs_bytes l2) <= 4 /\
  forall l a, l1 = l ++ [a] -> 4 < len (snd a) + len (attrs_bytes l2).

(** What a WMI repository contains, after "WMI repository file format.asciidoc" in the documentation. *)

From Verif Require Import Base BaseFacts SeqSpec WmiModel.

Definition is_u16 (z : Z) : Prop := 0 <= z < 2 ^ 16.
Definition is_u32 (z : Z) : Prop := 0 <= z < 2 ^ 32.

(** ** Mapping files *)

(** The entries of a table: a page number and [pad] more bytes each. *)
Inductive entries (pad : Z) : list Z -> bytes -> Prop :=
| en_nil : entries pad [] []
| en_cons n l x d : is_u32 n -> len x = pad -> entries pad l d -> entries pad (n :: l) (le_enc 4 n ++ x ++ d).

(** A table: the number of entries and the entries. *)
Definition table_bytes (pad : Z) (l : list Z) (d : bytes) : Prop :=
  is_u32 (len l) /\ exists d', d = le_enc 4 (len l) ++ d' /\ entries pad l d'.

(** The header of a mapping file, of version 1 or 2. *)
Definition map_head (version sequence : Z) (d : bytes) : Prop :=
  is_u32 sequence /\
  exists more, d = le_enc 4 0xabcd ++ le_enc 4 sequence ++ more /\ len more = (if version =? 1 then 4 else 12).

(** Mapping table, unknown table and footer. *)
Definition map_tables (version : Z) (l : list Z) (d : bytes) : Prop :=
  exists t u unknown, d = t ++ u ++ le_enc 4 0xdcba /\
    table_bytes (if version =? 1 then 0 else 20) l t /\ table_bytes 0 unknown u.

(** The header starts as one of version 2. *)
Definition version2 (content : bytes) : Prop :=
  exists sequence b pages rest,
    is_u32 sequence /\ is_u32 (b + 1) /\ is_u32 b /\ is_u32 pages /\
    content = le_enc 4 0xabcd ++ le_enc 4 sequence ++ le_enc 4 (b + 1) ++ le_enc 4 b ++ le_enc 4 pages ++ rest.

(** A mapping file. One of version 2 has two sections; one of version 1 has one or two, and can be
    followed by data that does not start as a section. *)
Definition map_file (m : mapfile) (content : bytes) : Prop :=
  exists h t rest,
    content = h ++ t ++ rest /\
    map_head (mf_version m) (mf_sequence m) h /\ map_tables (mf_version m) (mf_table1 m) t /\
    (mf_version m = 2 /\ version2 content \/ mf_version m = 1 /\ ~ version2 content) /\
    match mf_table2 m with
    | None => mf_version m = 1 /\ ~ exists s h' rest', rest = h' ++ rest' /\ map_head 1 s h'
    | Some l => exists s h' t' rest', rest = h' ++ t' ++ rest' /\
        map_head (mf_version m) s h' /\ map_tables (mf_version m) l t'
    end.

(** ** Index *)

(** A key consists of segments. *)
Definition key_text (segments : list str) : str :=
  match segments with [] => [92] | _ => flat_map (cons 92) segments end.

(** The numbers of the segments of the key at [off], counted in units of 16 bits. *)
Definition key_at (key_data : bytes) (off : Z) (segments : list Z) : Prop :=
  is_u16 (len segments) /\ Forall is_u16 segments /\
  stored_at key_data (2 * off) (le_enc 2 (len segments) ++ enc_ints (FU LE 2) segments).

(** The value at [off], an ASCII string with an end-of-string character. *)
Definition value_at (value_data : bytes) (off : Z) (s : str) : Prop :=
  Forall (fun c => 0 < c < 128) s /\ stored_at value_data off (s ++ [0]).

(** The sub pages (all numbers that are stored) and the keys of a page body. *)
Definition body_bytes (subs : list Z) (keys : list str) (d : bytes) : Prop :=
  exists nkeys key_size unknown key_offsets key_data value_offsets value_data rest,
    is_u32 nkeys /\ len unknown = nkeys /\ len subs = nkeys + 1 /\ len key_offsets = nkeys /\
    is_u16 key_size /\ len key_data = 2 * key_size /\ is_u16 (len value_offsets) /\ is_u16 (len value_data) /\
    Forall is_u32 unknown /\ Forall is_u32 subs /\ Forall is_u16 key_offsets /\ Forall is_u16 value_offsets /\
    d = le_enc 4 nkeys ++ enc_ints (FU LE 4) unknown ++ enc_ints (FU LE 4) subs ++
        enc_ints (FU LE 2) key_offsets ++ le_enc 2 key_size ++ key_data ++
        le_enc 2 (len value_offsets) ++ enc_ints (FU LE 2) value_offsets ++
        le_enc 2 (len value_data) ++ value_data ++ rest /\
    exists segments values,
      Forall2 (key_at key_data) key_offsets segments /\
      Forall2 (value_at value_data) value_offsets values /\
      Forall2 (fun key l => exists strings, key = key_text strings /\
                 Forall2 (fun i s => nth_error values (Z.to_nat i) = Some s) l strings) keys segments.

(** A page number that refers to a page. *)
Definition is_page (n : Z) : Prop := n <> 0 /\ n <> 0xffffffff.

(** A page of 8192 bytes. *)
Definition page_bytes (p : wpage) (d : bytes) : Prop :=
  len d = 8192 /\ is_u32 (wp_type p) /\ is_u32 (wp_root p) /\
  exists number unknown body,
    is_u32 number /\ is_u32 unknown /\
    d = le_enc 4 (wp_type p) ++ le_enc 4 number ++ le_enc 4 unknown ++ le_enc 4 (wp_root p) ++ body /\
    (wp_type p <> 0xaccc /\ wp_subs p = [] /\ wp_keys p = [] \/
     wp_type p = 0xaccc /\ exists stored, body_bytes stored (wp_keys p) body /\
       (* the sub pages are the stored numbers that refer to a page, in order *)
       exists drop, (forall n, drop n = true <-> ~ is_page n) /\
         wp_subs p = filter (fun n => negb (drop n)) stored).

(** Page [n] of the index is mapped to page [q] of the file. *)
Definition mapped (table : list Z) (n q : Z) : Prop := 0 <= n /\ nth_error table (Z.to_nat n) = Some q.

(** The mapped page [n] is [p], or lies behind the end of the file. *)
Definition is_mapped_page (table : list Z) (content : bytes) (n : Z) (p : wpage) : Prop :=
  exists q d, mapped table n q /\ stored_at content (q * 8192) d /\ page_bytes p d.

Definition no_mapped_page (table : list Z) (content : bytes) (n : Z) : Prop :=
  exists q, mapped table n q /\ len content <= q * 8192.

(** The keys of the tree below a page: those of the page, then those of its sub pages. *)
Inductive tree_keys (table : list Z) (content : bytes) : Z -> list str -> Prop :=
| tk_none n : no_mapped_page table content n -> tree_keys table content n []
| tk_page n p l : is_mapped_page table content n p -> trees_keys table content (wp_subs p) l ->
    tree_keys table content n (wp_keys p ++ l)
with trees_keys (table : list Z) (content : bytes) : list Z -> list str -> Prop :=
| tks_nil : trees_keys table content [] []
| tks_cons n l a b : tree_keys table content n a -> trees_keys table content l b ->
    trees_keys table content (n :: l) (a ++ b).

(** One page refers to the other. *)
Definition refers (table : list Z) (content : bytes) (n m : Z) : Prop :=
  exists p, is_mapped_page table content n p /\ In m (wp_subs p).

(** One page is reached from the other in zero or more, or in one or more, steps. *)
Inductive reaches (table : list Z) (content : bytes) : Z -> Z -> Prop :=
| re_refl n : reaches table content n n
| re_step n m k : refers table content n m -> reaches table content m k -> reaches table content n k.

Definition reaches1 (table : list Z) (content : bytes) (n k : Z) : Prop :=
  exists m, refers table content n m /\ reaches table content m k.

(** The number of the root page. *)
Definition root_number (v21 : bool) (table : list Z) (content : bytes) (root : Z) : Prop :=
  if v21 then exists p, is_mapped_page table content 0 p /\ wp_type p = 0xaddd /\ wp_root p = root
  else root = 1.

(** ** Object records *)

Definition desc_bytes (d : wdesc) : bytes :=
  le_enc 4 (wd_id d) ++ le_enc 4 (wd_offset d) ++ le_enc 4 (wd_size d) ++ le_enc 4 (wd_checksum d).

Definition desc_ok (d : wdesc) : Prop :=
  is_u32 (wd_id d) /\ is_u32 (wd_offset d) /\ is_u32 (wd_size d) /\ is_u32 (wd_checksum d) /\
  d <> mkwdesc 0 0 0 0.

(** The descriptors at the start of a page, with the empty one behind. *)
Definition descs_at (content : bytes) (off : Z) (l : list wdesc) : Prop :=
  Forall desc_ok l /\ stored_at content off (concat (map desc_bytes l) ++ repeat 0 16).

(** The first descriptor with an identifier. *)
Definition first_desc (l : list wdesc) (id : Z) (d : wdesc) : Prop :=
  wd_id d = id /\ exists l1 l2, l = l1 ++ d :: l2 /\ Forall (fun d => wd_id d <> id) l1.

(** The data of a record that starts at an offset of mapped page [n]; it fills the page and goes on at
    the start of the next mapped page. *)
Inductive spread (table : list Z) (content : bytes) : Z -> Z -> bytes -> Prop :=
| sp_last n off q d : mapped table n q -> stored_at content (q * 8192 + off) d ->
    0 < len d <= 8192 - off -> spread table content n off d
| sp_more n off q d r : mapped table n q -> stored_at content (q * 8192 + off) d ->
    0 < len d -> len d = 8192 - off -> r <> [] -> spread table content (n + 1) 0 r ->
    spread table content n off (d ++ r).

(** ** Names *)

(** The part of the pattern language of Python's glob module that the patterns here need: [*], [?] and sets of
    characters without ranges or negation; other characters stand for themselves. *)
Inductive gmatch : str -> str -> Prop :=
| gm_nil : gmatch [] []
| gm_char c p s : ~ In c [42; 63; 91] -> gmatch p s -> gmatch (c :: p) (c :: s)
| gm_any x p s : gmatch p s -> gmatch (63 :: p) (x :: s)
| gm_star p a s : gmatch p s -> gmatch (42 :: p) (a ++ s)
| gm_set x l p s : l <> [] -> hd 0 l <> 33 -> ~ In 93 l -> ~ In 45 l -> In x l -> gmatch p s ->
    gmatch (91 :: l ++ 93 :: p) (x :: s).

Definition ascii_upper (c : Z) : Prop := 65 <= c <= 90.
Definition ascii_lower (c : Z) : Prop := 97 <= c <= 122.

(** Equal ignoring ASCII case. *)
Definition same_letter (a b : Z) : Prop :=
  a = b \/ ascii_upper a /\ b = a + 32 \/ ascii_upper b /\ a = b + 32.

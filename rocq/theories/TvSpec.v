(** The chunks of a tracev3 file.

    Source: /repo/documentation/Apple Unified Logging and Activity Tracing formats.asciidoc, sections
    "tracev3 chunk", "ChunkSet chunk", "LZ4 compressed data", "Data item" and "Oversize chunk". *)

From Verif Require Import Base BaseFacts SeqSpec TvModel.
From Coq Require String.
Import String.StringSyntax.

Definition n8 (v : Z) : Prop := 0 <= v < 2 ^ 8.
Definition n16 (v : Z) : Prop := 0 <= v < 2 ^ 16.
Definition n32 (v : Z) : Prop := 0 <= v < 2 ^ 32.
Definition n64 (v : Z) : Prop := 0 <= v < 2 ^ 64.

(** The first multiple of 8 that is not before [a]. *)
Definition next8 (a b : Z) : Prop := a <= b < a + 8 /\ exists k, b = 8 * k.

Definition chunk_head (tag size : Z) (d : bytes) : Prop :=
  n32 tag /\ n64 size /\ exists sub, n32 sub /\ d = le_enc 4 tag ++ le_enc 4 sub ++ le_enc 8 size.

(** The [size] bytes at [off], or what there is of them. *)
Definition available (content : bytes) (off size : Z) (d : bytes) : Prop :=
  stored_at content off d /\ (len d = size \/ (len d < size /\ off + len d = len content)).

(** ** Data items and oversize chunks *)

(** The kinds of values that are stored in the values data: strings, private strings, binary data and
    (private) objects. *)
Definition by_range (type : Z) : Prop := In type [32; 33; 34; 48; 50; 64; 65; 66; 242].

Inductive item_bytes : tv_item -> bytes -> Prop :=
| ib_range type o n : by_range type -> n16 o -> n16 n -> item_bytes (TRange type o n) ([type; 4] ++ le_enc 2 o ++ le_enc 2 n)
| ib_inline type data : n8 type -> ~ by_range type -> n8 (len data) -> item_bytes (TInline type data) ([type; len data] ++ data).

(** The header of an oversize chunk with the sizes of the data and of the private data. *)
Definition oversize_head (o : oversize) (size private : Z) (d : bytes) : Prop :=
  n64 (ov_upper o) /\ n32 (ov_lower o) /\ n8 (ov_ttl o) /\ n64 (ov_time o) /\ n32 (ov_reference o) /\ n16 size /\ n16 private /\
  exists u1 u2, n8 u1 /\ n16 u2 /\
  d = le_enc 8 (ov_upper o) ++ le_enc 4 (ov_lower o) ++ [ov_ttl o; u1] ++ le_enc 2 u2 ++ le_enc 8 (ov_time o) ++ le_enc 4 (ov_reference o) ++ le_enc 2 size ++ le_enc 2 private.

(** The data items. *)
Definition items_bytes (l : list tv_item) (d : bytes) : Prop :=
  exists u ds, n8 u /\ n8 (len l) /\ Forall2 item_bytes l ds /\ d = [u; len l] ++ concat ds.

(** An oversize chunk as it is read: the values data and the private data follow the data items. *)
Definition oversize_bytes (o : oversize) (data : bytes) : Prop :=
  exists size private h i rest, oversize_head o size private h /\ items_bytes (ov_items o) i /\ data = h ++ i ++ rest /\
    ov_values o = zfirstn size rest /\ ov_private o = zfirstn private (zskipn size rest).

(** An oversize chunk as it is documented: the size of the data includes the data items. *)
Definition oversize_documented (o : oversize) (data : bytes) : Prop :=
  exists h i, oversize_head o (len i + len (ov_values o)) (len (ov_private o)) h /\ items_bytes (ov_items o) i /\
    data = h ++ i ++ ov_values o ++ ov_private o.

(** ** Chunks *)

Inductive chunk := Catalog (off size : Z) | Inner (tag : Z) (data : bytes) (size : Z).

(** The chunks from [pos] on of the data of a chunk set that has [size] bytes according to its header;
    [stop] is the error if reading stops there. *)
Inductive inner_chunks (plain : bytes) (size : Z) : Z -> list chunk -> option exn -> Prop :=
| ic_end pos : size <= pos -> inner_chunks plain size pos [] None
| ic_next pos tag n h data next l stop : pos < size -> chunk_head tag n h -> stored_at plain pos h -> available plain (pos + 16) n data ->
    next8 (pos + 16 + n) next -> inner_chunks plain size next l stop -> inner_chunks plain size pos (Inner tag data n :: l) stop
| ic_short pos : pos < size -> pos < len plain < pos + 16 -> inner_chunks plain size pos [] (Some ParseError)
| ic_none pos : pos < size -> len plain <= pos -> inner_chunks plain size pos [] (Some ValueError).

Definition marker : bytes := s2z "bv4$"%string.
Definition block_head (size c : Z) : bytes := s2z "bv41"%string ++ le_enc 4 size ++ le_enc 4 c.

(** The data of a chunk set at [off]: one LZ4 block, compressed or not, and the end marker. The
    compressed data is passed to the decompressor before the end marker is checked. *)
Inductive set_block (lz4 : bytes -> Z -> result bytes) (content : bytes) (off : Z) (data : bytes) : result (bytes * Z) -> Prop :=
| sb_compressed z size plain rest : n32 (len z) -> n32 size -> data = block_head size (len z) ++ z ++ marker ++ rest -> lz4 z size = Ok plain ->
    set_block lz4 content off data (Ok (plain, size))
| sb_plain plain rest : n32 (len plain) -> data = s2z "bv4-"%string ++ le_enc 4 (len plain) ++ plain ++ marker ++ rest ->
    set_block lz4 content off data (Ok (plain, len plain))
| sb_decompress size c e : n32 size -> n32 c -> stored_at content off (block_head size c) -> lz4 (zfirstn c (zskipn 12 data)) size = Err e ->
    set_block lz4 content off data (Err e)
| sb_compressed_end size c plain : n32 size -> n32 c -> stored_at content off (block_head size c) -> lz4 (zfirstn c (zskipn 12 data)) size = Ok plain ->
    (forall z rest, len z = c -> data <> block_head size c ++ z ++ marker ++ rest) -> set_block lz4 content off data (Err ParseError)
| sb_plain_end : stored_at content off (s2z "bv4-"%string) ->
    (forall plain rest, n32 (len plain) -> data <> s2z "bv4-"%string ++ le_enc 4 (len plain) ++ plain ++ marker ++ rest) -> set_block lz4 content off data (Err ParseError)
| sb_other : ~ stored_at content off (s2z "bv41"%string) -> ~ stored_at content off (s2z "bv4-"%string) -> set_block lz4 content off data (Err ParseError)
| sb_short : len content < off + 12 -> set_block lz4 content off data (Err ParseError).

(** The chunks of a file from [pos] on. *)
Inductive file_chunks (lz4 : bytes -> Z -> result bytes) (content : bytes) : Z -> list chunk -> option exn -> Prop :=
| fc_end pos : len content <= pos -> file_chunks lz4 content pos [] None
| fc_catalog pos size h next l stop : chunk_head 0x600b size h -> stored_at content pos h -> next8 (pos + 16 + size) next ->
    file_chunks lz4 content next l stop -> file_chunks lz4 content pos (Catalog (pos + 16) size :: l) stop
| fc_set pos size h data plain n l next l' stop : chunk_head 0x600d size h -> stored_at content pos h -> size < 2 ^ 63 -> available content (pos + 16) size data ->
    set_block lz4 content (pos + 16) data (Ok (plain, n)) -> inner_chunks plain n 0 l None -> next8 (pos + 16 + size) next ->
    file_chunks lz4 content next l' stop -> file_chunks lz4 content pos (l ++ l') stop
| fc_inner pos size h data plain n l e : chunk_head 0x600d size h -> stored_at content pos h -> size < 2 ^ 63 -> available content (pos + 16) size data ->
    set_block lz4 content (pos + 16) data (Ok (plain, n)) -> inner_chunks plain n 0 l (Some e) -> file_chunks lz4 content pos l (Some e)
| fc_block pos size h data e : chunk_head 0x600d size h -> stored_at content pos h -> size < 2 ^ 63 -> available content (pos + 16) size data ->
    set_block lz4 content (pos + 16) data (Err e) -> file_chunks lz4 content pos [] (Some e)
| fc_large pos size h : chunk_head 0x600d size h -> stored_at content pos h -> 2 ^ 63 <= size -> file_chunks lz4 content pos [] (Some OverflowError)
| fc_tag pos tag size h : chunk_head tag size h -> stored_at content pos h -> tag <> 0x600b -> tag <> 0x600d -> file_chunks lz4 content pos [] (Some ParseError)
| fc_short pos : pos < len content < pos + 16 -> file_chunks lz4 content pos [] (Some ParseError).

(** ** What is done with the chunks *)

(** The last oversize chunk with these numbers. *)
Inductive last_oversize (upper lower ref : Z) : list oversize -> option oversize -> Prop :=
| lo_none : last_oversize upper lower ref [] None
| lo_this l o : ov_upper o = upper -> ov_lower o = lower -> ov_reference o = ref -> last_oversize upper lower ref (l ++ [o]) (Some o)
| lo_other l o x : ~ (ov_upper o = upper /\ ov_lower o = lower /\ ov_reference o = ref) -> last_oversize upper lower ref l x ->
    last_oversize upper lower ref (l ++ [o]) x.

Definition with_history {E S} (hist : list oversize) (g : list E * result S) : list E * result (S * list oversize) :=
  (fst g, do s <- snd g; Ok (s, hist)).

Inductive chunk_effect {E S} (c : tv_calls E S) (st : S) (hist : list oversize) : chunk -> list E * result (S * list oversize) -> Prop :=
| ce_catalog off size st' tell : tc_catalog c st off size = Ok (st', tell) -> chunk_effect c st hist (Catalog off size) ([], Ok (st', hist))
| ce_catalog_error off size e : tc_catalog c st off size = Err e -> chunk_effect c st hist (Catalog off size) ([], Err e)
| ce_firehose data size look : (forall u l r x, 0 <= u -> 0 <= l -> 0 <= r -> last_oversize u l r hist x -> look u l r = x) ->
    chunk_effect c st hist (Inner 0x6001 data size) (with_history hist (tc_firehose c st look data size))
| ce_oversize data size o : oversize_bytes o data -> chunk_effect c st hist (Inner 0x6002 data size) ([], Ok (st, hist ++ [o]))
| ce_oversize_error data size : data <> [] -> (forall o, ~ oversize_bytes o data) -> chunk_effect c st hist (Inner 0x6002 data size) ([], Err ParseError)
| ce_oversize_empty size : chunk_effect c st hist (Inner 0x6002 [] size) ([], Err ValueError)
| ce_statedump data size : chunk_effect c st hist (Inner 0x6003 data size) (with_history hist (tc_statedump c st data size))
| ce_simpledump data size : chunk_effect c st hist (Inner 0x6004 data size) (with_history hist (tc_simpledump c st data size))
| ce_other tag data size : ~ In tag [0x6001; 0x6002; 0x6003; 0x6004] -> chunk_effect c st hist (Inner tag data size) ([], Ok (st, hist)).

(** The effects of chunks one after the other: the log entries, the state and the oversize chunks at the
    end, or the first error. *)
Inductive effects {E S} (c : tv_calls E S) : S -> list oversize -> list chunk -> option exn -> list E -> result (S * list oversize) -> Prop :=
| ef_end st hist : effects c st hist [] None [] (Ok (st, hist))
| ef_stop st hist e : effects c st hist [] (Some e) [] (Err e)
| ef_next st hist k l stop es st' hist' es' r : chunk_effect c st hist k (es, Ok (st', hist')) -> effects c st' hist' l stop es' r ->
    effects c st hist (k :: l) stop (es ++ es') r
| ef_error st hist k l stop es e : chunk_effect c st hist k (es, Err e) -> effects c st hist (k :: l) stop es (Err e).

(** What a firehose chunk does depends on the oversize chunks that can be found, and only on these. *)
Definition calls_wf {E S} (c : tv_calls E S) : Prop :=
  forall st f g data size, (forall u l r, 0 <= u -> 0 <= l -> 0 <= r -> f u l r = g u l r) -> tc_firehose c st f data size = tc_firehose c st g data size.

(** Decompression returns bytes. *)
Definition lz4_wf (lz4 : bytes -> Z -> result bytes) : Prop := forall z n d, lz4 z n = Ok d -> is_bytes d.

(** ** Writing chunks *)

Definition pad8 (n : Z) : bytes := repeat 0 (Z.to_nat ((8 - n mod 8) mod 8)).
Definition enc_chunk (tag sub : Z) (data : bytes) : bytes := le_enc 4 tag ++ le_enc 4 sub ++ le_enc 8 (len data) ++ data ++ pad8 (len data).
Definition enc_inner (l : list (Z * Z * bytes)) : bytes := concat (map (fun x => enc_chunk (fst (fst x)) (snd (fst x)) (snd x)) l).
Definition enc_set (plain : bytes) : bytes := s2z "bv4-"%string ++ le_enc 4 (len plain) ++ plain ++ s2z "bv4$"%string.

(** What a file consists of behind the header chunk: catalogs, and chunk sets of chunks with tag, sub
    tag and data. *)
Inductive written := WCatalog (sub : Z) (data : bytes) | WSet (sub : Z) (l : list (Z * Z * bytes)).

Definition written_ok (w : written) : Prop :=
  match w with
  | WCatalog sub data => n32 sub /\ n64 (len data)
  | WSet sub l => n32 sub /\ n32 (len (enc_inner l)) /\ Forall (fun x => n32 (fst (fst x)) /\ n32 (snd (fst x)) /\ n64 (len (snd x))) l
  end.

Definition written_bytes (w : written) : bytes :=
  match w with WCatalog sub data => enc_chunk 0x600b sub data | WSet sub l => enc_chunk 0x600d sub (enc_set (enc_inner l)) end.

(** The chunks in order. *)
Fixpoint written_list (pos : Z) (l : list written) : list chunk :=
  match l with
  | [] => []
  | w :: l =>
      match w with
      | WCatalog sub data => [Catalog (pos + 16) (len data)]
      | WSet sub k => map (fun x => Inner (fst (fst x)) (snd x) (len (snd x))) k
      end ++ written_list (pos + len (written_bytes w)) l
  end.

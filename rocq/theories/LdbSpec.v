(** Independent description of the LevelDB file formats: writers. *)

From Verif Require Import Base BaseFacts LdbModel.

(** ** LEB128: a byte string encodes a natural number (overlong encodings included). *)
Inductive vint : Z -> bytes -> Prop :=
| vint_last v : 0 <= v < 128 -> vint v [v]
| vint_more g v bs : 0 <= g < 128 -> vint v bs -> vint (g + 128 * v) ((g + 128) :: bs).

(** The shortest encoding. *)
Fixpoint venc_aux (fuel : nat) (v : Z) : bytes :=
  match fuel with
  | O => [v mod 128]
  | S k => if v <? 128 then [v] else (v mod 128 + 128) :: venc_aux k (v / 128)
  end.
Definition venc (v : Z) : bytes := venc_aux (S (Z.to_nat (Z.log2 v))) v.

(** A length-prefixed byte string. *)
Definition vslice (d : bytes) (bs : bytes) : Prop := exists n, vint (len d) n /\ bs = n ++ d.

(** ** Write batches *)
Inductive op_bytes : logop -> bytes -> Prop :=
| ob_put k v kb vb : vslice k kb -> vslice v vb -> op_bytes (Put k v) ([1] ++ kb ++ vb)
| ob_del k kb : vslice k kb -> op_bytes (Delete k) ([0] ++ kb).

Inductive ops_bytes : list logop -> bytes -> Prop :=
| obs_nil : ops_bytes [] []
| obs_cons o l b bs : op_bytes o b -> ops_bytes l bs -> ops_bytes (o :: l) (b ++ bs).

Definition batch_bytes (seq count : Z) (ops : list logop) (bs : bytes) : Prop :=
  0 <= seq < 2 ^ 64 /\ 0 <= count < 2 ^ 32 /\
  exists body, ops_bytes ops body /\ bs = le_enc 8 seq ++ le_enc 4 count ++ body.

(** ** Version edits *)
Inductive edit :=
| Comparator (name : str)
| LogNumber (n : Z)
| NextFileNumber (n : Z)
| LastSequence (n : Z)
| CompactPointer (level : Z) (key : bytes)
| DeletedFile (level number : Z)
| NewFile (level number size : Z) (smallest largest : bytes)
| PrevLogNumber (n : Z).

(** How a decoded edit is reported: the tag number and the values. *)
Definition edit_report (e : edit) : Z * list dvalue :=
  match e with
  | Comparator s => (1, [DS s])
  | LogNumber n => (2, [DI n])
  | NextFileNumber n => (3, [DI n])
  | LastSequence n => (4, [DI n])
  | CompactPointer l k => (5, [DI l; DB k])
  | DeletedFile l n => (6, [DI l; DI n])
  | NewFile l n s a b => (7, [DI l; DI n; DI s; DB a; DB b])
  | PrevLogNumber n => (9, [DI n])
  end.

(** [utf8] is the decoder: the stored bytes of a name decode to the name. *)
Inductive edit_bytes (utf8 : bytes -> result str) : edit -> bytes -> Prop :=
| eb_comparator s d b t : utf8 d = Ok s -> vint 1 t -> vslice d b -> edit_bytes utf8 (Comparator s) (t ++ b)
| eb_log n b t : vint 2 t -> vint n b -> edit_bytes utf8 (LogNumber n) (t ++ b)
| eb_next n b t : vint 3 t -> vint n b -> edit_bytes utf8 (NextFileNumber n) (t ++ b)
| eb_last n b t : vint 4 t -> vint n b -> edit_bytes utf8 (LastSequence n) (t ++ b)
| eb_compact l k b c t : vint 5 t -> vint l b -> vslice k c ->
    edit_bytes utf8 (CompactPointer l k) (t ++ b ++ c)
| eb_deleted l n b c t : vint 6 t -> vint l b -> vint n c -> edit_bytes utf8 (DeletedFile l n) (t ++ b ++ c)
| eb_new l n s x y b c d e f t : vint 7 t -> vint l b -> vint n c -> vint s d -> vslice x e -> vslice y f ->
    edit_bytes utf8 (NewFile l n s x y) (t ++ b ++ c ++ d ++ e ++ f)
| eb_prev n b t : vint 9 t -> vint n b -> edit_bytes utf8 (PrevLogNumber n) (t ++ b).

Inductive edits_bytes (utf8 : bytes -> result str) : list edit -> bytes -> Prop :=
| ebs_nil : edits_bytes utf8 [] []
| ebs_cons e l b bs : edit_bytes utf8 e b -> edits_bytes utf8 l bs -> edits_bytes utf8 (e :: l) (b ++ bs).

(** ** The log writer (LevelDB log_writer.cc AddRecord): pages of 32 KiB, fragments with a
    7-byte header; a rest of less than 7 bytes in a page is filled with zeros. [crc] gives
    the stored checksum. The state is the number of bytes left in the page. *)
Definition frag_type (first last : bool) : Z :=
  match first, last with
  | true, true => 1 | true, false => 2 | false, false => 3 | false, true => 4
  end.

Definition frag (crc : Z -> bytes -> Z) (t : Z) (d : bytes) : bytes :=
  le_enc 4 (crc t d) ++ le_enc 2 (len d) ++ [t] ++ d.

Fixpoint add_record (fuel : nat) (crc : Z -> bytes -> Z) (room : Z) (first : bool) (d : bytes)
  : bytes * Z :=
  match fuel with
  | O => ([], room)
  | S k =>
      let '(pad, room) := if room <? 7 then (repeat 0 (Z.to_nat room), 32768) else ([], room) in
      let n := Z.min (room - 7) (len d) in
      let last := len d <=? room - 7 in
      let f := pad ++ frag crc (frag_type first last) (zfirstn n d) in
      let room := room - 7 - n in
      if last then (f, room)
      else let '(r, room) := add_record k crc room false (zskipn n d) in (f ++ r, room)
  end.

(** Where the first fragment of a record starts. *)
Definition record_start (off room : Z) : Z := if room <? 7 then off + room else off.

Fixpoint add_records (crc : Z -> bytes -> Z) (off room : Z) (l : list bytes)
  : bytes * list (Z * bytes) :=
  match l with
  | [] => ([], [])
  | d :: r =>
      let '(b, room') := add_record (S (length d)) crc room true d in
      let '(bs, ps) := add_records crc (off + len b) room' r in
      (b ++ bs, (record_start off room, d) :: ps)
  end.

(** A log file and the records in it with their offsets. *)
Definition log_file (crc : Z -> bytes -> Z) (l : list bytes) : bytes := fst (add_records crc 0 32768 l).
Definition log_positions (crc : Z -> bytes -> Z) (l : list bytes) : list (Z * bytes) :=
  snd (add_records crc 0 32768 l).

(** ** Sorted tables *)
Definition ikey (e : tentry) : bytes := te_key e ++ le_enc 8 (te_seq e * 256 + te_type e).

Definition entry_ok (e : tentry) : Prop := 0 <= te_seq e < 2 ^ 56 /\ is_byte (te_type e).

(** Entries behind the internal key [prev]; every entry may share any prefix of the previous
    key. *)
Inductive entries_bytes : bytes -> list tentry -> bytes -> Prop :=
| eb_nil prev : entries_bytes prev [] []
| eb_cons prev e l s b1 b2 b3 bs :
    entry_ok e -> 0 <= s <= len prev -> s <= len (ikey e) -> zfirstn s prev = zfirstn s (ikey e) ->
    vint s b1 -> vint (len (ikey e) - s) b2 -> vint (len (te_value e)) b3 ->
    entries_bytes (ikey e) l bs ->
    entries_bytes prev (e :: l) (b1 ++ b2 ++ b3 ++ zskipn s (ikey e) ++ te_value e ++ bs).

(** A block: entries, restart offsets, number of restarts. *)
Definition block_bytes (es : list tentry) (restarts : list Z) (bs : bytes) : Prop :=
  restarts <> [] /\ len restarts < 2 ^ 32 /\
  exists body, entries_bytes [] es body /\
    bs = body ++ concat (map (le_enc 4) restarts) ++ le_enc 4 (len restarts).

(** A block stored in a file at an offset: raw or compressed, with its trailer. *)
Definition stored_block (snappy zstd : bytes -> result bytes) (content : bytes) (off size : Z)
  (bs : bytes) : Prop :=
  exists pre stored t crc post,
    content = pre ++ stored ++ le_enc 1 t ++ le_enc 4 crc ++ post /\
    off = len pre /\ size = len stored /\ 0 <= crc < 2 ^ 32 /\
    ((t = 0 /\ stored = bs) \/ (t = 1 /\ snappy stored = Ok bs) \/ (t = 2 /\ zstd stored = Ok bs)).

(** An index entry for a data block. *)
Definition index_entry (off size : Z) (e : tentry) : Prop :=
  exists b1 b2 rest, vint off b1 /\ vint size b2 /\ te_value e = b1 ++ b2 ++ rest.

Definition data_block (snappy zstd : bytes -> result bytes) (content : bytes) (ix : tentry)
  (es : list tentry) : Prop :=
  exists off size rs bs, index_entry off size ix /\ block_bytes es rs bs /\
    stored_block snappy zstd content off size bs.

(** A table file: data blocks, an index block that lists them, and a footer of 48 bytes. *)
Definition table_file (snappy zstd : bytes -> result bytes) (content : bytes)
  (blocks : list (list tentry)) : Prop :=
  exists index ioff isize rs ibs mo ms b1 b2 b3 b4 pad pre,
    Forall2 (data_block snappy zstd content) index blocks /\
    block_bytes index rs ibs /\ stored_block snappy zstd content ioff isize ibs /\
    0 <= mo /\ 0 <= ms /\ mo + ms <= len content /\
    vint mo b1 /\ vint ms b2 /\ vint ioff b3 /\ vint isize b4 /\
    len (b1 ++ b2 ++ b3 ++ b4 ++ pad) = 40 /\ is_bytes (b1 ++ b2 ++ b3 ++ b4 ++ pad) /\
    content = pre ++ (b1 ++ b2 ++ b3 ++ b4 ++ pad) ++ [0x57; 0xfb; 0x80; 0x8b; 0x24; 0x75; 0x47; 0xdb].

(** ** IndexedDB key prefixes: sizes of the identifiers in the first byte. *)
Definition key_prefix (nd no ni : nat) (d o i : Z) : bytes :=
  [Z.of_nat (nd - 1) * 32 + Z.of_nat (no - 1) * 4 + Z.of_nat (ni - 1)] ++
  le_enc nd d ++ le_enc no o ++ le_enc ni i.

Definition prefix_ok (nd no ni : nat) (d o i : Z) : Prop :=
  (1 <= nd <= 8)%nat /\ (1 <= no <= 8)%nat /\ (1 <= ni <= 4)%nat /\
  0 <= d < 256 ^ Z.of_nat nd /\ 0 <= o < 256 ^ Z.of_nat no /\ 0 <= i < 256 ^ Z.of_nat ni.

(** The smallest size that holds the value. *)
Definition smallest (n : nat) (v : Z) : Prop := n = 1%nat \/ 256 ^ (Z.of_nat n - 1) <= v.

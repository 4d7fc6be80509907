(** The format of bookmark data.

    Source: /repo/documentation/Mac OS background item bookmark data format.asciidoc. *)

From Verif Require Import Base BaseFacts TextModel SeqSpec BookModel.
From Coq Require String.
Import String.StringSyntax.

Definition u32 (v : Z) : Prop := 0 <= v < 2 ^ 32.
Definition u64 (v : Z) : Prop := 0 <= v < 2 ^ 64.
(** A signed integer of [n] bytes in two's complement. *)
Definition sle (n : nat) (v : Z) (d : bytes) : Prop :=
  - 2 ^ (8 * Z.of_nat n - 1) <= v < 2 ^ (8 * Z.of_nat n - 1) /\ d = le_enc n (v mod 256 ^ Z.of_nat n).

(** The values; those of a fixed size can be followed by other data. *)
Inductive book_data (utf8 : bytes -> option str) : Z -> book_value -> bytes -> Prop :=
| bd_text s d : utf8 d = Some s -> book_data utf8 0x101 (BText s) d
| bd_int8 v d r : sle 1 v d -> book_data utf8 0x301 (BInt v) (d ++ r)
| bd_int16 v d r : sle 2 v d -> book_data utf8 0x302 (BInt v) (d ++ r)
| bd_int32 v d r : sle 4 v d -> book_data utf8 0x303 (BInt v) (d ++ r)
| bd_int64 v d r : sle 8 v d -> book_data utf8 0x304 (BInt v) (d ++ r)
| bd_float d r : len d = 4 -> book_data utf8 0x305 (BFloat d) (d ++ r)
| bd_double d r : len d = 8 -> book_data utf8 0x306 (BFloat d) (d ++ r)
| bd_ints l r : ints_ok (FU LE 4) l -> len r < 4 -> book_data utf8 0x601 (BInts l) (enc_ints (FU LE 4) l ++ r)
| bd_data t d : ~ In t [0x101; 0x301; 0x302; 0x303; 0x304; 0x305; 0x306; 0x601] -> book_data utf8 t (BData d) d.

Definition book_record_at (utf8 : bytes -> option str) (content : bytes) (off type : Z) (v : book_value) : Prop :=
  exists data, u32 type /\ u32 (len data) /\ book_data utf8 type v data /\ stored_at content off (le_enc 4 (len data) ++ le_enc 4 type ++ data).

(** What the value of a tag means. Offsets are relative to the start of the data area. *)
Inductive book_meaning (utf8 : bytes -> option str) (content : bytes) : Z -> Z -> book_value -> book_item -> Prop :=
| bm_time tag d r : len d = 8 -> book_meaning utf8 content tag 0x400 (BData (d ++ r)) (ITime d)
| bm_path type offs l : type <> 0x400 -> Forall2 (fun o s => exists t, book_record_at utf8 content (48 + o) t (BText s)) offs l ->
    book_meaning utf8 content 0x1004 type (BInts offs) (IStrings l)
| bm_ids type offs l : type <> 0x400 -> Forall2 (fun o z => exists t, book_record_at utf8 content (48 + o) t (BInt z)) offs l ->
    book_meaning utf8 content 0x1005 type (BInts offs) (IIntegers l)
| bm_flags tag type a b c r : type <> 0x400 -> tag = 0x1010 \/ tag = 0x2020 -> u64 a -> u64 b -> u64 c ->
    book_meaning utf8 content tag type (BData (le_enc 8 a ++ le_enc 8 b ++ le_enc 8 c ++ r)) (IFlags a b c)
| bm_other tag type v : type <> 0x400 -> ~ In tag [0x1004; 0x1005; 0x1010; 0x2020] -> book_meaning utf8 content tag type v (IValue v).

(** The table of contents: the tags with the offsets of their data records. *)
Definition book_entry (tv : Z * Z) (d : bytes) : Prop := exists u, u32 (fst tv) /\ u32 (snd tv) /\ u32 u /\ d = le_enc 4 (fst tv) ++ le_enc 4 (snd tv) ++ le_enc 4 u.
Definition book_toc (l : list (Z * Z)) (d : bytes) : Prop :=
  exists size id ds, u32 size /\ u32 id /\ u32 (len l) /\ Forall2 book_entry l ds /\
    d = le_enc 4 size ++ le_enc 4 0xfffffffe ++ le_enc 4 id ++ le_enc 4 0 ++ le_enc 4 (len l) ++ concat ds.

Definition book_header (size : Z) (d : bytes) : Prop :=
  exists signature u1 u3, In signature [s2z "alis"%string; s2z "book"%string] /\ u32 size /\ u32 u1 /\ len u3 = 32 /\
    d = signature ++ le_enc 4 size ++ le_enc 4 u1 ++ le_enc 4 48 ++ u3.

Definition book_file (utf8 : bytes -> option str) (items : list (Z * book_item)) (content : bytes) : Prop :=
  exists header size toc dtoc,
    book_header (len content) header /\ stored_at content 0 header /\
    u32 size /\ stored_at content 48 (le_enc 4 size) /\
    book_toc toc dtoc /\ stored_at content (48 + size) dtoc /\
    Forall2 (fun tv i => fst i = fst tv /\ exists type v, book_record_at utf8 content (48 + snd tv) type v /\ book_meaning utf8 content (fst tv) type v (snd i)) toc items.

(** The table of contents of a file. *)
Definition book_contents (content : bytes) (toc : list (Z * Z)) : Prop :=
  exists size dtoc, u32 size /\ stored_at content 48 (le_enc 4 size) /\ book_toc toc dtoc /\ stored_at content (48 + size) dtoc.

(** A value has the type that the tag calls for: paths are arrays of strings, identifiers arrays of
    integers, flags and times are data. *)
Definition book_type_ok (utf8 : bytes -> option str) (content : bytes) (tag type : Z) (v : book_value) : Prop :=
  if type =? 0x400 then exists b d, v = BData (b :: d)
  else
    (tag = 0x1004 -> exists offs, v = BInts offs /\ forall p t w, In p offs -> book_record_at utf8 content (48 + p) t w -> exists s, w = BText s) /\
    (tag = 0x1005 -> exists offs, v = BInts offs /\ forall p t w, In p offs -> book_record_at utf8 content (48 + p) t w -> exists z, w = BInt z) /\
    (tag = 0x1010 \/ tag = 0x2020 -> exists b d, v = BData (b :: d)).

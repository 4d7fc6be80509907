(** Firefox cache version 1 files, after "Firefox cache file format.asciidoc". *)

From Verif Require Import Base BaseFacts SeqSpec MemModel MemSpec Ff1Model.

(** A map file: the header, whose data size is that of the records, and records of four 32-bit
    integers. *)
Definition u16 (z : Z) : Prop := 0 <= z < 2 ^ 16.
Definition u32 (z : Z) : Prop := 0 <= z < 2 ^ 32.
Definition i32 (z : Z) : Prop := - 2 ^ 31 <= z < 2 ^ 31.
Definition enc_i32 (z : Z) : bytes := be_enc 4 (z mod 2 ^ 32).

Definition ff_map (h : list fval) (records : list (list Z)) (content : bytes) : Prop :=
  exists minor entries dirty count ranks usage,
    h = map VI ([1; minor; 16 * len records; entries; dirty; count] ++ ranks ++ usage) /\
    u16 minor /\ u32 (16 * len records) /\ i32 entries /\ u32 dirty /\ i32 count /\
    length ranks = 32%nat /\ Forall u32 ranks /\ length usage = 32%nat /\ Forall u32 usage /\
    Forall (fun r => length r = 4%nat /\ Forall u32 r) records /\
    content = be_enc 2 1 ++ be_enc 2 minor ++ be_enc 4 (16 * len records) ++ enc_i32 entries ++ be_enc 4 dirty ++ enc_i32 count ++
      concat (map (be_enc 4) ranks) ++ concat (map (be_enc 4) usage) ++ concat (map (fun r => concat (map (be_enc 4) r)) records).

(** An entry: format version, location, fetch count, times, data size and the sizes of the request
    and of the information, which follow. *)
Definition ff_entry_enc (e : list mval) (d : bytes) : Prop :=
  exists major minor location count fetched modified expires data_size request information,
    e = map MI [major; minor; location; count; fetched; modified; expires; data_size; len request; len information] ++ [MB request; MB information] /\
    u16 major /\ u16 minor /\ u32 location /\ i32 count /\ Forall u32 [fetched; modified; expires; data_size; len request; len information] /\
    Forall (fun c => c < 128) request /\
    d = be_enc 2 major ++ be_enc 2 minor ++ be_enc 4 location ++ enc_i32 count ++
      concat (map (be_enc 4) [fetched; modified; expires; data_size; len request; len information]) ++ request ++ information.

(** A block file with blocks of [size] bytes: behind an entry the rest of its last block, and
    blocks that are no part of entries. *)
Definition entry_at (content : bytes) (off : Z) (e : list mval) (d : bytes) : Prop :=
  ff_entry_enc e d /\ stored_at content off d.

Inductive ff_blocks (size : Z) (content : bytes) : Z -> list (list mval) -> Prop :=
| fb_end off : len content <= off -> ff_blocks size content off []
| fb_entry off e d n l : off < len content -> entry_at content off e d -> 0 <= n * size - len d < size ->
    ff_blocks size content (off + n * size) l -> ff_blocks size content off (e :: l)
| fb_other off l : off < len content -> (forall e d, ~ entry_at content off e d) -> ff_blocks size content (off + size) l ->
    ff_blocks size content off l.

(** The major format version of an entry is its first value. *)
Definition version_1 (e : list mval) : bool := match e with MI 1 :: _ => true | _ => false end.

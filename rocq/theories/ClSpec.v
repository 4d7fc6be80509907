(** The format of change.log files.

    Source: /repo/documentation/Restore point formats.asciidoc. *)

From Verif Require Import Base BaseFacts SeqSpec Utf16Spec.

Definition is_u32 (z : Z) : Prop := 0 <= z < 2 ^ 32.
Definition is_u64 (z : Z) : Prop := 0 <= z < 2 ^ 64.

Definition signature : bytes := [18; 239; 205; 171].

(** The change log header with the volume path record. *)
Definition header (path : str) (d : bytes) : Prop :=
  exists t, utf16_z path t /\ is_u32 (28 + len t) /\
  d = le_enc 4 (28 + len t) ++ le_enc 4 0 ++ signature ++ le_enc 4 2 ++
      le_enc 4 (8 + len t) ++ le_enc 4 2 ++ t ++
      le_enc 4 (28 + len t).

(** Sub records: a type and data. The second path, the backup file name and the short name are
    strings. *)
Definition is_string (type : Z) : Prop := In type [4; 5; 9].

Inductive sub_records : list (Z * bytes) -> bytes -> Prop :=
| sr_nil : sub_records [] []
| sr_string type s t rest l d : is_string type -> utf16_z s t -> is_u32 (8 + len (t ++ rest)) -> sub_records l d ->
    sub_records ((type, t ++ rest) :: l) (le_enc 4 (8 + len (t ++ rest)) ++ le_enc 4 type ++ (t ++ rest) ++ d)
| sr_other type body l d : is_u32 type -> ~ is_string type -> is_u32 (8 + len body) ->
    4 <= len body \/ l <> [] -> sub_records l d ->
    sub_records ((type, body) :: l) (le_enc 4 (8 + len body) ++ le_enc 4 type ++ body ++ d).

(** A change log entry. *)
Record entry := mkentry {
  e_type : Z; e_flags : Z; e_attributes : Z; e_sequence : Z; e_unknown1 : bytes; e_size : Z; e_unknown2 : Z;
  e_process : str; e_subs : list (Z * bytes) }.

Definition entry_head (size : Z) (e : entry) : bytes :=
  le_enc 4 size ++ le_enc 4 1 ++ signature ++ le_enc 4 (e_type e) ++ le_enc 4 (e_flags e) ++ le_enc 4 (e_attributes e) ++
  le_enc 8 (e_sequence e) ++ e_unknown1 e ++ le_enc 4 (e_size e) ++ le_enc 4 (e_unknown2 e).

Definition head_ok (size : Z) (e : entry) : Prop :=
  is_u32 size /\ is_u32 (e_type e) /\ is_u32 (e_flags e) /\ is_u32 (e_attributes e) /\ is_u64 (e_sequence e) /\
  is_u32 (e_size e) /\ is_u32 (e_unknown2 e) /\ len (e_unknown1 e) = 32 /\ is_bytes (e_unknown1 e).

Definition entry_bytes (e : entry) (d : bytes) : Prop :=
  exists t subs, utf16_z (e_process e) t /\ sub_records (e_subs e) subs /\
  head_ok (76 + len t + len subs) e /\
  d = entry_head (76 + len t + len subs) e ++ t ++ subs ++ le_enc 4 (76 + len t + len subs).

Definition change_log (path : str) (es : list entry) (content : bytes) : Prop :=
  exists h ds, header path h /\ Forall2 entry_bytes es ds /\ content = h ++ concat ds.

(** What every accepted file consists of: entries that follow each other, of which the last one
    can be cut off. Each ends with its size. *)
Definition entry_at (content : bytes) (pos size : Z) (e : entry) (data : bytes) : Prop :=
  head_ok size e /\ stored_at content pos (entry_head size e ++ data) /\
  (exists t rest, utf16_z (e_process e) t /\ data = t ++ rest) /\
  (exists front, data = front ++ le_enc 4 size).

Inductive entries_at (content : bytes) : Z -> list entry -> Prop :=
| ea_end pos : len content <= pos -> entries_at content pos []
| ea_whole pos size e data es : entry_at content pos size e data -> len data = size - 72 ->
    entries_at content (pos + size) es -> entries_at content pos (e :: es)
| ea_cut pos size e data : entry_at content pos size e data -> size = 71 \/ len data < size - 72 ->
    pos + 72 + len data = len content -> entries_at content pos [e].

(** Systemd journal files, after "Systemd journal file format.asciidoc". *)

From Verif Require Import Base BaseFacts SeqSpec JnlModel.

Definition is_u64 (z : Z) : Prop := 0 <= z < 2 ^ 64.

(** The object of a type, with its flags, size and data behind the header, is at the offset. *)
Definition object_at (content : bytes) (off type flags size : Z) (body : bytes) : Prop :=
  exists reserved, len reserved = 6 /\ is_u64 size /\
  stored_at content off ([type; flags] ++ reserved ++ le_enc 8 size ++ body).

(** Arrays whose size is not a multiple of that of the elements: the rest is ignored. The file has
    to contain it, unless there are no elements. *)
Definition rest_of (space used : Z) (tail : bytes) : Prop :=
  len tail = if used =? 0 then 0 else space - used.

Definition array_at (content : bytes) (off next : Z) (offs : list Z) : Prop :=
  exists size tail, is_u64 next /\ Forall is_u64 offs /\
    8 * len offs <= size - 24 < 8 * len offs + 8 /\ rest_of (size - 24) (8 * len offs) tail /\
    object_at content off 6 0 size (le_enc 8 next ++ concat (map (le_enc 8) offs) ++ tail).

Definition item_bytes (p : Z * Z) : bytes := le_enc 8 (fst p) ++ le_enc 8 (snd p).

Definition entry_at (content : bytes) (off : Z) (n : sd_ent) : Prop :=
  exists size tail, Forall is_u64 [n_sequence n; n_real n; n_monotonic n; n_xor n] /\ len (n_boot n) = 16 /\
    Forall (fun p => is_u64 (fst p) /\ is_u64 (snd p)) (n_items n) /\
    16 * len (n_items n) <= size - 64 < 16 * len (n_items n) + 16 /\ rest_of (size - 64) (16 * len (n_items n)) tail /\
    object_at content off 3 0 size
      (le_enc 8 (n_sequence n) ++ le_enc 8 (n_real n) ++ le_enc 8 (n_monotonic n) ++ n_boot n ++ le_enc 8 (n_xor n) ++
       concat (map item_bytes (n_items n)) ++ tail).

Definition data_at (content : bytes) (off : Z) (d : sd_dat) : Prop :=
  (d_flags d = 0 \/ d_flags d = 1 \/ d_flags d = 2) /\
  Forall is_u64 [d_hash d; d_next_hash d; d_next_field d; d_entry d; d_array d; d_number d] /\
  object_at content off 1 (d_flags d) (64 + len (d_payload d))
    (le_enc 8 (d_hash d) ++ le_enc 8 (d_next_hash d) ++ le_enc 8 (d_next_field d) ++ le_enc 8 (d_entry d) ++
     le_enc 8 (d_array d) ++ le_enc 8 (d_number d) ++ d_payload d).

(** The offset of the first entry array is at 176 in the file header, the header size at 88. *)
Definition header_at (content : bytes) (first : Z) : Prop :=
  exists unknown size sizes times, is_u64 first /\ In size [208; 224; 240] /\ len unknown = 80 /\ len sizes = 80 /\ len times = 24 /\
    stored_at content 0 ([76; 80; 75; 83; 72; 72; 82; 72] ++ unknown ++ le_enc 8 size ++ sizes ++ le_enc 8 first ++ times).

(** The entry arrays from the one at an offset up to the one without a successor. *)
Inductive arrays_at (content : bytes) : Z -> list Z -> Prop :=
| aa_last off offs : array_at content off 0 offs -> arrays_at content off offs
| aa_next off next offs rest : array_at content off next offs -> next <> 0 -> arrays_at content next rest -> arrays_at content off (offs ++ rest).

(** The entries at the offsets that are set, with the data objects of their items. *)
Definition journal (content : bytes) (l : list (sd_ent * list sd_dat)) : Prop :=
  exists first offs, header_at content first /\ arrays_at content first offs /\
    Forall2 (fun off p => entry_at content off (fst p) /\ Forall2 (fun i d => data_at content (fst i) d) (n_items (fst p)) (snd p))
            (filter (fun off => negb (off =? 0)) offs) l.

(** The arrays are in a cycle: some array is reached that is reached again from itself. *)
Inductive array_leads (content : bytes) : Z -> Z -> Prop :=
| al_one off next offs : array_at content off next offs -> next <> 0 -> array_leads content off next
| al_more off next offs o : array_at content off next offs -> next <> 0 -> array_leads content next o -> array_leads content off o.

Definition array_cycle (content : bytes) (first : Z) : Prop :=
  exists o, (o = first \/ array_leads content first o) /\ array_leads content o o.

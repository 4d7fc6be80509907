(** What the LevelDB and IndexedDB scripts show of an entry. *)

From Verif Require Import Base BaseFacts StrModel LdbModel.

(** The types of the entries are shown alike. *)
Definition same_type (a b : Z) : Prop := a = b \/ (a <> 0 /\ a <> 1 /\ b <> 0 /\ b <> 1).

Definition same_entry (a b : tentry) : Prop :=
  te_key a = te_key b /\ te_seq a = te_seq b /\ same_type (te_type a) (te_type b) /\ te_value a = te_value b.
Definition same_ientry (a b : ientry) : Prop :=
  ie_segments a = ie_segments b /\ ie_seq a = ie_seq b /\ same_type (ie_type a) (ie_type b) /\ ie_value a = ie_value b.

(** Entries as they are stored: keys and values are bytes, the sequence number is not negative. *)
Definition entry_ok (e : tentry) : Prop := is_bytes (te_key e) /\ is_bytes (te_value e) /\ 0 <= te_seq e.

(** An entry of an IndexedDB database: its segments are those of a key. *)
Definition ientry_ok (e : ientry) : Prop := (exists k, is_bytes k /\ key_segments k = Ok (ie_segments e)) /\ is_bytes (ie_value e) /\ 0 <= ie_seq e.

(** One line: a line break at the end, and none before. *)
Definition one_line (s : str) : Prop := exists l, s = l ++ [10] /\ ~ In 10 l.

(** What a decompressor yields are bytes. *)
Definition unpacks (f : bytes -> result bytes) : Prop := forall d x, f d = Ok x -> is_bytes x.

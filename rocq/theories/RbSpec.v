(** The formats of Recycle.Bin $I files and of Recycler INFO2 files.

    Source: /repo/documentation/Windows Recycle.Bin file formats.asciidoc and Windows Recycler file
    formats.asciidoc. *)

From Verif Require Import Base BaseFacts Utf16Spec RbModel.

(** The string without the NULs at its end. *)
Definition unpadded (name s : str) : Prop := (exists n, s = name ++ repeat 0 n) /\ (forall r, name <> r ++ [0]).

Definition metadata_head (version size time : Z) : bytes := le_enc 8 version ++ le_enc 8 size ++ le_enc 8 time.

(** A $I file; other data can follow. *)
Definition metadata (m : rb_file) (content : bytes) : Prop :=
  0 <= rb_size m < 2 ^ 64 /\ 0 <= rb_deletion_time m < 2 ^ 64 /\
  ((rb_version m = 1 /\ exists t rest, utf16_z (rb_name m) t /\ content = metadata_head 1 (rb_size m) (rb_deletion_time m) ++ t ++ rest) \/
   (rb_version m = 2 /\ exists n s t rest, 0 <= n < 2 ^ 32 /\ utf16 s t /\ len t = 2 * n /\ unpadded (rb_name m) s /\
     content = metadata_head 2 (rb_size m) (rb_deletion_time m) ++ le_enc 4 n ++ t ++ rest)).

(** A name field: a string with end-of-string character and remnant data, or one that fills it. *)
Definition name_field (s : str) (w : bytes) : Prop :=
  (exists t r, utf16_z s t /\ w = t ++ r) \/ (utf16 s w /\ ~ In 0 s).

Definition info2_entry_bytes (size : Z) (e : info2_entry) (d : bytes) : Prop :=
  len (i2_name e) = 260 /\ 0 <= i2_index e < 2 ^ 32 /\ 0 <= i2_drive e < 2 ^ 32 /\ 0 <= i2_time e < 2 ^ 64 /\ 0 <= i2_size e < 2 ^ 32 /\
  exists w, d = i2_name e ++ le_enc 4 (i2_index e) ++ le_enc 4 (i2_drive e) ++ le_enc 8 (i2_time e) ++ le_enc 4 (i2_size e) ++ w /\
    ((size = 280 /\ i2_wide e = None /\ w = []) \/ (size = 800 /\ len w = 520 /\ exists s, i2_wide e = Some s /\ name_field s w)).

(** An INFO2 file. *)
Definition info2 (size : Z) (es : list info2_entry) (content : bytes) : Prop :=
  exists u1 count u2 u3 ds, In size [280; 800] /\
    0 <= u1 < 2 ^ 32 /\ 0 <= count < 2 ^ 32 /\ 0 <= u2 < 2 ^ 32 /\ 0 <= u3 < 2 ^ 32 /\ Forall2 (info2_entry_bytes size) es ds /\
    content = le_enc 4 u1 ++ le_enc 4 count ++ le_enc 4 u2 ++ le_enc 4 size ++ le_enc 4 u3 ++ concat ds.

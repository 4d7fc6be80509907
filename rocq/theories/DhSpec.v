(** The format of DetectionHistory files.

    Source: /repo/documentation/Windows Defender scan DetectionHistory file format.asciidoc. *)

From Verif Require Import Base BaseFacts TextModel SeqSpec Utf16Spec RbSpec UuidSpec DhModel.
From Coq Require String.
Import String.StringSyntax.

Definition n32 (v : Z) : Prop := 0 <= v < 2 ^ 32.
Definition n64 (v : Z) : Prop := 0 <= v < 2 ^ 64.

Inductive dh_data : Z -> dh_value -> bytes -> Prop :=
| dd_32 t z : In t [0; 5; 6] -> n32 z -> dh_data t (DInt z) (le_enc 4 z)
| dd_64 z : n64 z -> dh_data 8 (DInt z) (le_enc 8 z)
| dd_time z : n64 z -> dh_data 0xa (DTime z) (le_enc 8 z)
| dd_text s d : RbSpec.name_field s d -> dh_data 0x15 (DText s) d
| dd_guid s d : len d = 16 -> uuid_le d s -> dh_data 0x1e (DGuid s) d
| dd_data d : dh_data 0x28 (DData d) d.

(** A value: data size, data type, data and padding up to a multiple of 8 bytes. *)
Definition dh_bytes (v : dh_value) (d : bytes) : Prop :=
  exists type data pad k, n32 type /\ n32 (len data) /\ dh_data type v data /\ len pad < 8 /\ len data + len pad = 8 * k /\
    d = le_enc 4 (len data) ++ le_enc 4 type ++ data ++ pad.

Definition dh_file (l : list dh_value) (content : bytes) : Prop := exists ds, Forall2 dh_bytes l ds /\ content = concat ds.

(** A threat tracking value. *)
Inductive tt_data : Z -> tt_value -> bytes -> Prop :=
| td_8 z : 0 <= z < 256 -> tt_data 5 (TInt z) [z]
| td_32 z : n32 z -> tt_data 3 (TInt z) (le_enc 4 z)
| td_64 z : n64 z -> tt_data 4 (TInt z) (le_enc 8 z)
| td_text s d : n32 (len d) -> RbSpec.name_field s d -> tt_data 6 (TText s) (le_enc 4 (len d) ++ d)
| td_data d : len d = 5 -> tt_data 7 (TData d) d.

Definition tt_bytes (kv : str * tt_value) (d : bytes) : Prop :=
  exists kdata type data, n32 (len kdata) /\ RbSpec.name_field (fst kv) kdata /\ n32 type /\ tt_data type (snd kv) data /\
    d = le_enc 4 (len kdata) ++ kdata ++ le_enc 4 type ++ data.

(** Values from [pos] on, the last of which starts before [stop]. *)
Inductive tt_stored (data : bytes) (stop : Z) : Z -> list (str * tt_value) -> Prop :=
| ts_end pos : stop <= pos -> tt_stored data stop pos []
| ts_value pos v d l : pos < stop -> tt_bytes v d -> stored_at data pos d -> tt_stored data stop (pos + len d) l -> tt_stored data stop pos (v :: l).

(** The set of a value and its index: sets begin with a magic value, all sets from the third on
    are alike. *)
Definition magic_value (v : dh_value) : Prop := v = DText (s2z "Magic.Version:1.2"%string).
Inductive magics : list dh_value -> Z -> Prop :=
| mg_nil : magics [] 0
| mg_yes v l n : magic_value v -> magics l n -> magics (v :: l) (n + 1)
| mg_no v l n : ~ magic_value v -> magics l n -> magics (v :: l) n.
Definition in_set (l : list dh_value) (k : nat) (set index : Z) : Prop :=
  exists n, magics (firstn (S k) l) n /\ set = Z.min 2 n /\
    ((n = 0 /\ index = Z.of_nat k) \/
     exists j v, (j <= k)%nat /\ nth_error l j = Some v /\ magic_value v /\ (forall i w, (j < i <= k)%nat -> nth_error l i = Some w -> ~ magic_value w) /\ index = Z.of_nat (k - j)).

(** Threat tracking data: the size and the values, or a header that begins with version 1. *)
Definition tt_file (l : list (str * tt_value)) (data : bytes) : Prop :=
  (exists size rest, n32 size /\ size <> 1 /\ data = le_enc 4 size ++ rest /\ tt_stored data size 4 l) \/
  (exists header_size values_size total_size unknown rest, Forall n32 [header_size; values_size; total_size; unknown] /\
     data = le_enc 4 1 ++ le_enc 4 header_size ++ le_enc 4 values_size ++ le_enc 4 total_size ++ le_enc 4 unknown ++ rest /\
     tt_stored data total_size (header_size + 4) l).

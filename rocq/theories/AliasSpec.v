(** The format of alias data.

    Source: /repo/documentation/Mac OS login item alias data format.asciidoc. *)

From Verif Require Import Base BaseFacts SeqSpec Utf16Spec AliasModel.

Definition w16 (v : Z) : Prop := 0 <= v < 2 ^ 16.
Definition w32 (v : Z) : Prop := 0 <= v < 2 ^ 32.
Definition w64 (v : Z) : Prop := 0 <= v < 2 ^ 64.

(** The record data; that of version 2 is followed by 28 bytes without known meaning. *)
Definition alias_v2_bytes (r : alias_v2) (d : bytes) : Prop :=
  w16 (a2_type r) /\ len (a2_volume r) = 28 /\ w32 (a2_volume_time r) /\ len (a2_file_system r) = 2 /\ len (a2_disk r) = 2 /\ w32 (a2_parent r) /\
  len (a2_target r) = 64 /\ w32 (a2_target_id r) /\ w32 (a2_target_time r) /\
  d = be_enc 2 (a2_type r) ++ a2_volume r ++ be_enc 4 (a2_volume_time r) ++ a2_file_system r ++ a2_disk r ++ be_enc 4 (a2_parent r) ++
      a2_target r ++ be_enc 4 (a2_target_id r) ++ be_enc 4 (a2_target_time r).
Definition alias_v3_bytes (r : alias_v3) (d : bytes) : Prop :=
  w16 (a3_type r) /\ w64 (a3_volume_time r) /\ len (a3_file_system r) = 4 /\ w16 (a3_disk r) /\ w32 (a3_parent r) /\ w32 (a3_target_id r) /\
  w64 (a3_target_time r) /\ w32 (a3_flags r) /\ len (a3_unknown r) = 14 /\
  d = be_enc 2 (a3_type r) ++ be_enc 8 (a3_volume_time r) ++ a3_file_system r ++ be_enc 2 (a3_disk r) ++ be_enc 4 (a3_parent r) ++
      be_enc 4 (a3_target_id r) ++ be_enc 8 (a3_target_time r) ++ be_enc 4 (a3_flags r) ++ a3_unknown r.

(** UTF-16 big-endian: the bytes of every unit the other way around. *)
Inductive swapped : bytes -> bytes -> Prop :=
| sw_nil : swapped [] []
| sw_unit a b x y : swapped x y -> swapped (a :: b :: x) (b :: a :: y).
Definition utf16be (s : str) (d : bytes) : Prop := exists d', utf16 s d' /\ swapped d' d.

(** The values. The array of integers can be followed by less than one integer, a UTF-16 string by
    other data. *)
Inductive alias_data_value (utf8 : bytes -> option str) (data pad : bytes) : Z -> alias_value -> Prop :=
| adv_ints l r : ints_ok (FU BE 4) l -> len r < 4 -> data = enc_ints (FU BE 4) l ++ r -> alias_data_value utf8 data pad 1 (AInts l)
| adv_text tag s : In tag [0; 2; 6; 0x12; 0x13] -> utf8 data = Some s -> alias_data_value utf8 data pad tag (AText s)
| adv_wide tag s n w r : In tag [0xe; 0xf] -> w16 n -> len w = 2 * n -> utf16be s w -> data ++ pad = be_enc 2 n ++ w ++ r ->
    alias_data_value utf8 data pad tag (AText s)
| adv_data tag : ~ In tag [1; 0; 2; 6; 0x12; 0x13; 0xe; 0xf] -> alias_data_value utf8 data pad tag (AData data).

Definition alias_tagged (utf8 : bytes -> option str) (tv : Z * alias_value) (d : bytes) : Prop :=
  exists data pad, w16 (fst tv) /\ w16 (len data) /\ len pad = len data mod 2 /\
    d = be_enc 2 (fst tv) ++ be_enc 2 (len data) ++ data ++ pad /\ alias_data_value utf8 data pad (fst tv) (snd tv).

Definition alias_header (size version : Z) : bytes := [0; 0; 0; 0] ++ be_enc 2 size ++ be_enc 2 version.

(** A record of alias data. *)
Definition alias_file (utf8 : bytes -> option str) (r : alias_record) (l : list (Z * alias_value)) (content : bytes) : Prop :=
  w16 (len content) /\ exists d ds, Forall2 (alias_tagged utf8) l ds /\
    match r with
    | AliasV2 r => exists unknown, len unknown = 28 /\ alias_v2_bytes r d /\ content = alias_header (len content) 2 ++ d ++ unknown ++ concat ds
    | AliasV3 r => alias_v3_bytes r d /\ content = alias_header (len content) 3 ++ d ++ concat ds
    end.

(** A record of version 2 that stops within the 28 bytes. *)
Definition alias_cut (r : alias_record) (l : list (Z * alias_value)) (content : bytes) : Prop :=
  w16 (len content) /\ l = [] /\
  match r with
  | AliasV2 r => exists d unknown, len unknown < 28 /\ alias_v2_bytes r d /\ content = alias_header (len content) 2 ++ d ++ unknown
  | AliasV3 _ => False
  end.

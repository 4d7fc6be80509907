(** USN change journals: blocks of 4096 bytes, each with records that are followed by zeros. *)

From Verif Require Import Base BaseFacts UsnModel.

(** A record with its name as stored. *)
Definition usn_bytes (r : usn_record) (name : bytes) : bytes :=
  le_enc 4 (60 + len name + len (us_padding r)) ++ le_enc 2 2 ++ le_enc 2 0 ++
  le_enc 8 (us_file r) ++ le_enc 8 (us_parent r) ++ le_enc 8 (us_sequence r) ++ le_enc 8 (us_time r) ++
  le_enc 4 (us_reason r) ++ le_enc 4 (us_source r) ++ le_enc 4 (us_security r) ++ le_enc 4 (us_attributes r) ++
  le_enc 2 (len name) ++ le_enc 2 (us_name_offset r) ++ name ++ us_padding r.

Definition usn_ok (utf16 : bytes -> option str) (r : usn_record) (name : bytes) : Prop :=
  Forall (fun z => 0 <= z < 2 ^ 64) [us_file r; us_parent r; us_sequence r; us_time r] /\
  Forall (fun z => 0 <= z < 2 ^ 32) [us_reason r; us_source r; us_security r; us_attributes r] /\
  0 <= us_name_offset r < 2 ^ 16 /\ len name < 2 ^ 16 /\ 60 + len name + len (us_padding r) < 2 ^ 32 /\
  name <> [] /\ utf16 name = Some (us_name r).

(** Records, one after the other. *)
Inductive usn_stored (utf16 : bytes -> option str) : list usn_record -> bytes -> Prop :=
| uss_nil : usn_stored utf16 [] []
| uss_cons r name rs d : usn_ok utf16 r name -> usn_stored utf16 rs d -> usn_stored utf16 (r :: rs) (usn_bytes r name ++ d).

(** A journal whose blocks have no unused space, apart from the last one. *)
Inductive usn_journal (utf16 : bytes -> option str) : bool -> list usn_record -> bytes -> Prop :=
| usj_last single rs d n : usn_stored utf16 rs d ->
    len d + Z.of_nat n = 4096 \/ single = true /\ len d + Z.of_nat n <= 4096 ->
    usn_journal utf16 single rs (d ++ repeat 0 n)
| usj_block single rs d rs' d' : usn_stored utf16 rs d -> len d = 4096 -> usn_journal utf16 false rs' d' ->
    usn_journal utf16 single (rs ++ rs') (d ++ d').

(** A record somewhere in the file. *)
Definition usn_found (utf16 : bytes -> option str) (content : bytes) (r : usn_record) : Prop :=
  exists pre name post, content = pre ++ usn_bytes r name ++ post /\
    Forall (fun z => 0 <= z < 2 ^ 64) [us_file r; us_parent r; us_sequence r; us_time r] /\
    Forall (fun z => 0 <= z < 2 ^ 32) [us_reason r; us_source r; us_security r; us_attributes r] /\
    0 <= us_name_offset r < 2 ^ 16 /\ len name < 2 ^ 16 /\ 60 + len name + len (us_padding r) < 2 ^ 32 /\
    utf16 name = Some (us_name r).

(** The formats of Jump List files.

    Source: /repo/documentation/Jump lists format.asciidoc. *)

From Verif Require Import Base BaseFacts SeqSpec Utf16Spec JlModel.

Definition n16 (v : Z) : Prop := 0 <= v < 2 ^ 16.
Definition n32 (v : Z) : Prop := 0 <= v < 2 ^ 32.
Definition n64 (v : Z) : Prop := 0 <= v < 2 ^ 64.

(** A signed integer of 4 bytes in two's complement. *)
Definition i32 (v : Z) (d : bytes) : Prop := - 2 ^ 31 <= v < 2 ^ 31 /\ d = le_enc 4 (if v <? 0 then v + 2 ^ 32 else v).

(** The number of characters and the characters. *)
Definition sized_path (s : str) (d : bytes) : Prop := exists n w, n16 n /\ len w = 2 * n /\ utf16 s w /\ d = le_enc 2 n ++ w.

(** What the entries of all versions begin with. *)
Definition dest_head (e : dest_entry) (d : bytes) : Prop :=
  n64 (de_unknown1 e) /\ len (de_volume e) = 16 /\ len (de_file e) = 16 /\ len (de_birth_volume e) = 16 /\ len (de_birth_file e) = 16 /\
  len (de_hostname e) = 16 /\ Forall (fun c => 0 <= c < 128) (de_hostname e) /\ n32 (de_number e) /\ n32 (de_unknown2 e) /\ n32 (de_unknown3 e) /\ n64 (de_time e) /\
  exists p, i32 (de_pin e) p /\
  d = le_enc 8 (de_unknown1 e) ++ de_volume e ++ de_file e ++ de_birth_volume e ++ de_birth_file e ++ de_hostname e ++ le_enc 4 (de_number e) ++
      le_enc 4 (de_unknown2 e) ++ le_enc 4 (de_unknown3 e) ++ le_enc 8 (de_time e) ++ p.

Definition dest_bytes (version : Z) (e : dest_entry) (d : bytes) : Prop :=
  exists h p, dest_head e h /\ sized_path (de_path e) p /\
    ((version = 1 /\ de_more e = None /\ d = h ++ p) \/
     (2 <= version /\ exists u4 u5 u6 u7 s, de_more e = Some (u4, u5, u6, u7) /\ i32 u4 s /\ n32 u5 /\ n64 u6 /\ n32 u7 /\
        d = h ++ s ++ le_enc 4 u5 ++ le_enc 8 u6 ++ p ++ le_enc 4 u7)).

(** A DestList stream: the header and the entries up to the end. *)
Definition dest_list (h : list Z) (l : list dest_entry) (content : bytes) : Prop :=
  exists version count pinned u1 last u2 revision u3 ds,
    h = [version; count; pinned; u1; last; u2; revision; u3] /\ Forall n32 h /\ In version [1; 2; 3; 4] /\ Forall2 (dest_bytes version) l ds /\
    content = le_enc 4 version ++ le_enc 4 count ++ le_enc 4 pinned ++ le_enc 4 u1 ++ le_enc 4 last ++ le_enc 4 u2 ++ le_enc 4 revision ++ le_enc 4 u3 ++ concat ds.

(** The header of a category. *)
Inductive category_bytes : category -> bytes -> Prop :=
| cb_custom name p n : sized_path name p -> n32 n -> category_bytes (mkcat 0 (Some name) (Some n) None) (le_enc 4 0 ++ p ++ le_enc 4 n)
| cb_known i : n32 i -> category_bytes (mkcat 1 None None (Some i)) (le_enc 4 1 ++ le_enc 4 i)
| cb_tasks n : n32 n -> category_bytes (mkcat 2 None (Some n) None) (le_enc 4 2 ++ le_enc 4 n).

Definition lnk_class : bytes := le_enc 4 0x00021401 ++ le_enc 2 0 ++ le_enc 2 0 ++ [0xc0; 0; 0; 0; 0; 0; 0; 0x46].
Definition signature : bytes := le_enc 4 0xbabffbab.

(** LNK file entries in a row from one offset to another; a LNK file ends where pylnk stops. *)
Inductive lnk_entries (lnk : bytes -> option Z) (content : bytes) : Z -> list bytes -> Z -> Prop :=
| le_end off : lnk_entries lnk content off [] off
| le_next off size l off' : stored_at content off lnk_class -> lnk (zskipn (off + 16) content) = Some size ->
    lnk_entries lnk content (off + 16 + size) l off' -> lnk_entries lnk content off (zskipn (off + 16) content :: l) off'.

(** The number of entries in the header of the category. *)
Definition entry_count (c : category) (n : Z) : Prop := ct_count c = Some n \/ (ct_count c = None /\ n = 0).

(** Categories in a row; [ok] tells which numbers of entries may be present for a given number. *)
Inductive categories (ok : Z -> Z -> Prop) (lnk : bytes -> option Z) (content : bytes) : Z -> list category -> list bytes -> Prop :=
| cs_end off : categories ok lnk content off [] []
| cs_next off c d n l off' cs l' : category_bytes c d -> stored_at content off d -> entry_count c n ->
    lnk_entries lnk content (off + len d) l off' -> ok (len l) n -> stored_at content off' signature ->
    categories ok lnk content (off' + 4) cs l' -> categories ok lnk content off (c :: cs) (l ++ l').

(** A custom destinations file with its LNK files. *)
Definition custom_file (ok : Z -> Z -> Prop) (lnk : bytes -> option Z) (content : bytes) (cs : list category) (l : list bytes) : Prop :=
  exists u rest, n32 (len cs) /\ n32 u /\ content = le_enc 4 2 ++ le_enc 4 (len cs) ++ le_enc 4 u ++ rest /\ categories ok lnk content 12 cs l.

(** The index pages and tables of a WMI repository that can be read with debug output, after "WMI repository file
    format.asciidoc" in the documentation. *)

From Verif Require Import Base BaseFacts SeqSpec WmiModel WmiSpec.

(** A number of two decimal digits. *)
Definition two_digits (n : Z) : Prop := 10 <= n <= 99.

(** A body without keys and values that refers to sub page [n]. *)
Definition lone_body (n : Z) (d : bytes) : Prop :=
  exists key_size key_data value_data rest,
    is_u16 key_size /\ len key_data = 2 * key_size /\ is_u16 (len value_data) /\
    d = le_enc 4 0 ++ le_enc 4 n ++ le_enc 2 key_size ++ key_data ++ le_enc 2 0 ++ le_enc 2 (len value_data) ++ value_data ++ rest.

(** A page of 8192 bytes of the given type, with the given body. *)
Definition page_of (type : Z) (body d : bytes) : Prop :=
  len d = 8192 /\ is_u32 type /\
  exists a b root, is_u32 a /\ is_u32 b /\ is_u32 root /\ d = le_enc 4 type ++ le_enc 4 a ++ le_enc 4 b ++ le_enc 4 root ++ body.

(** The pages that can be read with debug output. *)
Definition debug_page (d : bytes) : Prop :=
  exists type body, page_of type body d /\ (type = 0xaccc -> exists n, two_digits n /\ lone_body n body).

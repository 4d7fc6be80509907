(** UTF-16 little-endian. *)

From Verif Require Import Base BaseFacts.

(** A character of the basic plane is one unit, another one is a pair of surrogates. *)
Inductive utf16 : str -> bytes -> Prop :=
| u_nil : utf16 [] []
| u_one c s d : 0 <= c < 55296 \/ 57344 <= c < 65536 -> utf16 s d -> utf16 (c :: s) (le_enc 2 c ++ d)
| u_two c s d : 65536 <= c < 1114112 -> utf16 s d ->
    utf16 (c :: s) (le_enc 2 (55296 + (c - 65536) / 1024) ++ le_enc 2 (56320 + (c - 65536) mod 1024) ++ d).

(** A string without NUL and its end-of-string character. *)
Definition utf16_z (s : str) (d : bytes) : Prop := ~ In 0 s /\ exists t, utf16 s t /\ d = t ++ [0; 0].

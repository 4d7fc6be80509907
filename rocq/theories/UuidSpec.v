(** The canonical text of a UUID (RFC 4122): five fields as lower case hexadecimal numbers of 8, 4, 4,
    4 and 12 digits. *)

From Verif Require Import Base StrModel.

(** [s] is the number [v] in [n] hexadecimal digits; [parse_nat] knows lower case digits only. *)
Definition hex_field (n v : Z) (s : str) : Prop := len s = n /\ parse_nat 16 s = Some v.

Definition uuid_text (a b c d e : Z) (s : str) : Prop :=
  exists sa sb sc sd se, hex_field 8 a sa /\ hex_field 4 b sb /\ hex_field 4 c sc /\ hex_field 4 d sd /\ hex_field 12 e se /\
    s = sa ++ [45] ++ sb ++ [45] ++ sc ++ [45] ++ sd ++ [45] ++ se.

(** 16 bytes in little-endian and in big-endian order. *)
Definition uuid_le (u : bytes) (s : str) : Prop :=
  exists a b c d e, u = a ++ b ++ c ++ d ++ e /\ len a = 4 /\ len b = 2 /\ len c = 2 /\ len d = 2 /\ len e = 6 /\
    uuid_text (le_int a) (le_int b) (le_int c) (be_int d) (be_int e) s.
Definition uuid_be (u : bytes) (s : str) : Prop :=
  exists a b c d e, u = a ++ b ++ c ++ d ++ e /\ len a = 4 /\ len b = 2 /\ len c = 2 /\ len d = 2 /\ len e = 6 /\
    uuid_text (be_int a) (be_int b) (be_int c) (be_int d) (be_int e) s.

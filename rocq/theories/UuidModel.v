(** The text of UUIDs: [str(uuid.UUID(bytes=d))] and [str(uuid.UUID(bytes_le=d))] of Python. *)

From Verif Require Import Base StrModel.

Definition byte_hex (b : Z) : str := [digit_char (b / 16); digit_char (b mod 16)].
Definition bytes_hex (d : bytes) : str := concat (map byte_hex d).

(** The digits are those of the 16 bytes, with separators behind 8, 12, 16 and 20 of them. *)
Definition uuid_str (d : bytes) : str :=
  join [45] [bytes_hex (firstn 4 d); bytes_hex (firstn 2 (skipn 4 d)); bytes_hex (firstn 2 (skipn 6 d));
             bytes_hex (firstn 2 (skipn 8 d)); bytes_hex (skipn 10 d)].

(** In little-endian UUIDs the bytes of the first three fields are stored in reverse order. *)
Definition uuid_le_str (d : bytes) : str :=
  uuid_str (rev (firstn 4 d) ++ rev (firstn 2 (skipn 4 d)) ++ rev (firstn 2 (skipn 6 d)) ++ skipn 8 d).

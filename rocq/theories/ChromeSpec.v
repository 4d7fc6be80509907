(** Specification of the Chrome cache format, from
    /repo/documentation/Chrome Cache file format.asciidoc, without reference to the model. *)

From Verif Require Import Base StrModel.

(** ** Cache addresses (documentation, section "Cache address") *)

(** [w] bits from bit [lo] upwards. *)
Definition bits (lo w v : Z) : Z := v / 2 ^ lo mod 2 ^ w.

Definition doc_initialized (v : Z) : Prop := bits 31 1 v = 1.
Definition doc_type (v : Z) : Z := bits 28 3 v.
Definition doc_separate_number (v : Z) : Z := bits 0 28 v.
Definition doc_block_number (v : Z) : Z := bits 0 16 v.
Definition doc_file_number (v : Z) : Z := bits 16 8 v.
Definition doc_number_of_blocks (v : Z) : Z := bits 24 2 v + 1.
Definition doc_reserved (v : Z) : Z := bits 26 2 v.

(** Section "File types": the size of a block by file type. *)
Definition doc_block_sizes : list (Z * Z) := [(1, 36); (2, 256); (3, 1024); (4, 4096)].

(** A file name of the given prefix, radix, minimum width and number: determined by parsing
    it back; no more leading zeros than the width needs. *)
Definition names_number (prefix : str) (base width n : Z) (name : str) : Prop :=
  exists digits, name = prefix ++ digits /\ parse_nat base digits = Some n /\ width <= len digits /\
    (len digits = Z.max width 1 \/ hd 48 digits <> 48).

(** ** Allocation bitmap *)

(** Block [i] is allocated: bit [i mod 32] of the 32-bit value [i / 32]. *)
Definition allocated (bitmap : list Z) (i : Z) : Prop :=
  0 <= i < 32 * len bitmap /\ Z.testbit (nth (Z.to_nat (i / 32)) bitmap 0) (i mod 32) = true.

(** A maximal run of allocated blocks [a, b) that ends before the last block. *)
Definition closed_run (bitmap : list Z) (a b : Z) : Prop :=
  0 <= a < b /\ b < 32 * len bitmap /\
  (forall i, a <= i < b -> allocated bitmap i) /\
  ~ allocated bitmap (a - 1) /\ ~ allocated bitmap b.

(** ** Index table *)

(** Entry [i] of a table of 32-bit values stored at an offset: its value, if it lies inside
    the data. *)
Definition table_entry (data : bytes) (start i : Z) : option Z :=
  if (0 <=? i) && (start + 4 * i + 4 <=? len data)
  then Some (le_int (zfirstn 4 (zskipn (start + 4 * i) data)))
  else None.

Fixpoint assoc_z {A} (k : Z) (l : list (Z * A)) : option A :=
  match l with
  | [] => None
  | (k', v) :: r => if k' =? k then Some v else assoc_z k r
  end.

(** ** File headers *)

(** A little-endian integer of [n] bytes at an offset. *)
Definition u_at (data : bytes) (off n : Z) : Z := le_int (zfirstn n (zskipn off data)).

(** Documentation, sections "Index file header" and "Block file header": signature, minor
    version, major version; 2.0 and 2.1 are the versions described. *)
Definition header_ok (signature : Z) (data : bytes) : Prop :=
  u_at data 0 4 = signature /\ u_at data 6 2 = 2 /\ (u_at data 4 2 = 0 \/ u_at data 4 2 = 1).

Definition block_file_ok (data : bytes) : Prop := 8192 <= len data /\ header_ok 0xC104CAC3 data.
Definition index_file_ok (data : bytes) : Prop := 256 + 112 <= len data /\ header_ok 0xC103CAC3 data.

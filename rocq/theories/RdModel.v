(** Readers: the members of a structure are read one after the other from a position of the file.

    data_format.py:671-742 [_ReadStructureFromFileObject] reads more and more data until dtFabric can
    map the structure; data that is missing and data that cannot be mapped are both a ParseError. Thus
    it reads the same values, and needs the same data, as reading the members one by one. *)

From Verif Require Import Base CoreModel SeqModel Utf16Model DictModel.

Definition reader (A : Type) : Type := bytes -> Z -> result (A * Z).

Definition rd_ret {A} (a : A) : reader A := fun _ pos => Ok (a, pos).

Definition rd_bind {A B} (r : reader A) (k : A -> reader B) : reader B :=
  fun content pos => do (a, pos) <- r content pos; k a content pos.

(** A condition on the values before; a value that dtFabric refuses is a MappingError. *)
Definition rd_guard (b : bool) : reader unit := fun _ pos => do _ <- guard b ParseError; Ok (tt, pos).

(** An integer member. *)
Definition rd_int (k : fkind) : reader Z :=
  fun content pos =>
    do l <- read_struct content [k] pos;
    match l with [VI z] => Ok (z, pos + Z.of_nat (fsize k)) | _ => Err OtherError end.

(** A stream of [n] bytes; a negative size is a MappingError. *)
Definition rd_bytes (n : Z) : reader bytes :=
  fun content pos => do _ <- guard (0 <=? n) ParseError; read_next content pos n.

(** Members of fixed size. *)
Definition rd_struct (ks : list fkind) : reader (list fval) :=
  fun content pos => do l <- read_struct content ks pos; Ok (l, pos + Z.of_nat (struct_size ks)).

(** A UTF-16 little-endian string with end-of-string character. *)
Definition rd_wide : reader str :=
  fun content pos => do (s, n) <- utf16_cstr (zskipn pos content); Ok (s, pos + n).

(** A value that is computed, [None] is a MappingError. *)
Definition rd_some {A} (o : option A) : reader A :=
  fun _ pos => match o with Some a => Ok (a, pos) | None => Err ParseError end.

(** A sequence of [n] elements. *)
Fixpoint rd_times {A} (n : nat) (r : reader A) : reader (list A) :=
  match n with
  | O => rd_ret []
  | S n => rd_bind r (fun a => rd_bind (rd_times n r) (fun l => rd_ret (a :: l)))
  end.

Notation "'rd' x <- r ; k" := (rd_bind r (fun x => k)) (at level 200, x name, r at level 100, k at level 200, right associativity).

(** Reading until a size is reached. *)
Fixpoint rd_until {A} (fuel : nat) (r : reader A) (content : bytes) (pos size : Z) : run (list A) :=
  if pos <? size then
    match fuel with
    | O => OutOfFuel
    | S fuel =>
        match r content pos with
        | Err e => Done (Err e)
        | Ok (a, pos) => rdo l <- rd_until fuel r content pos size; Done (Ok (a :: l))
        end
    end
  else Done (Ok []).

(** data_format.py:631-669 [_ReadStructureFromByteStream] of data that are not empty; what follows the
    structure is ignored. *)
Definition rd_data {A} (r : reader A) (data : bytes) : result A := do (a, _) <- r data 0; Ok a.

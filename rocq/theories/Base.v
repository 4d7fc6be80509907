(** Common vocabulary of the model: Python values, exceptions, slices, binary
    integers, fixed-size structures and file-like objects.

    Nothing in this file models one specific function of /repo; it models the
    Python runtime services (CPython 3 semantics of [bytes], [str], slicing,
    [int.from_bytes], file objects) and the part of dtFabric that every format
    uses: mapping a byte stream on a structure of fixed-size members
    (dtfabric.runtime.data_maps, used through
    /repo/dtformats/data_format.py:634-744).  These are part of the trusted
    base listed in DESIGN.md. *)

From Coq Require Export Ascii String.
From Coq Require Export ZArith List Lia Bool.
From Coq Require Export ZifyBool ZifyNat ZifyN.
Export ListNotations.
Open Scope Z_scope.

Ltac Zify.zify_post_hook ::= Z.div_mod_to_equations.

(** ** Values *)

(** Python [bytes]: integers in 0..255.  Python [str]: code points. *)
Definition bytes := list Z.
Definition str := list Z.

Definition is_byte (b : Z) : Prop := 0 <= b < 256.
Definition is_byteb (b : Z) : bool := (0 <=? b) && (b <? 256).
Definition is_bytes (l : bytes) : Prop := Forall is_byte l.

(** ASCII literals. *)
Fixpoint s2z (s : String.string) : list Z :=
  match s with
  | EmptyString => []
  | String a r => Z.of_N (N_of_ascii a) :: s2z r
  end.

(** Python [len]. *)
Definition len {A} (l : list A) : Z := Z.of_nat (length l).

Fixpoint list_eqb (a b : list Z) : bool :=
  match a, b with
  | [], [] => true
  | x :: a', y :: b' => (x =? y) && list_eqb a' b'
  | _, _ => false
  end.

(** ** Exceptions *)

(** The exception classes that the modelled code raises (explicitly, or through
    the Python operations it uses). *)
Inductive exn :=
| ParseError          (* dtformats.errors.ParseError *)
| OSError | ValueError | IndexError | KeyError | TypeError | AttributeError
| UnboundLocalError | UnicodeDecodeError | RuntimeError | OverflowError
| ZeroDivisionError
| OtherError.         (* an exception of an external library *)

Inductive result (A : Type) : Type :=
| Ok (a : A)
| Err (e : exn).
Arguments Ok {A} a.
Arguments Err {A} e.

Definition bind {A B} (r : result A) (f : A -> result B) : result B :=
  match r with Ok a => f a | Err e => Err e end.
Notation "'do' x <- r ; k" := (bind r (fun x => k))
  (at level 200, x pattern, r at level 100, k at level 200).

Definition guard (b : bool) (e : exn) : result unit := if b then Ok tt else Err e.

Definition is_ok {A} (r : result A) : bool :=
  match r with Ok _ => true | Err _ => false end.

(** ** Slices *)

(** [l[n:]] and [l[:n]] for a non-negative [n]; recursion on the list so that a
    huge offset costs nothing. *)
Fixpoint zskipn {A} (n : Z) (l : list A) : list A :=
  match l with
  | [] => []
  | x :: r => if n <=? 0 then l else zskipn (n - 1) r
  end.

Fixpoint zfirstn {A} (n : Z) (l : list A) : list A :=
  match l with
  | [] => []
  | x :: r => if n <=? 0 then [] else x :: zfirstn (n - 1) r
  end.

(** Index normalisation of Python slices (CPython PySlice_AdjustIndices, step 1). *)
Definition slice_index (i n : Z) : Z :=
  if i <? 0 then Z.max 0 (i + n) else Z.min i n.

(** [l[a:b]] for arbitrary integers [a] and [b]. *)
Definition pyslice {A} (l : list A) (a b : Z) : list A :=
  let n := len l in
  let s := slice_index a n in
  let e := slice_index b n in
  zfirstn (e - s) (zskipn s l).

(** [l[a:]]. *)
Definition pyslice_from {A} (l : list A) (a : Z) : list A :=
  zskipn (slice_index a (len l)) l.

(** [l[:b]]. *)
Definition pyslice_to {A} (l : list A) (b : Z) : list A :=
  zfirstn (slice_index b (len l)) l.

(** [l[i]], raising IndexError. *)
Fixpoint znth_error {A} (l : list A) (i : Z) : option A :=
  match l with
  | [] => None
  | x :: r => if i =? 0 then Some x else znth_error r (i - 1)
  end.

Definition pyindex {A} (l : list A) (i : Z) : result A :=
  let j := if i <? 0 then i + len l else i in
  if j <? 0 then Err IndexError
  else match znth_error l j with Some x => Ok x | None => Err IndexError end.

(** ** Integers stored in byte streams *)

(** [int.from_bytes(d, "big")] and [int.from_bytes(d, "little")]. *)
Definition be_int (d : bytes) : Z := fold_left (fun acc b => acc * 256 + b) d 0.
Fixpoint le_int (d : bytes) : Z :=
  match d with [] => 0 | b :: r => b + 256 * le_int r end.

(** Two's complement reading of an [n]-byte unsigned value. *)
Definition to_signed (n : nat) (v : Z) : Z :=
  if v <? 2 ^ (8 * Z.of_nat n - 1) then v else v - 2 ^ (8 * Z.of_nat n).

(** ** Fixed-size structures (dtFabric structure maps) *)

Inductive endian := LE | BE.

Inductive fkind :=
| FU (e : endian) (n : nat)   (* unsigned integer of n bytes *)
| FS (e : endian) (n : nat)   (* signed integer of n bytes *)
| FB (n : nat).               (* stream of n bytes *)

Inductive fval :=
| VI (z : Z)
| VB (b : bytes).

Definition fsize (k : fkind) : nat :=
  match k with FU _ n | FS _ n | FB n => n end.

Definition struct_size (l : list fkind) : nat :=
  fold_right (fun k acc => (fsize k + acc)%nat) 0%nat l.

Definition endian_int (e : endian) (d : bytes) : Z :=
  match e with LE => le_int d | BE => be_int d end.

Definition map_field (k : fkind) (d : bytes) : fval :=
  match k with
  | FU e _ => VI (endian_int e d)
  | FS e n => VI (to_signed n (endian_int e d))
  | FB _ => VB d
  end.

(** dtFabric MapByteStream on a structure of fixed-size members: [None] is
    ByteStreamTooSmallError; bytes after the structure are ignored. *)
Fixpoint map_struct (l : list fkind) (d : bytes) : option (list fval) :=
  match l with
  | [] => Some []
  | k :: r =>
      let n := fsize k in
      if Nat.ltb (length d) n then None
      else match map_struct r (skipn n d) with
           | Some vs => Some (map_field k (firstn n d) :: vs)
           | None => None
           end
  end.

(** ** Files *)

(** An opened file-like object over immutable content: CPython
    [open(path, "rb")].  [seek] to a negative absolute position raises OSError
    (EINVAL); [read(-1)] reads to the end of the file, [read(n)] with [n < -1] raises
    ValueError; reading at or after the end returns [b""]. Positions and sizes of 2^63 and
    more, which the file object rejects, are not distinguished here. *)
Record file := mkfile { fdata : bytes; fpos : Z }.

Definition f_seek (f : file) (off : Z) : result file :=
  if off <? 0 then Err OSError else Ok (mkfile (fdata f) off).

(** [read(n)] for [n] of at least -1. *)
Definition f_read (f : file) (n : Z) : bytes * file :=
  let rest := zskipn (fpos f) (fdata f) in
  let d := if n <? 0 then rest else zfirstn n rest in
  (d, mkfile (fdata f) (fpos f + len d)).

Definition f_try_read (f : file) (n : Z) : result (bytes * file) :=
  if n <? -1 then Err ValueError else Ok (f_read f n).

(** [file_object.read(n)] at the file position [pos]: the data. *)
Definition read_here (content : bytes) (pos n : Z) : result bytes :=
  do (data, _) <- f_try_read (mkfile content pos) n; Ok data.

(** [file_object.seek(off); file_object.read(n)] for [n] of at least -1. *)
Definition read_at (content : bytes) (off n : Z) : result bytes :=
  if off <? 0 then Err OSError
  else Ok (if n <? 0 then zskipn off content else zfirstn n (zskipn off content)).

(** Structures whose members follow each other, where the sizes and numbers of elements can
    depend on earlier members: dtFabric structures with integers, streams, strings and
    sequences. *)

From Verif Require Import Base CoreModel SeqModel GzipModel.

Inductive mval := MI (z : Z) | MB (d : bytes) | ML (l : list Z) | MS (l : list bytes).

(** Sizes and numbers are functions of the values of the earlier members. [ok] tells for the
    data of a string whether it can be decoded. *)
Inductive mem :=
| MInt (k : fkind)
| MConst (k : fkind) (z : Z)
| MData (size : list mval -> Z)
| MAscii (size : list mval -> Z)
| MInts (k : fkind) (count : list mval -> Z)
| MCStr
| MCStrs (count : list mval -> Z)
| MText (ok : bytes -> bool) (size : list mval -> Z)
| MCText (ok : bytes -> bool).

Definition ascii (d : bytes) : bool := forallb (fun c => c <? 128) d.

(** A string with an end-of-string character. *)
Definition read_cstr (content : bytes) (pos : Z) : result (bytes * Z) :=
  match cstring_end (zskipn pos content) with
  | Some s => do _ <- guard (ascii s) ParseError; Ok (s, pos + len s + 1)
  | None => Err ParseError
  end.

Fixpoint read_cstrs (n : nat) (content : bytes) (pos : Z) : result (list bytes * Z) :=
  match n with
  | O => Ok ([], pos)
  | S n => do (s, pos) <- read_cstr content pos; do (l, pos) <- read_cstrs n content pos; Ok (s :: l, pos)
  end.

(** data_format.py:671-742 [_ReadStructureFromFileObject] reads until a structure can be mapped;
    all its errors are ParseError. Here the members are read one after the other, which needs the
    same data. The value and the position behind it. *)
Definition read_mem (content : bytes) (pos : Z) (vs : list mval) (m : mem) : result (mval * Z) :=
  match m with
  | MInt k =>
      do l <- read_struct content [k] pos;
      match l with [VI z] => Ok (MI z, pos + Z.of_nat (fsize k)) | _ => Err OtherError end
  | MConst k c =>
      do l <- read_struct content [k] pos;
      match l with [VI z] => do _ <- guard (z =? c) ParseError; Ok (MI z, pos + Z.of_nat (fsize k)) | _ => Err OtherError end
  | MData size =>
      do _ <- guard (0 <=? size vs) ParseError;
      do (d, pos) <- read_next content pos (size vs); Ok (MB d, pos)
  | MAscii size =>
      do _ <- guard (0 <=? size vs) ParseError;
      do (d, pos) <- read_next content pos (size vs);
      do _ <- guard (ascii d) ParseError; Ok (MB d, pos)
  | MInts k count =>
      do _ <- guard (0 <=? count vs) ParseError;
      do (d, pos) <- read_next content pos (count vs * Z.of_nat (fsize k));
      match map_struct (repeat k (Z.to_nat (count vs))) d with
      | Some l => Ok (ML (ints l), pos)
      | None => Err ParseError
      end
  | MCStr => do (s, pos) <- read_cstr content pos; Ok (MB s, pos)
  | MCStrs count =>
      do _ <- guard (0 <=? count vs) ParseError;
      do (l, pos) <- read_cstrs (Z.to_nat (count vs)) content pos; Ok (MS l, pos)
  | MText ok size =>
      do _ <- guard (0 <=? size vs) ParseError;
      do (d, pos) <- read_next content pos (size vs);
      do _ <- guard (ok d) ParseError; Ok (MB d, pos)
  | MCText ok =>
      match cstring_end (zskipn pos content) with
      | Some s => do _ <- guard (ok s) ParseError; Ok (MB s, pos + len s + 1)
      | None => Err ParseError
      end
  end.

(** All values, the earlier ones in [vs] first. *)
Fixpoint read_mems (content : bytes) (pos : Z) (vs : list mval) (ms : list mem) : result (list mval * Z) :=
  match ms with
  | [] => Ok (vs, pos)
  | m :: ms => do (v, pos) <- read_mem content pos vs m; read_mems content pos (vs ++ [v]) ms
  end.

(** The integer member [i]. *)
Definition mint (i : nat) (vs : list mval) : Z := match nth_error vs i with Some (MI z) => z | _ => -1 end.

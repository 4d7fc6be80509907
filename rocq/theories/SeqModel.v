(** Helpers that the smaller formats share: data behind the file position, sequences of
    integers, errors that are turned into ParseError. *)

From Verif Require Import Base CoreModel VarModel.

(** data_format.py:590-632 [_ReadData] at the position of the file: the data and the position
    behind it. [n] is not negative. *)
Definition read_next (content : bytes) (pos n : Z) : result (bytes * Z) :=
  let d := zfirstn n (zskipn pos content) in
  if len d =? n then Ok (d, pos + n) else Err ParseError.

(** [except (ValueError, errors.ParseError): raise errors.ParseError]. *)
Definition as_parse_error {A} (r : result A) : result A :=
  match r with
  | Err ValueError => Err ParseError
  | _ => r
  end.

(** The integers of a list of members. *)
Definition ints (l : list fval) : list Z := map (fun v => match v with VI z => z | VB _ => 0 end) l.

(** data_format.py:634-669 [_ReadStructureFromByteStream] with a dtFabric sequence of [n]
    integers. *)
Definition seq_bs (k : fkind) (n : Z) (d : bytes) : result (list Z) :=
  do l <- struct_bs (repeat k (Z.to_nat n)) d; Ok (ints l).

(** A loop that calls a function that can raise for every element. *)
Fixpoint mapr {A B} (f : A -> result B) (l : list A) : result (list B) :=
  match l with
  | [] => Ok []
  | x :: r => do y <- f x; do ys <- mapr f r; Ok (y :: ys)
  end.

(** [_ReadStructureFromByteStream] with a fixed-size structure that ends with a sequence of
    [n] integers, where [n] depends on the other members. *)
Definition struct_seq_bs (ks : list fkind) (k : fkind) (n : list fval -> Z) (d : bytes)
  : result (list fval * list Z) :=
  do vs <- struct_bs ks d;
  match map_struct (repeat k (Z.to_nat (n vs))) (zskipn (Z.of_nat (struct_size ks)) d) with
  | Some l => Ok (vs, ints l)
  | None => Err ParseError
  end.

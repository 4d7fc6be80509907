(** Structures with a fixed-size header that are followed by a stream of bytes whose size
    is determined by the header. *)

From Verif Require Import Base CoreModel.

(** dtFabric map of such a structure: [ext] is the [elements_data_size] expression. The
    mapping needs the header, then the whole structure; a negative size is a MappingError.
    The size hint is the header size until the header is known. *)
Definition var_size (ks : list fkind) (ext : list fval -> Z) (d : bytes) : Z :=
  match map_struct ks d with
  | Some vs => Z.of_nat (struct_size ks) + ext vs
  | None => Z.of_nat (struct_size ks)
  end.

Definition var_map (ks : list fkind) (ext : list fval -> Z) : dtmap (list fval * bytes) :=
  mkmap (Z.of_nat (struct_size ks))
    (fun d =>
       match map_struct ks d with
       | None => MTooSmall
       | Some vs =>
           if ext vs <? 0 then MError
           else if len d <? Z.of_nat (struct_size ks) + ext vs then MTooSmall
           else MOk (vs, zfirstn (ext vs) (zskipn (Z.of_nat (struct_size ks)) d))
       end)
    (var_size ks ext).

(** [_ReadStructureFromFileObject] with the map above as two reads: the header and the
    stream (VarFacts.read_var_is_read_structure). Returns the header values, the stream and
    the number of bytes read. *)
Definition read_var (content : bytes) (ks : list fkind) (ext : list fval -> Z) (off : Z)
  : result (list fval * bytes * Z) :=
  do vs <- read_struct content ks off;
  let n := ext vs in
  do _ <- guard (0 <=? n) ParseError;
  let hs := Z.of_nat (struct_size ks) in
  let d := zfirstn n (zskipn (off + hs) content) in
  if len d =? n then Ok (vs, d, hs + n) else Err ParseError.

(** [_ReadStructureFromByteStream] with a fixed-size structure. *)
Definition struct_bs (ks : list fkind) (d : bytes) : result (list fval) :=
  match d with
  | [] => Err ValueError
  | _ => match map_struct ks d with Some vs => Ok vs | None => Err ParseError end
  end.

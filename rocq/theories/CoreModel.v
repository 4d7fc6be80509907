(** Model of the file access core: data ranges, exact reads, structure reads and
    the open/close life cycle.

    Sources: /repo/dtformats/data_range.py, /repo/dtformats/data_format.py. *)

From Verif Require Import Base.

(** ** DataRange *)

(** data_range.py:15-28 [DataRange.__init__]; [_file_object] is the shared parent
    and is threaded through the operations instead of being stored. *)
Record drange := mkrange { dr_offset : Z; dr_size : Z; dr_cur : Z }.

Definition dr_new (data_offset data_size : Z) : drange :=
  mkrange data_offset data_size 0.

(** data_range.py:33-70 [DataRange.read].  Returns the outcome, the new state of
    the range and the new state of the parent. *)
Definition dr_read (r : drange) (parent : file) (size : option Z)
  : result bytes * drange * file :=
  if dr_offset r <? 0 then (Err OSError, r, parent)
  else if dr_size r <? 0 then (Err OSError, r, parent)
  else if dr_size r <=? dr_cur r then (Ok [], r, parent)
  else
    let size := match size with None => dr_size r | Some n => n end in
    let size := if dr_size r <? dr_cur r + size then dr_size r - dr_cur r else size in
    match f_seek parent (dr_offset r + dr_cur r) with
    | Err e => (Err e, r, parent)
    | Ok parent1 =>
        match f_try_read parent1 size with
        | Err e => (Err e, r, parent1)
        | Ok (data, parent2) =>
            (Ok data, mkrange (dr_offset r) (dr_size r) (dr_cur r + len data), parent2)
        end
    end.

(** os.SEEK_SET, os.SEEK_CUR, os.SEEK_END. *)
Definition SEEK_SET := 0.
Definition SEEK_CUR := 1.
Definition SEEK_END := 2.

(** data_range.py:72-96 [DataRange.seek]. *)
Definition dr_seek (r : drange) (offset whence : Z) : result unit * drange :=
  if dr_size r <? 0 then (Err OSError, r)
  else
    let target :=
      if whence =? SEEK_CUR then Ok (offset + dr_cur r)
      else if whence =? SEEK_END then Ok (offset + dr_size r)
      else if negb (whence =? SEEK_SET) then Err OSError
      else Ok offset in
    match target with
    | Err e => (Err e, r)
    | Ok offset =>
        if offset <? 0 then (Err OSError, r)
        else (Ok tt, mkrange (dr_offset r) (dr_size r) offset)
    end.

(** data_range.py:98-121 [get_offset], [tell], [get_size]. *)
Definition dr_tell (r : drange) : Z := dr_cur r.
Definition dr_get_size (r : drange) : Z := dr_size r.

(** Operations of clients on ranges and, directly, on the shared parent. *)
Inductive rop :=
| RRead (size : option Z)
| RSeek (offset whence : Z)
| RTell.

Inductive rout :=
| OData (r : result bytes)
| OSeek (r : result unit)
| OTell (z : Z).

Definition dr_step (r : drange) (parent : file) (o : rop) : rout * drange * file :=
  match o with
  | RRead n => let '(d, r', f') := dr_read r parent n in (OData d, r', f')
  | RSeek off wh => let (u, r') := dr_seek r off wh in (OSeek u, r', parent)
  | RTell => (OTell (dr_tell r), r, parent)
  end.

(** One range used alone. *)
Fixpoint dr_run (r : drange) (parent : file) (ops : list rop) : list rout * drange * file :=
  match ops with
  | [] => ([], r, parent)
  | o :: rest =>
      let '(out, r1, f1) := dr_step r parent o in
      let '(outs, r2, f2) := dr_run r1 f1 rest in
      (out :: outs, r2, f2)
  end.

(** Several ranges over one parent, and other code moving the parent's position:
    the schedule chooses who acts. *)
Inductive sop :=
| SRange (i : nat) (o : rop)
| SParentSeek (offset : Z)
| SParentRead (size : Z).

Definition update_nth {A} (i : nat) (x : A) (l : list A) : list A :=
  firstn i l ++ match skipn i l with [] => [] | _ :: r => x :: r end.

Fixpoint dr_interleave (rs : list drange) (parent : file) (ops : list sop)
  : list (nat * rout) :=
  match ops with
  | [] => []
  | SParentSeek off :: rest =>
      match f_seek parent off with
      | Ok f1 => dr_interleave rs f1 rest
      | Err _ => dr_interleave rs parent rest
      end
  | SParentRead n :: rest =>
      match f_try_read parent n with
      | Ok (_, f1) => dr_interleave rs f1 rest
      | Err _ => dr_interleave rs parent rest
      end
  | SRange i o :: rest =>
      match nth_error rs i with
      | None => dr_interleave rs parent rest
      | Some r =>
          let '(out, r1, f1) := dr_step r parent o in
          (i, out) :: dr_interleave (update_nth i r1 rs) f1 rest
      end
  end.

(** ** Exact reads *)

(** data_format.py:590-632 [BinaryDataFormat._ReadData].  The file object is
    present ([if not file_object] is the [None] case). An OSError of [read] itself
    is not modelled: [read] of the model fails only for a size below -1. *)
Definition read_data (fo : option file) (file_offset data_size : Z)
  : result (bytes * file) :=
  match fo with
  | None => Err ValueError
  | Some f =>
      do f1 <- f_seek f file_offset;
      do (data, f2) <- f_try_read f1 data_size;
      if negb (len data =? data_size) then Err ParseError else Ok (data, f2)
  end.

(** ** Structure reads *)

(** What a dtFabric map does with a byte stream: it maps, asks for more data
    (ByteStreamTooSmallError) or rejects the data (MappingError). *)
Inductive mapped (A : Type) :=
| MOk (a : A)
| MTooSmall
| MError.
Arguments MOk {A} a.
Arguments MTooSmall {A}.
Arguments MError {A}.

(** A data type map: [GetSizeHint()] before mapping, [MapByteStream], and
    [GetSizeHint(context)] after a failed mapping of the given data.  The context
    is created afresh for every mapping, so the hint is a function of the data. *)
Record dtmap (A : Type) := mkmap {
  m_hint0 : Z;
  m_map : bytes -> mapped A;
  m_hint : bytes -> Z }.
Arguments mkmap {A}.
Arguments m_hint0 {A}.
Arguments m_map {A}.
Arguments m_hint {A}.

(** Outcome of a loop that is run with bounded fuel. *)
Inductive run (A : Type) :=
| Done (r : result A)
| OutOfFuel.
Arguments Done {A} r.
Arguments OutOfFuel {A}.

(** data_format.py:704-744, the [while] loop of
    [BinaryDataFormat._ReadStructureFromFileObject]. *)
Fixpoint read_structure_loop {A} (fuel : nat) (m : dtmap A) (f : file)
  (file_offset : Z) (data : bytes) (last_data_size data_size : Z) : run (A * Z * file) :=
  match fuel with
  | O => OutOfFuel
  | S fuel' =>
      if data_size =? last_data_size then Done (Err ParseError)
      else
        match read_data (Some f) (file_offset + last_data_size)
                (data_size - last_data_size) with
        | Err e => Done (Err e)
        | Ok (segment, f1) =>
            let data1 := data ++ segment in
            match m_map m data1 with
            | MOk a => Done (Ok (a, data_size, f1))
            | MError => Done (Err ParseError)
            | MTooSmall =>
                read_structure_loop fuel' m f1 file_offset data1 data_size (m_hint m data1)
            end
        end
  end.

(** data_format.py:671-744 [_ReadStructureFromFileObject]. *)
Definition read_structure {A} (fuel : nat) (m : dtmap A) (f : file) (file_offset : Z)
  : run (A * Z * file) :=
  read_structure_loop fuel m f file_offset [] 0 (m_hint0 m).

(** data_format.py:634-669 [_ReadStructureFromByteStream] with a map given. *)
Definition read_structure_bs {A} (m : dtmap A) (byte_stream : bytes) : result A :=
  match byte_stream with
  | [] => Err ValueError
  | _ => match m_map m byte_stream with
         | MOk a => Ok a
         | MTooSmall | MError => Err ParseError
         end
  end.

(** dtFabric map of a structure of fixed-size members. *)
Definition struct_map (l : list fkind) : dtmap (list fval) :=
  mkmap (Z.of_nat (struct_size l))
    (fun d => match map_struct l d with Some vs => MOk vs | None => MTooSmall end)
    (fun _ => Z.of_nat (struct_size l)).

(** Reading a fixed-size structure: one data read, one mapping (the common use of
    [_ReadStructureFromFileObject] by the format readers). *)
Definition read_struct (content : bytes) (l : list fkind) (off : Z) : result (list fval) :=
  do d <- read_at content off (Z.of_nat (struct_size l));
  if negb (len d =? Z.of_nat (struct_size l)) then Err ParseError
  else match map_struct l d with
       | Some vs => Ok vs
       | None => Err ParseError
       end.

(** ** Open and close *)

(** Handles are numbered in the order in which the file system helper opens
    them. [o_held] is [_file_object], [o_owned] is [_file_object_opened_in_object],
    [o_path] is [_path]. *)
Record ostate := mkos {
  o_held : option nat;
  o_owned : bool;
  o_path : option str;
  o_next : nat;             (* next handle number of the environment *)
  o_live : list nat;        (* handles open in the environment *)
  o_closed : list nat }.    (* handles closed, latest first *)

(** data_format.py:848-864 [BinaryDataFile.__init__]. *)
Definition o_init : ostate := mkos None false None 0 [] [].

(** What the environment and the format reader do during one [Open] call. *)
Inductive open_outcome :=
| NoSize (e : exn)       (* GetFileSizeByPath raises *)
| NoOpen (e : exn)       (* OpenFileByPath raises *)
| ReadFails (e : exn)    (* ReadFileObject raises *)
| ReadOk.

Inductive oop :=
| OOpen (path : str) (w : open_outcome)
| OClose.

(** data_format.py:866-879 [Close] and 881-901 [Open]. *)
Definition o_step (s : ostate) (o : oop) : result unit * ostate :=
  match o with
  | OOpen path w =>
      match o_held s with
      | Some _ => (Err OSError, s)
      | None =>
          match w with
          | NoSize e => (Err e, s)
          | NoOpen e =>
              (Err e, mkos (o_held s) (o_owned s) (Some path) (o_next s) (o_live s) (o_closed s))
          | ReadFails e =>
              (Err e, mkos (o_held s) (o_owned s) (Some path) (S (o_next s))
                        (o_next s :: o_live s) (o_closed s))
          | ReadOk =>
              (Ok tt, mkos (Some (o_next s)) true (Some path) (S (o_next s))
                        (o_next s :: o_live s) (o_closed s))
          end
      end
  | OClose =>
      match o_held s with
      | None => (Err OSError, s)
      | Some h =>
          if o_owned s then
            (Ok tt, mkos None false None (o_next s)
                      (filter (fun x => negb (Nat.eqb x h)) (o_live s)) (h :: o_closed s))
          else (Ok tt, mkos None false None (o_next s) (o_live s) (o_closed s))
      end
  end.

Fixpoint o_run (s : ostate) (ops : list oop) : list (result unit) * ostate :=
  match ops with
  | [] => ([], s)
  | o :: rest =>
      let (r, s1) := o_step s o in
      let (rs, s2) := o_run s1 rest in
      (r :: rs, s2)
  end.

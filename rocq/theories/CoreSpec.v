(** Independent specification of the file access core. *)

From Verif Require Import Base CoreModel.

(** The bytes a data range stands for: the part of the parent inside the window. *)
Definition view (content : bytes) (off size : Z) : bytes :=
  zfirstn size (zskipn off content).

(** Reading an ordinary in-memory file with the given bytes. *)
Definition mem_read (bs : bytes) (pos : Z) (n : option Z) : bytes :=
  match n with
  | None => zskipn pos bs
  | Some n => zfirstn n (zskipn pos bs)
  end.

Definition sumz (l : list Z) : Z := fold_right Z.add 0 l.

(** A range that can be used: non-negative window, non-negative position (the
    positions reachable by seek and read). *)
Definition usable (r : drange) : Prop :=
  0 <= dr_offset r /\ 0 <= dr_size r /\ 0 <= dr_cur r.

(** Requested absolute position of a seek, if the whence value is known. *)
Definition seek_target (cur size offset whence : Z) : option Z :=
  if whence =? 0 then Some offset
  else if whence =? 1 then Some (cur + offset)
  else if whence =? 2 then Some (size + offset)
  else None.

(** The operations of one range in a schedule. *)
Fixpoint project (i : nat) (ops : list sop) : list rop :=
  match ops with
  | [] => []
  | SRange j o :: rest => if Nat.eqb i j then o :: project i rest else project i rest
  | _ :: rest => project i rest
  end.

Fixpoint outputs_of (i : nat) (outs : list (nat * rout)) : list rout :=
  match outs with
  | [] => []
  | (j, o) :: rest => if Nat.eqb i j then o :: outputs_of i rest else outputs_of i rest
  end.

(** Abstract life cycle: closed, or open with a handle; plus the handles that
    were opened for a failed read. *)
Inductive phase := PClosed | POpen (h : nat).

(** Outcomes of a history as a function of the abstract phase. *)
Definition phase_step (p : phase) (next : nat) (o : oop) : result unit * phase * nat :=
  match p, o with
  | POpen h, OOpen _ _ => (Err OSError, p, next)
  | PClosed, OOpen _ (NoSize e) => (Err e, p, next)
  | PClosed, OOpen _ (NoOpen e) => (Err e, p, next)
  | PClosed, OOpen _ (ReadFails e) => (Err e, p, S next)
  | PClosed, OOpen _ ReadOk => (Ok tt, POpen next, S next)
  | PClosed, OClose => (Err OSError, p, next)
  | POpen h, OClose => (Ok tt, PClosed, next)
  end.

Fixpoint phase_run (p : phase) (next : nat) (ops : list oop) : list (result unit) * phase * nat :=
  match ops with
  | [] => ([], p, next)
  | o :: rest =>
      let '(r, p1, n1) := phase_step p next o in
      let '(rs, p2, n2) := phase_run p1 n1 rest in
      (r :: rs, p2, n2)
  end.

Definition phase_of (s : ostate) : phase :=
  match o_held s with None => PClosed | Some h => POpen h end.

(** Consistency of the handles of the environment with the object. *)
Definition o_inv (s : ostate) : Prop :=
  NoDup (o_live s) /\ NoDup (o_closed s) /\
  (forall h, In h (o_live s) -> (h < o_next s)%nat) /\
  (forall h, In h (o_closed s) -> (h < o_next s)%nat) /\
  (forall h, In h (o_live s) -> ~ In h (o_closed s)) /\
  match o_held s with
  | None => o_owned s = false
  | Some h => o_owned s = true /\ In h (o_live s)
  end.

(** Number of opened handles that are still live: held ones plus leaks. *)
Fixpoint failed_reads (p : phase) (ops : list oop) : nat :=
  match ops with
  | [] => 0
  | o :: rest =>
      match p, o with
      | PClosed, OOpen _ (ReadFails _) => S (failed_reads PClosed rest)
      | PClosed, OOpen _ ReadOk => failed_reads (POpen 0) rest
      | POpen _, OClose => failed_reads PClosed rest
      | _, _ => failed_reads p rest
      end
  end.

Definition held_count (s : ostate) : nat := match o_held s with Some _ => 1 | None => 0 end.

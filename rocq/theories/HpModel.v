(** Model of how scripts/unified_logging.py sorts log entries.

    The module heapq of Python is modelled after its documented source (Lib/heapq.py); the log entries are
    compared by their timestamps, dtformats/unified_logging.py:202-213 [LogEntry.__lt__]. All log entries
    have a timestamp. *)

From Verif Require Import Base.

Section Heap.
  Variable A : Type.
  Variable key : A -> Z.

  Definition less (a b : A) : bool := key a <? key b.

  (** [heap[pos] = x]. *)
  Fixpoint put (l : list A) (pos : nat) (x : A) : list A :=
    match l, pos with
    | [], _ => []
    | _ :: l, O => x :: l
    | a :: l, S pos => a :: put l pos x
    end.

  (** [(pos - 1) >> 1]. *)
  Definition parent (pos : nat) : nat := (pos - 1) / 2.

  (** heapq [_siftdown(heap, 0, pos)] with [newitem] [x]; the fuel is the position. *)
  Fixpoint siftdown (fuel : nat) (heap : list A) (pos : nat) (x : A) : list A :=
    match fuel with
    | O => put heap pos x
    | S fuel =>
        if (0 <? pos)%nat then
          match nth_error heap (parent pos) with
          | Some p => if less x p then siftdown fuel (put heap pos p) (parent pos) x else put heap pos x
          | None => put heap pos x
          end
        else put heap pos x
    end.

  (** heapq [_siftup(heap, pos)] with [newitem] [x], until the [_siftdown] at its end; the fuel is the length. *)
  Fixpoint siftup (fuel : nat) (heap : list A) (pos : nat) (x : A) : list A :=
    match fuel with
    | O => siftdown pos heap pos x
    | S fuel =>
        let child := (2 * pos + 1)%nat in
        match nth_error heap child with
        | None => siftdown pos heap pos x
        | Some c =>
            match nth_error heap (child + 1) with
            | Some r => if less c r then siftup fuel (put heap pos c) child x else siftup fuel (put heap pos r) (child + 1) x
            | None => siftup fuel (put heap pos c) child x
            end
        end
    end.

  (** heapq [heappush]; scripts/unified_logging.py:52-58 [PushLogEntry]. *)
  Definition heappush (heap : list A) (x : A) : list A := siftdown (length heap) (heap ++ [x]) (length heap) x.

  (** heapq [heappop]; scripts/unified_logging.py:40-50 [PopLogEntry], where an IndexError is None. *)
  Definition heappop (heap : list A) : option (A * list A) :=
    match rev heap with
    | [] => None
    | last :: r =>
        match rev r with
        | [] => Some (last, [])
        | first :: _ => Some (first, siftup (length (rev r)) (put (rev r) 0 last) 0 last)
        end
    end.

  (** scripts/unified_logging.py:29-38 [PopLogEntries]; the fuel is the length of the heap. *)
  Fixpoint pop_all (fuel : nat) (heap : list A) : list A :=
    match fuel with
    | O => []
    | S fuel => match heappop heap with None => [] | Some (x, heap) => x :: pop_all fuel heap end
    end.

  (** scripts/unified_logging.py:236-238, 250-251: all log entries are pushed, then all are popped. *)
  Definition sort_entries (l : list A) : list A :=
    let heap := fold_left heappush l [] in pop_all (length heap) heap.
End Heap.
Arguments put {A}.
Arguments less {A}.
Arguments siftdown {A}.
Arguments siftup {A}.
Arguments heappush {A}.
Arguments heappop {A}.
Arguments pop_all {A}.
Arguments sort_entries {A}.

(** Disk log streams, after "MacOS File System Events Disk Log Stream format.asciidoc". *)

From Verif Require Import Base BaseFacts SeqSpec.
From Verif Require Import MemModel.

(** An event record: the path with an end-of-string character, the event identifier, the flags
    and, in version 2, the node identifier. *)
Record event := mkevent { e_path : bytes; e_id : Z; e_flags : Z; e_node : option Z }.

Definition event_ok (utf8 : bytes -> bool) (version : Z) (e : event) : Prop :=
  ~ In 0 (e_path e) /\ utf8 (e_path e) = true /\ 0 <= e_id e < 2 ^ 64 /\ 0 <= e_flags e < 2 ^ 32 /\
  match e_node e with
  | None => version = 1
  | Some node => version = 2 /\ 0 <= node < 2 ^ 64
  end.

Definition event_data (e : event) : bytes :=
  e_path e ++ [0] ++ le_enc 8 (e_id e) ++ le_enc 4 (e_flags e) ++ match e_node e with None => [] | Some node => le_enc 8 node end.

Definition events_data (l : list event) : bytes := concat (map event_data l).

(** A stream with its size. The unused bytes of the header can have any value. *)
Record page := mkpage { p_version : Z; p_unknown : bytes; p_size : Z; p_events : list event }.

Definition page_data (p : page) : bytes :=
  [48 + p_version p; 83; 76; 68] ++ p_unknown p ++ le_enc 4 (p_size p) ++ events_data (p_events p).

(** The size takes in the events, the last one at least in part. *)
Definition page_ok (utf8 : bytes -> bool) (p : page) : Prop :=
  (p_version p = 1 \/ p_version p = 2) /\ len (p_unknown p) = 4 /\ 0 <= p_size p < 2 ^ 32 /\ Forall (event_ok utf8 (p_version p)) (p_events p) /\
  p_size p <= len (page_data p) /\
  (forall l e, p_events p = l ++ [e] -> 12 + len (events_data l) < p_size p).

(** The documented size: that of the header and the events. *)
Definition exact_size (p : page) : Prop := p_size p = len (page_data p).

(** The values that the reader sees. *)
Definition event_values (e : event) : list mval :=
  [MB (e_path e); MI (e_id e); MI (e_flags e)] ++ match e_node e with None => [] | Some node => [MI node] end.

Definition file_values (ps : list page) : list (Z * list mval) :=
  concat (map (fun p => map (fun e => (p_version p, event_values e)) (p_events p)) ps).

(** Properties of the DetectionHistory reader. *)

From Verif Require Import Base BaseFacts CoreModel CoreProofs TextModel SeqModel SeqSpec SeqFacts RdModel RdSpec RdFacts Utf16Spec RbSpec UuidSpec DictModel DhModel DhSpec DhProofs.
From Coq Require String.
Import String.StringSyntax.

(** *** C87: Windows Defender DetectionHistory files *)

(** The read succeeds exactly if the file is a sequence of values, and gives all of them. *)
Theorem C87_values : forall content fuel l, is_bytes content -> len content < Z.of_nat fuel -> (read_dh fuel content = Done (Ok l) <-> dh_file l content).
Proof.
  intros content fuel l Hb Hf. unfold read_dh, dh_file. rewrite (rd_until_iff _ _ _ dh_reads_value dh_pos Hb) by lia. rewrite zskipn_0 by lia. reflexivity.
Qed.
Print Assumptions C87_values.

(** The read ends, all errors are ParseError. *)
Theorem C87_ends : forall content fuel, is_bytes content -> len content < Z.of_nat fuel ->
  exists x, read_dh fuel content = Done x /\ (forall y, x = Err y -> y = ParseError).
Proof. intros content fuel Hb Hf. exact (rd_until_ends _ _ _ dh_reads_value dh_pos Hb fuel 0 ltac:(lia) ltac:(lia)). Qed.
Print Assumptions C87_ends.

(** Every value is shown with its set and its position within the set. *)
Theorem C87_labels : forall l k, (k < length l)%nat -> exists set index, nth_error (dh_labels 0 0 l) k = Some (set, index) /\ in_set l k set index.
Proof.
  intros l k Hk. destruct (labels_nth l 0 0 k ltac:(lia) Hk) as (s & i & N & E & H). exists s, i. split; [exact N|]. exists (count_magic (firstn (S k) l)). split; [apply magics_count|].
  split; [exact E|exact H].
Qed.
Print Assumptions C87_labels.

(** Threat tracking data give all their values. *)
Theorem C87_tracking : forall data fuel l, is_bytes data -> len data < Z.of_nat fuel -> (read_tt fuel data = Done (Ok l) <-> tt_file l data).
Proof. intros data fuel l. apply read_tt_iff. Qed.
Print Assumptions C87_tracking.

(** The values are read whether or not the size counts itself. *)
Theorem C87_size : forall l v ds d size rest fuel, is_bytes (concat ds ++ d ++ rest) -> Forall2 tt_bytes l ds -> tt_bytes v d ->
  4 + len (concat ds) < size <= 4 + len (concat ds) + len d -> size < 2 ^ 32 -> 4 + len (concat ds ++ d ++ rest) < Z.of_nat fuel ->
  read_tt fuel (le_enc 4 size ++ concat ds ++ d ++ rest) = Done (Ok (l ++ [v])).
Proof. apply read_tt_size. Qed.
Print Assumptions C87_size.

(** The read of the threat tracking data ends; a ValueError can only come from empty data or a size
    behind the end of the data. *)
Theorem C87_tracking_ends : forall data fuel, is_bytes data -> len data < Z.of_nat fuel ->
  exists x, read_tt fuel data = Done x /\ (forall y, x = Err y -> y = ParseError \/ y = ValueError).
Proof. apply read_tt_ends. Qed.
Print Assumptions C87_tracking_ends.

(** Empty threat tracking data, and data that end before the given size, are not a ParseError. *)
Theorem C87_errors_refuted : forall fuel, read_tt fuel [] = Done (Err ValueError) /\
  (forall l ds size, is_bytes (concat ds) -> Forall2 tt_bytes l ds -> 4 + len (concat ds) < size < 2 ^ 32 -> 4 + len (concat ds) < Z.of_nat fuel ->
   read_tt fuel (le_enc 4 size ++ concat ds) = Done (Err ValueError)).
Proof. intros fuel. split; [reflexivity|]. intros l ds size. apply read_tt_short. Qed.
Print Assumptions C87_errors_refuted.

(** A file with a GUID, the magic value, an integer and threat tracking data; the sizes and types of
    the values are followed by their data and padding. *)
Definition dh_wide (s : str) : bytes := flat_map (fun c => [c; 0]) s ++ [0; 0].
Definition dh_item (type : Z) (data : bytes) (pad : nat) : bytes := le_enc 4 (len data) ++ le_enc 4 type ++ data ++ repeat 0 pad.
Definition dh_tracking (size : Z) : bytes := le_enc 4 size ++ le_enc 4 6 ++ dh_wide (s2z "ab"%string) ++ le_enc 4 5 ++ [7] ++ le_enc 4 4 ++ dh_wide (s2z "c"%string) ++ le_enc 4 6 ++ le_enc 4 6 ++ dh_wide (s2z "xy"%string).
Example C87_case :
  let content := dh_item 0x1e [3; 2; 1; 0; 5; 4; 7; 6; 8; 9; 10; 11; 12; 13; 14; 15] 0 ++ dh_item 0x15 (dh_wide (s2z "Magic.Version:1.2"%string)) 4 ++ dh_item 6 (le_enc 4 8) 4 ++ dh_item 0x28 [1; 2; 3] 5 in
  let l := [DGuid (s2z "00010203-0405-0607-0809-0a0b0c0d0e0f"%string); DText (s2z "Magic.Version:1.2"%string); DInt 8; DData [1; 2; 3]] in
  read_dh 200 content = Done (Ok l) /\ dh_labels 0 0 l = [(0, 0); (1, 0); (1, 1); (1, 2)] /\
  read_dh 200 (firstn 100 content) = Done (Err ParseError) /\
  len (dh_tracking 37) = 41 /\
  (forall size, In size [37; 41] -> read_tt 100 (dh_tracking size) = Done (Ok [(s2z "ab"%string, TInt 7); (s2z "c"%string, TText (s2z "xy"%string))])) /\
  read_tt 100 (dh_tracking 42) = Done (Err ValueError).
Proof. cbv zeta. repeat split. intros size [<-|[<-|[]]]; reflexivity. Qed.

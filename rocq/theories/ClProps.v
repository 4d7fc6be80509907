(** Properties of the change.log reader. *)

From Verif Require Import Base BaseFacts CoreModel SeqSpec DictModel Utf16Model Utf16Spec Utf16Facts ClModel ClSpec ClProofs.

(** *** C67: Restore point change log *)

(** The entries of every change log are read, in order; see C67_name_refuted for the process name. *)
Theorem C67_read : forall path es content fuel, change_log path es content -> (length content <= fuel)%nat ->
  read_cl fuel content = Done (Ok (None, map (fun e => mkcl (e_type e) (e_flags e) (e_attributes e) (e_sequence e) (removelast (e_process e))) es)).
Proof.
  intros path es content fuel (h & ds & H & F & ->) Hf. unfold read_cl. rewrite (header_ok path h _ H).
  assert (M : forall inner, (length (h ++ concat ds) <= inner)%nat -> cl_entries fuel inner (h ++ concat ds) (len h) = Done (Ok (map seen es))).
  { intros inner Hi. eapply (entries_ok (h ++ concat ds)); [exact F|reflexivity| |exact Hi].
    assert (L : (length es <= length (concat ds))%nat).
    { clear Hf H Hi. induction F as [|e d es ds E F IH]; [cbn; lia|]. cbn [length concat]. rewrite app_length. apply entry_long in E. unfold len in E. lia. }
    rewrite app_length in Hf. lia. }
  rewrite M by exact Hf. reflexivity.
Qed.
Print Assumptions C67_read.

(** In every file that is read the header is followed by its record with the volume path and a copy
    of its size, and the entries follow each other up to the end of the file. Only the last record
    can be cut off. *)
Theorem C67_sound : forall fuel content vp l, is_bytes content -> read_cl fuel content = Done (Ok (vp, l)) ->
  exists size path t rest es, is_u32 size /\ utf16 path t /\
    stored_at content 0 (le_enc 4 size ++ le_enc 4 0 ++ signature ++ le_enc 4 2 ++
      (le_enc 4 (8 + len t) ++ le_enc 4 2 ++ t ++ rest ++ le_enc 4 size)) /\
    (28 + len t + len rest = size \/ 28 + len t + len rest = len content /\ (size = 15 \/ len content < size)) /\
    entries_at content (28 + len t + len rest) es /\
    l = map (fun e => mkcl (e_type e) (e_flags e) (e_attributes e) (e_sequence e) (removelast (e_process e))) es.
Proof.
  intros fuel content vp l Hb. unfold read_cl. destruct (cl_header content) as [pos|] eqn:H; [|discriminate].
  apply header_sound in H; [|exact Hb]. destruct H as (size & path & t & rest & Hs & U & St & -> & D).
  destruct (cl_entries _ _ _ _) as [[l'|]|] eqn:E; cbn [rbind]; [|discriminate|discriminate]. intros El.
  pose proof (len_nonneg t). pose proof (len_nonneg rest).
  apply entries_sound in E; [|exact Hb|lia]. destruct E as (es & -> & A). exists size, path, t, rest, es.
  split; [exact Hs|]. split; [exact U|]. split; [exact St|]. split; [lia|]. split; [exact A|]. unfold seen in El. congruence.
Qed.
Print Assumptions C67_sound.

(** The reader ends on every file, and only ParseError and ValueError occur. *)
Theorem C67_ends : forall content fuel, is_bytes content -> (length content < fuel)%nat ->
  exists r, read_cl fuel content = Done r /\ (forall e, r = Err e -> e = ParseError \/ e = ValueError).
Proof.
  intros content fuel Hb Hf. unfold read_cl. destruct (cl_header content) as [pos|x] eqn:H.
  - apply header_sound in H; [|exact Hb]. destruct H as (size & path & t & rest & _ & _ & _ & -> & _).
    pose proof (len_nonneg t). pose proof (len_nonneg rest).
    destruct (entries_ends content fuel Hb Hf fuel (28 + len t + len rest)) as (r & -> & Hr); [lia|unfold len in *; lia|].
    destruct r as [l|x]; cbn [rbind]; eexists; (split; [reflexivity|]); [discriminate|]. intros e He. apply Hr. congruence.
  - eexists. split; [reflexivity|]. intros e He. apply (header_err content); [exact Hb|congruence].
Qed.
Print Assumptions C67_ends.

(** A change log of a volume "C" with one entry of the process "svc", with the first path "a" and
    the short name "b". *)
Definition wide (s : str) : bytes := concat (map (le_enc 2) s).

Definition ex_head : bytes := le_enc 4 32 ++ le_enc 4 0 ++ signature ++ le_enc 4 2 ++ le_enc 4 12 ++ le_enc 4 2 ++ (wide [67] ++ [0; 0]) ++ le_enc 4 32.

Definition ex_entry (subs : list (Z * bytes)) : entry := mkentry 16 0 32 7 (repeat 9 32) 5 1 [115; 118; 99] subs.

Definition ex_subs : list (Z * bytes) := [(3, wide [97] ++ [0; 0]); (9, (wide [98] ++ [0; 0]) ++ [])].

Definition ex_sub (s : Z * bytes) : bytes := le_enc 4 (8 + len (snd s)) ++ le_enc 4 (fst s) ++ snd s.

Definition ex_bytes (subs : list (Z * bytes)) : bytes :=
  let size := 84 + len (concat (map ex_sub subs)) in
  entry_head size (ex_entry subs) ++ (wide [115; 118; 99] ++ [0; 0]) ++ concat (map ex_sub subs) ++ le_enc 4 size.

Lemma wide_ok s : Forall (fun c => 0 < c < 55296) s -> utf16_z s (wide s ++ [0; 0]).
Proof.
  intros H. split; [intros I; rewrite Forall_forall in H; specialize (H 0 I); lia|]. exists (wide s). split; [|reflexivity].
  induction H; [constructor|]. cbn [wide map concat]. apply u_one; [lia|assumption].
Qed.

Ltac nums := unfold is_u32, is_u64; cbn; lia.

Lemma ex_head_ok : header [67] ex_head.
Proof.
  exists (wide [67] ++ [0; 0]). split; [apply wide_ok; repeat (constructor; [lia|]); constructor|]. split; [nums|reflexivity].
Qed.

Lemma ex_entry_ok : entry_bytes (ex_entry ex_subs) (ex_bytes ex_subs).
Proof.
  exists (wide [115; 118; 99] ++ [0; 0]), (concat (map ex_sub ex_subs)). split; [apply wide_ok; repeat (constructor; [lia|]); constructor|]. split; [|split].
  - change (sub_records ex_subs (le_enc 4 (8 + len (wide [97] ++ [0; 0])) ++ le_enc 4 3 ++ (wide [97] ++ [0; 0]) ++
      (le_enc 4 (8 + len ((wide [98] ++ [0; 0]) ++ [])) ++ le_enc 4 9 ++ ((wide [98] ++ [0; 0]) ++ []) ++ []))).
    apply sr_other; [nums|intros I; cbn in I; lia|nums|right; discriminate|].
    apply sr_string with (s := [98]); [cbn; lia|apply wide_ok; repeat (constructor; [lia|]); constructor|nums|constructor].
  - repeat split; try nums. apply is_bytes_forallb. reflexivity.
  - reflexivity.
Qed.

Example C67_case : change_log [67] [ex_entry ex_subs; ex_entry ex_subs] (ex_head ++ ex_bytes ex_subs ++ ex_bytes ex_subs) /\
  read_cl 300 (ex_head ++ ex_bytes ex_subs ++ ex_bytes ex_subs) = Done (Ok (None, [mkcl 16 0 32 7 [115; 118]; mkcl 16 0 32 7 [115; 118]])).
Proof.
  split; [|vm_compute; reflexivity]. exists ex_head, [ex_bytes ex_subs; ex_bytes ex_subs]. split; [apply ex_head_ok|]. split; [|rewrite <- (app_nil_r (ex_bytes ex_subs)) at 2; reflexivity].
  repeat (constructor; [apply ex_entry_ok|]). constructor.
Qed.

(** The last character of a process name is dropped, although the end-of-string character already
    is not part of it: "svc" becomes "sv". *)
Theorem C67_name_refuted : exists path e content c, change_log path [e] content /\
  read_cl (S (length content)) content = Done (Ok (None, [c])) /\ cl_process c <> e_process e.
Proof.
  exists [67], (ex_entry ex_subs), (ex_head ++ ex_bytes ex_subs), (mkcl 16 0 32 7 [115; 118]). split; [|split; [vm_compute; reflexivity|discriminate]].
  exists ex_head, [ex_bytes ex_subs]. split; [apply ex_head_ok|]. split; [constructor; [apply ex_entry_ok|constructor]|]. cbn [concat]. rewrite app_nil_r. reflexivity.
Qed.
Print Assumptions C67_name_refuted.

(** The volume path of the header is never available. *)
Theorem C67_volume_path_refuted : forall fuel content vp l, read_cl fuel content = Done (Ok (vp, l)) -> vp = None.
Proof.
  intros fuel content vp l. unfold read_cl. destruct (cl_header content); [|discriminate].
  destruct (cl_entries _ _ _ _) as [[l'|]|]; cbn [rbind]; [|discriminate|discriminate]. congruence.
Qed.
Print Assumptions C67_volume_path_refuted.

(** A record that is cut off is accepted if it happens to end with its size: here the size is 200,
    but the file ends after 92 bytes of the record. *)
Theorem C67_truncated_refuted : exists content l, read_cl (S (length content)) content = Done (Ok (None, l)) /\
  l = [mkcl 16 0 32 7 [115; 118]] /\ stored_at content 32 (le_enc 4 200) /\ len content = 32 + 92.
Proof.
  exists (ex_head ++ entry_head 200 (ex_entry []) ++ (wide [115; 118; 99] ++ [0; 0]) ++ le_enc 4 0 ++ le_enc 4 4 ++ le_enc 4 200).
  exists [mkcl 16 0 32 7 [115; 118]]. split; [vm_compute; reflexivity|]. split; [reflexivity|]. split; [|reflexivity].
  eexists ex_head, _. split; [unfold entry_head; rewrite <- ?app_assoc; reflexivity|reflexivity].
Qed.
Print Assumptions C67_truncated_refuted.

(** An entry whose last sub record is a first path "" is refused: the header of a next record is
    read from its data. *)
Theorem C67_sub_refuted : read_cl 500 (ex_head ++ ex_bytes [(3, [0; 0])]) = Done (Err ParseError) /\
  read_cl 500 (ex_head ++ ex_bytes [(4, [0; 0])]) = Done (Ok (None, [mkcl 16 0 32 7 [115; 118]])).
Proof. split; vm_compute; reflexivity. Qed.
Print Assumptions C67_sub_refuted.

(** A record size below 71 raises ValueError instead of ParseError. *)
Theorem C67_small_refuted : exists content, is_bytes content /\ read_cl (S (length content)) content = Done (Err ValueError).
Proof.
  exists (ex_head ++ entry_head 70 (ex_entry [])). split; [apply is_bytes_forallb; vm_compute; reflexivity|vm_compute; reflexivity].
Qed.
Print Assumptions C67_small_refuted.

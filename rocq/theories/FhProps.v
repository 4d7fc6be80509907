(** Properties of reading the tracepoints of a firehose chunk of a tracev3 file. *)

From Verif Require Import Base BaseFacts SeqSpec SeqFacts CoreModel RdModel TvModel TvSpec TvProofs CatModel CatSpec CatProofs FhModel FhSpec FhProofs.

(** *** C91: Firehose chunks *)

(** The log entries of a chunk and how reading it ends are those of its tracepoints as they are stored,
    for all chunks, catalogs and whatever is done with the tracepoints. *)
Theorem C91_entries {E S} (entry : fh_entry E S) cat data st es r : is_bytes data ->
  (firehose entry cat data st = Some (es, r) <-> chunk_entries entry cat data st es r).
Proof.
  intros Hb. split; [|apply chunk_complete; exact Hb]. intros H. destruct (chunk_total entry cat data st Hb) as (es' & r' & C).
  rewrite (chunk_complete _ _ _ _ _ _ Hb C) in H. assert (es' = es /\ r' = r) as [-> ->] by (split; congruence). exact C.
Qed.
Print Assumptions C91_entries.

(** Reading a chunk ends. *)
Theorem C91_ends {E S} (entry : fh_entry E S) cat data st : is_bytes data -> exists es r, firehose entry cat data st = Some (es, r).
Proof. intros Hb. destruct (chunk_total entry cat data st Hb) as (es & r & C). exists es, r. apply chunk_complete; assumption. Qed.
Print Assumptions C91_ends.

(** Every tracepoint of a chunk that was written as documented becomes one log entry, in the order of the
    tracepoints, if at least one of them is an activity, a log message or a signpost. *)
Theorem C91_written {E S} (entry : fh_entry E S) cat h hd k tps ds l rest st es st' :
  header_bytes h hd -> Forall2 tracepoint_bytes tps ds -> fh_size h = 32 + len (concat ds) -> used_of tps l -> process_of cat h (Some k) ->
  is_bytes (hd ++ concat ds ++ rest) -> logged entry h k st l es (Ok st') -> (exists tp, In tp tps /\ with_private tp) ->
  firehose entry cat (hd ++ concat ds ++ rest) st = Some (es, Ok st') /\ length es = length (filter (fun tp => negb (tp_record tp =? 0)) tps).
Proof.
  intros H F Sz U P Hb L (tp & I & Pr). assert (S0 : stored_at (hd ++ concat ds ++ rest) 0 hd) by (exists [], (concat ds ++ rest); split; reflexivity). split.
  - apply chunk_complete; [exact Hb|]. eapply ce_ok; [exact H|exact S0|exact P| |exact L|].
    + eapply written_points; [exact F| |exact Sz|exact U]. exists hd, rest. split; [reflexivity|]. apply (header_len h). exact H.
    + clear - U I Pr. induction U as [|t tps l V U IH|t b v tps l Su C U IH]; [destruct I| |].
      * destruct I as [->|I]; [|apply IH; exact I]. unfold unused in V. unfold with_private in Pr. cbn [In] in Pr. lia.
      * destruct I as [->|I]; [exists (tp, b, v); split; [left; reflexivity|exact Pr]|]. destruct (IH I) as (x & X & Y). exists x. split; [right; exact X|exact Y].
  - assert (El : length es = length l). { clear - L. remember (Ok st') as r eqn:Er. revert Er. induction L; intros Er; [reflexivity|discriminate|]. cbn [length]. f_equal. apply IHL. exact Er. }
    rewrite El. clear - U. induction U as [|t tps l V U IH|t b v tps l Su C U IH]; [reflexivity| |]; cbn [filter].
    + unfold unused in V. rewrite V. exact IH.
    + apply supported_record in Su. destruct (Z.eqb_spec (tp_record t) 0); [cbn [In] in Su; lia|]. cbn [negb length]. f_equal. exact IH.
Qed.
Print Assumptions C91_written.

(** Reading a chunk ends with a ParseError, a ValueError or an UnboundLocalError, or with an error from
    what is done with a tracepoint. *)
Theorem C91_errors {E S} (entry : fh_entry E S) cat data st es x : is_bytes data -> firehose entry cat data st = Some (es, Err x) ->
  In x [ParseError; ValueError; UnboundLocalError] \/ (exists st' h k tp b values, entry st' h k tp b values = Err x).
Proof.
  intros Hb H. apply C91_entries in H; [|exact Hb].
  assert (T : forall size off l e, tracepoints data size off l (Some e) -> In e [ParseError; ValueError; UnboundLocalError]).
  { intros size off l e T. remember (Some e) as s eqn:Es. revert Es. induction T as [| | |off tp d e' L St Tp U [A|A B|A B C]| |]; intros Es; try discriminate; auto;
      assert (Ee := Es); injection Ee as <-; cbn [In]; auto. }
  assert (G : forall h k st l es r x, logged entry h k st l es r -> r = Err x -> exists st' h k tp b values, entry st' h k tp b values = Err x).
  { intros h k st0 l es0 r x0 L. induction L as [| |]; intros Er; [discriminate| |auto]. assert (x1 = x0) as -> by congruence. eauto 8. }
  remember (Err x) as r eqn:Er. destruct H as [E0|N No|h d Hd S' P|h d k l stop es y Hd S' P Tr L|h d k l y es st' Hd S' P Tr L|h d k l es st' Hd S' P Tr L A|h d k l es st' Hd S' P Tr L A];
    try discriminate; assert (Ey := Er); injection Ey as <-.
  - left. cbn [In]. auto.
  - left. cbn [In]. auto.
  - left. cbn [In]. auto.
  - right. eapply G; [exact L|reflexivity].
  - left. eapply T, Tr.
  - left. cbn [In]. auto.
Qed.
Print Assumptions C91_errors.

(** A chunk in which all used tracepoints are traces and losses, or that has none, cannot be read to the
    end: it gives all its log entries and then an UnboundLocalError. *)
Theorem C91_quiet_refuted {E S} (entry : fh_entry E S) cat h hd k tps ds l rest st es st' :
  header_bytes h hd -> Forall2 tracepoint_bytes tps ds -> fh_size h = 32 + len (concat ds) -> used_of tps l -> process_of cat h (Some k) ->
  is_bytes (hd ++ concat ds ++ rest) -> logged entry h k st l es (Ok st') -> (forall tp, In tp tps -> ~ with_private tp) ->
  firehose entry cat (hd ++ concat ds ++ rest) st = Some (es, Err UnboundLocalError).
Proof.
  intros H F Sz U P Hb L Q. assert (S0 : stored_at (hd ++ concat ds ++ rest) 0 hd) by (exists [], (concat ds ++ rest); split; reflexivity).
  apply chunk_complete; [exact Hb|]. eapply ce_unbound; [exact H|exact S0|exact P| |exact L|].
  - eapply written_points; [exact F| |exact Sz|exact U]. exists hd, rest. split; [reflexivity|]. apply (header_len h). exact H.
  - intros x I. apply Q. clear - U I. induction U as [|t tps l V U IH|t b v tps l Su C U IH]; [destruct I|right; apply IH; exact I|]. destruct I as [<-|I]; [left; reflexivity|right; apply IH; exact I].
Qed.
Print Assumptions C91_quiet_refuted.

(** The documentation has references to oversize data of 2 bytes: a log message with the reference 0x0102
    that is written like that is read as one with another reference. *)
Definition referring (d : bytes) : tracepoint := mktp 4 0 0x0802 0 0 0 0 d.
Definition reference_data : bytes := [1; 0; 0; 0] ++ [2; 1] ++ [0; 0].

Theorem C91_reference_refuted : let tp := referring reference_data in
  supported tp /\
  body_of 2 (tp_log tp) (tp_flags tp) (tp_record tp) (tp_data tp) (Log None None (mkloc 1 None None None None) None None (Some 0x0102) []) (tp_data tp) /\
  tp_body tp = Ok (Log None None (mkloc 1 None None None None) None None (Some 2) [], 7).
Proof.
  cbv zeta. split; [|split].
  - exists [0; 1; 2; 16; 17], [0; 1; 2; 3; 5; 8; 9; 10; 11; 12]. split; [unfold kinds; cbn; tauto|]. split; [cbn; tauto|]. intros i Hi F.
    apply (mask_iff 0x0802 0x1f2f); [apply mask_bits; [lia|reflexivity|repeat constructor; lia]|reflexivity|exact Hi|exact F].
  - unfold referring, reference_data. cbn [tp_log tp_flags tp_record tp_data]. apply bo_log.
    exists [[]; []; [1; 0; 0; 0]; []; []; []; []; []; []; [2; 1]; [0]; [0]; []]. split; [|reflexivity].
    assert (W : forall (A : Type) c (e : A -> bytes -> Prop), ~ c -> when c e None []) by (intros A c e N; split; [exact N|reflexivity]).
    cbn [app location_members items_members lo_lower lo_large lo_upper lo_uuid lo_shared].
    do 2 (apply Forall2_cons; [apply W; intros X; discriminate X|]). apply Forall2_cons; [split; [unfold n32; lia|reflexivity]|].
    do 6 (apply Forall2_cons; [apply W; intros X; discriminate X|]). apply Forall2_cons; [split; [reflexivity|]; split; [cbn; lia|reflexivity]|].
    apply Forall2_cons; [exists 0; split; [unfold n8; lia|reflexivity]|]. apply Forall2_cons; [split; [unfold n8; cbn; lia|reflexivity]|].
    apply Forall2_cons; [exists []; split; [constructor|reflexivity]|]. constructor.
  - reflexivity.
Qed.
Print Assumptions C91_reference_refuted.

(** A chunk whose size of public data goes beyond the chunk is no ParseError. *)
Theorem C91_size_refuted : exists data, firehose (E:=unit) (fun st _ _ _ _ _ => Ok (tt, st)) None data tt = Some ([], Err ValueError) /\ len data = 32.
Proof.
  exists (le_enc 8 1 ++ le_enc 4 2 ++ [0; 0] ++ le_enc 2 0 ++ le_enc 2 64 ++ le_enc 2 4096 ++ le_enc 2 0 ++ [0; 0] ++ le_enc 8 7). split; vm_compute; reflexivity.
Qed.
Print Assumptions C91_size_refuted.

(** A chunk with an unused tracepoint, a log message of two items, a signpost and a loss. *)
Definition case_head : fh_header := mkfh 5 6 216 4096 1000.
Definition case_points : list tracepoint :=
  [mktp 0 0 0 0 0 0 0 [1; 2; 3];
   mktp 4 1 0x0203 77 8 500 1 (le_enc 8 9 ++ le_enc 4 0x10 ++ le_enc 2 3 ++ [0; 2] ++ [0; 4; 1; 2; 3; 4] ++ [0x22; 4; 0; 0; 2; 0] ++ [65; 0]);
   mktp 6 0x81 0x8002 78 8 501 1 (le_enc 4 0x20 ++ le_enc 8 4242 ++ le_enc 4 0x33 ++ [0; 0]);
   mktp 7 0 0 0 8 502 1 (le_enc 8 11 ++ le_enc 8 12 ++ le_enc 8 13)].
Definition case_pad (tp : tracepoint) : bytes :=
  let d := [tp_record tp; tp_log tp] ++ le_enc 2 (tp_flags tp) ++ le_enc 4 (tp_format tp) ++ le_enc 8 (tp_thread tp) ++ le_enc 4 (tp_lower tp) ++ le_enc 2 (tp_upper tp)
             ++ le_enc 2 (len (tp_data tp)) ++ tp_data tp in
  d ++ repeat 0 (Z.to_nat ((- len d) mod 8)).
Definition case_chunk : bytes :=
  le_enc 8 5 ++ le_enc 4 6 ++ [0; 0] ++ le_enc 2 0 ++ le_enc 2 216 ++ le_enc 2 4096 ++ le_enc 2 0 ++ [0; 0] ++ le_enc 8 1000 ++ concat (map case_pad case_points).

Example C91_case :
  firehose (E:=Z * body * bytes) (fun st h k tp b values => Ok ((tp_time h tp, b, values), st + 1)) None case_chunk 0 =
  Some ([(2 ^ 32 + 1500, Log (Some 9) None (mkloc 0x10 None None None None) (Some 3) None None [TInline 0 [1; 2; 3; 4]; TRange 0x22 0 2], [65; 0]);
         (2 ^ 32 + 1501, Signpost None None (mkloc 0x20 None None None None) None 4242 None None (Some 0x33) None [], []);
         (2 ^ 32 + 1502, Loss 11 12 13, [])], Ok 3).
Proof. vm_compute. reflexivity. Qed.

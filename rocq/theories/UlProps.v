(** Properties of the JSON output of scripts/unified_logging.py. *)

From Verif Require Import Base BaseFacts CoreModel StrModel StrFacts HpModel HpProofs UlModel UlSpec UlProofs.
From Coq Require Import Permutation Sorted.
From Coq Require String.
Import String.StringSyntax.

(** *** C108: log entries shown as JSON *)

(** What is shown after the first line is a JSON array with an object for every log entry, in the order of
    timestamps; every object has exactly the members of its log entry, and no name twice. *)
Theorem C108_json : forall w l, tools_ok w -> l <> [] -> Forall (clean w) l ->
  exists s vs order, json_output w l = Ok (N "Apple Unified Logging and Activity Tracing information:" ++ [10] ++ s) /\ json_text s (JArr vs) /\
    Permutation order l /\ StronglySorted (fun a b => en_time a <= en_time b) order /\ shows_all w [] order vs.
Proof.
  intros w l W Nl F. destruct (json_part_ok w W l Nl F) as (s & vs & E & J & Sh). destruct (sort_ok entry en_time l) as [P So]. exists s, vs, (sort_entries en_time l).
  unfold json_output. rewrite E. cbn [bind]. repeat split; assumption.
Qed.
Print Assumptions C108_json.

(** What is shown of a log entry is determined by it and by the log entries before it. *)
Lemma shown_message_unique w e m m' : shown_message w e m -> shown_message w e m' -> m = m'.
Proof.
  intros (s & S1 & H1) (s' & S2 & H2). pose proof (stripped_unique _ _ _ _ S1 S2) as <-. destruct H1 as [(L1 & ->)|(L1 & ->)], H2 as [(L2 & ->)|(L2 & ->)]; try reflexivity; lia.
Qed.

Theorem C108_determined : forall w l e m m' p p', shown_message w e m -> shown_message w e m' -> shown_parent l e p -> shown_parent l e p' -> m = m' /\ p = p'.
Proof.
  intros w l e m m' p p' M M' (o & q & C & -> & ->) (o' & q' & C' & -> & ->). split; [eapply shown_message_unique; eassumption|]. now rewrite (created_unique _ _ _ _ C C').
Qed.
Print Assumptions C108_determined.

(** The characters of a JSON string stand for one text. *)
Lemma jchars_unique t s : jchars t s -> forall s', jchars t s' -> s = s'.
Proof.
  induction 1 as [|c t s H1 H2 H3 _ IH|e c t s I _ IH|h c t s L F Ec _ IH]; intros s' J; inversion J as [|c' t' s2 G1 G2 G3 J'|e' c' t' s2 I' J'|h' c' t' s2 L' F' Ec' J']; subst; try congruence.
  - f_equal. now apply IH.
  - f_equal; [|now apply IH]. cbn in I, I'. intuition congruence.
  - exfalso. cbn in I. intuition congruence.
  - exfalso. cbn in I'. intuition congruence.
  - match goal with E : h' ++ _ = h ++ _ |- _ => rename E into E0 | E : h ++ _ = h' ++ _ |- _ => symmetry in E; rename E into E0 end.
    assert (h' = h /\ t' = t) as [-> ->]; [|f_equal; now apply IH].
    clear -E0 L L'. do 4 (destruct h as [|? h]; [discriminate|]; destruct h' as [|? h']; [discriminate|]). destruct h; [|discriminate]. destruct h'; [|discriminate]. cbn in E0. injection E0 as ? ? ? ? ?. subst. auto.
Qed.

Theorem C108_string : forall t s s', jchars t s -> jchars t s' -> s = s'.
Proof. intros t s s' H H'. eapply jchars_unique; eassumption. Qed.
Print Assumptions C108_string.

(** ** Findings *)

Lemma json_head t v : json t v -> exists c r, t = c :: r /\ c <> 65.
Proof.
  intros J. inversion J as [? ? ?|t' n Hn| | | |? ?|? ? ?|? ?|? ? ?]; subst; try (eexists _, _; split; [reflexivity|discriminate]). inversion Hn as [? ? Hd|? ? Hd]; subst; [|eexists _, _; split; [reflexivity|discriminate]].
  inversion Hd; subst; eexists _, _; (split; [reflexivity|]); lia.
Qed.

(** The output is never a JSON text, because of its first line. *)
Theorem C108_output_refuted : forall w l s, json_output w l = Ok s -> ~ exists v, json_text s v.
Proof.
  intros w l s E (v & a & t & b & Wa & J & _ & Es). unfold json_output in E. destruct (json_part w l) as [p|]; [|discriminate]. cbn in E. injection E as <-. destruct (json_head _ _ J) as (c & r & -> & Nc).
  destruct a as [|x a]; cbn in Es; injection Es as E1 _; [congruence|]. inversion Wa as [|? ? I _]; subst. cbn in I. intuition discriminate.
Qed.
Print Assumptions C108_output_refuted.

(** No log entries are shown as an array with an empty object. *)
Theorem C108_empty_refuted : forall w, exists s, json_part w [] = Ok s /\ json_text s (JArr [JObj []]) /\ ~ json_text s (JArr []).
Proof.
  intros w. exists (N "[{" ++ [10] ++ N "}]"). split; [reflexivity|]. split.
  - exists [], ([91] ++ ([] ++ ([123] ++ [10] ++ [125]) ++ []) ++ [93]), []. split; [constructor|]. split; [|split; [constructor|reflexivity]]. apply js_arr, el_one; try constructor. now apply whiteb_ok.
  - intros (a & t & b & Wa & J & _ & E). cbn in E. inversion J as [| | | | |u Wu Et| t' l' El Et Ev| |]; subst; [|inversion El].
    destruct a as [|x a]; cbn in E.
    + injection E as E. destruct u as [|y u]; cbn in E; injection E as E1 _; [discriminate|]. inversion Wu as [|? ? I _]; subst. cbn in I. intuition discriminate.
    + injection E as E1 _. inversion Wa as [|? ? I _]; subst. cbn in I. intuition discriminate.
Qed.
Print Assumptions C108_empty_refuted.

(** No control characters are in a JSON text. *)
Definition allowed (c : Z) : Prop := 32 <= c \/ In c [9; 10; 13].
Lemma white_allowed s : white s -> Forall allowed s.
Proof. apply Forall_impl. intros c I. unfold allowed. cbn in *. lia. Qed.
Lemma jchars_allowed t s : jchars t s -> Forall allowed t.
Proof.
  induction 1 as [|c t s H1 H2 H3 _ IH|e c t s I _ IH|h c t s L F Ec _ IH]; [constructor| | |].
  - constructor; [now left|assumption].
  - constructor; [left; lia|]. constructor; [|assumption]. left. cbn in I. intuition (match goal with E : (_, _) = _ |- _ => injection E as <- <- end; lia).
  - constructor; [left; lia|]. constructor; [left; lia|]. apply Forall_app. split; [|assumption]. eapply Forall_impl; [|exact F]. unfold is_hex, allowed. cbn. intros; lia.
Qed.
Lemma jnat_allowed t n : jnat t n -> Forall allowed t.
Proof. intros [|d t' m Hd F _]; (constructor; [left; lia|]); [constructor|]. eapply Forall_impl; [|exact F]. unfold allowed. cbn. intros; lia. Qed.
Lemma jnum_allowed t n : jnum t n -> Forall allowed t.
Proof. intros [t' m H|t' m H]; [|constructor; [left; lia|]]; eapply jnat_allowed; exact H. Qed.
Lemma forallb_allowed s : forallb (fun c => 32 <=? c) s = true -> Forall allowed s.
Proof. rewrite forallb_forall, Forall_forall. intros H c I. left. apply Z.leb_le. auto. Qed.

Scheme json_mut := Induction for json Sort Prop with elements_mut := Induction for elements Sort Prop with members_mut := Induction for members Sort Prop with member_mut := Induction for member Sort Prop.

Lemma json_allowed t v : json t v -> Forall allowed t.
Proof.
  apply (json_mut (fun t _ _ => Forall allowed t) (fun t _ _ => Forall allowed t) (fun t _ _ => Forall allowed t) (fun t _ _ _ => Forall allowed t)); intros;
    repeat (apply Forall_app; split); try (now apply forallb_allowed); try assumption; try (now apply white_allowed); try (eapply jchars_allowed; eassumption). eapply jnum_allowed; eassumption.
Qed.

Lemma in_join (c : Z) sep l x : In x l -> In c x -> In c (join sep l).
Proof.
  induction l as [|y l IH]; intros I C; [contradiction|]. destruct l as [|z l]; [destruct I as [->|[]]; exact C|]. change (join sep (y :: z :: l)) with (y ++ sep ++ join sep (z :: l)). apply in_app_iff.
  destruct I as [->|I]; [now left|]. right. apply in_app_iff. right. now apply IH.
Qed.

Lemma in_lines_escape c s : c < 32 -> c <> 9 -> c <> 10 -> In c s -> In c (lines_escape s).
Proof.
  intros H H1 H2 I. unfold lines_escape, replace, escape. apply in_flat_map. exists c. split; [|destruct (Z.eqb_spec c 9); [contradiction|now left]].
  apply in_flat_map. exists c. split; [|destruct (Z.eqb_spec c 10); [contradiction|now left]]. apply in_flat_map. exists c. split; [assumption|].
  cbn [existsb]. destruct (Z.eqb_spec c 92); [lia|]. destruct (Z.eqb_spec c 47); [lia|]. destruct (Z.eqb_spec c 34); [lia|]. now left.
Qed.

Lemma message_line w e parents ls parents' : entry_lines w e parents = Ok (ls, parents') -> In (text_line "eventMessage" (lines_escape (cut_message w e))) ls.
Proof.
  unfold entry_lines. destruct (is_event e ["timesyncEvent"%string]).
  - unfold timesync_lines. destruct (date_time w _) as [time|]; [|discriminate]. destruct (need (en_mach e)) as [mach|]; [|discriminate]. destruct (need (en_trace e)) as [trace|]; [|discriminate]. cbn [bind].
    intros E. injection E as <- <-. cbn [In]. tauto.
  - unfold event_lines. destruct (need (en_trace e)) as [trace|]; [|discriminate]. cbn [bind]. match goal with |- context [bind ?x] => destruct x as [em|]; [|discriminate] end. cbn [bind].
    destruct (date_time w (Some (en_time e))) as [time|]; [|discriminate]. cbn [bind]. match goal with |- context [bind ?x] => destruct x as [ll|]; [|discriminate] end. cbn [bind]. destruct (need (en_mach e)) as [mach|]; [|discriminate]. cbn [bind].
    destruct (is_event e ["activityCreateEvent"; "lossEvent"; "signpostEvent"; "userActionEvent"]%string); intros E; injection E as <- <-; repeat (first [left; reflexivity|right|apply in_or_app; left; left; reflexivity|apply in_or_app; right]).
Qed.

Lemma in_json_entries w c e l : forall first parents s, json_entries w first l parents = Ok s -> In e l -> c < 32 -> c <> 9 -> c <> 10 -> In c (cut_message w e) -> In c s.
Proof.
  induction l as [|x l IH]; intros first parents s E I H H1 H2 C; [contradiction|]. cbn [json_entries] in E. destruct (entry_lines w x parents) as [[ls parents']|] eqn:El; [|discriminate]. cbn [bind] in E.
  destruct (json_entries w false l parents') as [rest|] eqn:Er; [|discriminate]. cbn [bind] in E. injection E as <-. apply in_app_iff. right. apply in_app_iff. destruct I as [->|I].
  - left. eapply in_join; [eapply message_line; exact El|]. unfold text_line. do 2 (apply in_app_iff; right). apply in_app_iff. left. now apply in_lines_escape.
  - right. right. eapply IH; eassumption.
Qed.

(** A control character in a message, such as the escape of colours, makes the array no JSON. *)
Theorem C108_control_refuted : forall w l s e m c, json_part w l = Ok s -> In e l -> shown_message w e m -> In c m -> c < 32 -> ~ In c [9; 10; 13] -> ~ exists v, json_text s v.
Proof.
  intros w l s e m c E I M C H Nc (v & a & t & b & Wa & J & Wb & Es). pose proof (shown_message_unique _ _ _ _ M (cut_message_ok w e)) as ->.
  unfold json_part in E. destruct (json_entries w true (sort_entries en_time l) []) as [p|] eqn:Ep; [|discriminate]. cbn [bind] in E. injection E as E.
  assert (Ic : In c s).
  { rewrite <- E. repeat (right). eapply (in_json_entries w c e); [exact Ep| |assumption| | |exact C]; [|intros ->; apply Nc; cbn; tauto|intros ->; apply Nc; cbn; tauto].
    destruct (sort_ok entry en_time l) as [P _]. eapply Permutation_in; [symmetry; exact P|exact I]. }
  assert (F : Forall allowed s) by (rewrite Es; repeat (apply Forall_app; split); [now apply white_allowed|eapply json_allowed; exact J|now apply white_allowed]).
  rewrite Forall_forall in F. destruct (F c Ic) as [L|L]; [lia|contradiction].
Qed.
Print Assumptions C108_control_refuted.

(** A backslash in the path of the sender changes the path: backslash and n are read as the end of a line. *)
Theorem C108_sender_refuted : forall s, jchars (sender_text [92; 110]) s -> s = [10].
Proof. intros s J. eapply jchars_unique; [exact J|]. apply (jc_escape 110 10 [] []); [cbn; tauto|constructor]. Qed.
Print Assumptions C108_sender_refuted.

(** A category with quotation marks adds a member to the object, and one quotation mark is no string. *)
Theorem C108_category_refuted :
  (exists t, text_line "category" (N "x"", ""processID"" : ""0") = t ++ [44] /\ members t [(N "category", JStr (N "x")); (N "processID", JStr (N "0"))]) /\ ~ exists s, jchars [34] s.
Proof.
  split.
  - exists (([32; 32] ++ [34] ++ N "category" ++ [34] ++ [32] ++ [58] ++ [32] ++ ([34] ++ N "x" ++ [34]) ++ []) ++ [44] ++ ([32] ++ [34] ++ N "processID" ++ [34] ++ [32] ++ [58] ++ [32] ++ ([34] ++ N "0" ++ [34]) ++ [])). split; [reflexivity|].
    constructor; [|constructor]; constructor; try (now apply whiteb_ok); try (now apply jchars_plainb); constructor; now apply jchars_plainb.
  - intros (s & J). inversion J; congruence.
Qed.
Print Assumptions C108_category_refuted.

(** A message of 1085 to 1087 characters is shown in full but with the mark of a shortened one. *)
Theorem C108_mark_refuted : forall w e s, stripped (t_space w) (or_empty (en_message e)) s -> 1085 <= len s <= 1087 -> shown_message w e (s ++ [60; 8230; 62]).
Proof. intros w e s H L. exists s. split; [exact H|]. right. split; [lia|]. rewrite firstn_all2; [reflexivity|]. unfold len in L. lia. Qed.
Print Assumptions C108_mark_refuted.

(** ** A case *)

Definition C108_tools : tools := mktools (fun _ => N "0A-1B") (fun _ => Some (N "2021-08-16T04:09:59.123456789+00:00")) (fun c => existsb (Z.eqb c) [9; 10; 13; 32]).
Definition C108_event (time creator : option Z) (kind : String.string) (message : str) : entry :=
  {| en_activity := Some 7; en_frames := []; en_boot := Some [1]; en_category := None; en_creator := creator; en_message := Some message;
     en_event := Some (s2z kind); en_format := None; en_loss := None; en_loss_end_mach := None; en_loss_end := None; en_loss_start_mach := None;
     en_loss_start := None; en_mach := Some 5; en_kind := None; en_parent := None; en_pid := Some 12; en_process := None;
     en_process_path := Some (N "/sbin/launchd"); en_sender := None; en_sender_path := None; en_counter := None; en_signpost := None; en_signpost_name := None;
     en_signpost_scope := None; en_signpost_type := None; en_sub := Some (N "com.apple"); en_thread := Some 3; en_time := or0 time; en_trace := Some 9; en_ttl := None |}.
Definition C108_entries : list entry := [C108_event (Some 20) None "logEvent" (N "a ""b"" " ++ [10]); C108_event (Some 10) (Some (2 ^ 63 + 4)) "activityCreateEvent" (N "start")].

(** The activity is created by the first log entry that is shown, 4 is the parent of the second one. *)
Example C108_case : tools_ok C108_tools /\ Forall (clean C108_tools) C108_entries /\
  json_part C108_tools C108_entries = Ok (join [10] (map N [
    "[{";
    "  ""traceID"" : 9,"; "  ""eventType"" : ""activityCreateEvent"","; "  ""formatString"" : """","; "  ""activityIdentifier"" : 7,"; "  ""subsystem"" : ""com.apple"","; "  ""category"" : """",";
    "  ""threadID"" : 3,"; "  ""senderImageUUID"" : """","; "  ""bootUUID"" : ""0A-1B"","; "  ""processImagePath"" : ""\/sbin\/launchd"","; "  ""timestamp"" : ""2021-08-16 04:09:59.123456+0000"",";
    "  ""senderImagePath"" : """","; "  ""creatorActivityID"" : 9223372036854775812,"; "  ""machTimestamp"" : 5,"; "  ""eventMessage"" : ""start"","; "  ""processImageUUID"" : """","; "  ""processID"" : 12,";
    "  ""senderProgramCounter"" : 0,"; "  ""parentActivityIdentifier"" : 4,"; "  ""timezoneName"" : """"";
    "},{";
    "  ""traceID"" : 9,"; "  ""eventMessage"" : ""a \""b\"""","; "  ""eventType"" : ""logEvent"","; "  ""source"" : null,"; "  ""formatString"" : """","; "  ""activityIdentifier"" : 7,"; "  ""subsystem"" : ""com.apple"",";
    "  ""category"" : """","; "  ""threadID"" : 3,"; "  ""senderImageUUID"" : """","; "  ""bootUUID"" : ""0A-1B"","; "  ""processImagePath"" : ""\/sbin\/launchd"","; "  ""timestamp"" : ""2021-08-16 04:09:59.123456+0000"",";
    "  ""senderImagePath"" : """","; "  ""machTimestamp"" : 5,"; "  ""messageType"" : """","; "  ""processImageUUID"" : """","; "  ""processID"" : 12,";
    "  ""senderProgramCounter"" : 0,"; "  ""parentActivityIdentifier"" : 4,"; "  ""timezoneName"" : """"";
    "}]"]%string)).
Proof.
  split; [intros u; now apply plainb_ok|]. split; [|vm_compute; reflexivity].
  assert (I : iso_ok C108_tools (Some 0)) by (eexists; split; [reflexivity|]; split; [now apply plainb_ok|]; repeat split; cbn; lia).
  assert (F : forall s, forallb (fun c => 32 <=? c) s = true -> Forall (fun c => 32 <= c) s) by (intros s; rewrite forallb_forall, Forall_forall; intros H c Hc; apply Z.leb_le; auto).
  assert (P : forall s, forallb (fun c => (32 <=? c) || (c =? 9) || (c =? 10)) s = true -> printable s).
  { intros s. unfold printable. rewrite forallb_forall, Forall_forall. intros H c Hc. specialize (H c Hc). lia. }
  constructor; [|constructor; [|constructor]]; constructor; try discriminate; try exact I; try constructor; try (now apply plainb_ok); try (now apply F); try (now apply P); try (cbn; lia); try congruence.
  all: now destruct H.
Qed.

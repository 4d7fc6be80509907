(** C112: debug output of Basic Security Module event auditing files. *)

From Verif Require Import Base BaseFacts CoreModel SeqSpec StrModel DictModel TextModel MemModel BsmModel BsmSpec BsmProofs BsmProps KcdModel KcdSpec BsdModel BsdSpec BsdProofs BsdTexts.
From Coq Require String.
Import String.StringSyntax.

(** With debug output the records are those without; or reading fails as without, or with one of three exceptions. *)
Theorem C112_same : forall when fuel content text rs, is_bytes content -> bd_read when fuel content 0 = Done (Ok (text, rs)) -> read_bsm fuel content 0 = Done (Ok rs).
Proof. intros when fuel content text rs Hb E. pose proof (file_follow when content Hb fuel 0 ltac:(lia)) as F. rewrite E in F. exact F. Qed.
Print Assumptions C112_same.

Theorem C112_errors : forall when fuel content e, is_bytes content -> bd_read when fuel content 0 = Done (Err e) ->
  read_bsm fuel content 0 = Done (Err e) \/ In e [IndexError; TypeError; ParseError].
Proof. intros when fuel content e Hb E. pose proof (file_follow when content Hb fuel 0 ltac:(lia)) as F. rewrite E in F. exact F. Qed.
Print Assumptions C112_errors.

(** The output of a file is that of its records, one after the other: for every token its offset, its data and the text of its values.
    The first token that cannot be shown decides the exception. *)
Theorem C112_shown : forall when fuel content rs, is_bytes content -> read_bsm fuel content 0 = Done (Ok rs) -> Forall (fun r => r <> []) rs ->
  match first_error (concat rs) with
  | Some x => bd_read when fuel content 0 = Done (Err x)
  | None => exists t, bd_read when fuel content 0 = Done (Ok (t, rs)) /\ records_shown (fun k t => bd_structure when k = Ok t) 0 rs t
  end.
Proof. intros when fuel content rs Hb. apply file_debug; [exact Hb|lia]. Qed.
Print Assumptions C112_shown.

Lemma records_nonempty rs content : bsm_file rs content -> Forall (fun r => r <> []) rs.
Proof. induction 1 as [|r rs d d' (h & body & t & -> & _) H IH]; constructor; [discriminate|exact IH]. Qed.

Theorem C112_file : forall when rs content, is_bytes content -> bsm_file rs content -> first_error (concat rs) = None ->
  exists t, bd_read when (S (length content)) content 0 = Done (Ok (t, rs)) /\ records_shown (fun k t => bd_structure when k = Ok t) 0 rs t.
Proof.
  intros when rs content Hb F N. pose proof (C112_shown when _ _ _ Hb (C62_file rs content Hb F) (records_nonempty _ _ F)) as H. rewrite N in H. exact H.
Qed.
Print Assumptions C112_file.

(** The text of a token determines its type and the values that are shown. *)
Theorem C112_lossless : forall when k k' d d' text, (forall z, ~ In 10 (when z)) -> (forall z, when z <> []) -> (forall z z', when z = when z' -> z = z') ->
  token_enc k d -> token_enc k' d' -> is_bytes d -> is_bytes d' -> one_line k -> one_line k' ->
  bd_structure when k = Ok text -> bd_structure when k' = Ok text ->
  fst k = fst k' /\ shown_values k = shown_values k'.
Proof. exact text_inj. Qed.
Print Assumptions C112_lossless.

(** Texts of headers, trailers, return values, paths and texts, and subjects and processes. *)
Lemma event_named type name : In (type, name) event_types -> name_of event_types type = s2z name.
Proof.
  intros I. assert (C : forallb (fun p => list_eqb (name_of event_types (fst p)) (s2z (snd p))) event_types = true) by (vm_compute; reflexivity).
  rewrite forallb_forall in C. specialize (C _ I). cbn [fst snd] in C. apply list_eqb_eq in C. exact C.
Qed.

Theorem C112_header : forall when t size version type name modifier time us, (forall z, ~ In 10 (when z)) -> when time <> [] -> time <> 0 -> In (type, name) event_types -> In t [0x14; 0x74] ->
  bd_structure when (t, map MI [size; version; type; modifier; time; us]) =
  Ok (lines [(s2z "Token type", s2z "0x" ++ fmt_x 2 t); (s2z "Record size", fmt_d size); (s2z "Format version", fmt_d version);
    (s2z "Event type", s2z "0x" ++ fmt_x 4 type ++ s2z " (" ++ s2z name ++ s2z ")"); (s2z "Modifier", s2z "0x" ++ fmt_x 4 modifier);
    (s2z "Timestamp", when time ++ s2z " UTC"); (s2z "Microseconds", fmt_d us)]).
Proof.
  intros when t size version type name modifier time us Hw Hn N0 I It. rewrite (header_text when t size version type modifier time us Hw It). unfold event_text, posix_text.
  rewrite (event_named _ _ I). destruct (Z.eqb_spec time 0); [contradiction|]. destruct (when time); [contradiction|]. reflexivity.
Qed.
Print Assumptions C112_header.

Theorem C112_trailer : forall when signature size,
  bd_structure when (0x13, map MI [signature; size]) =
  Ok (lines [(s2z "Token type", s2z "0x13"); (s2z "Signature", s2z "0x" ++ fmt_x 4 signature); (s2z "Record size", fmt_d size)]).
Proof. exact trailer_text. Qed.
Print Assumptions C112_trailer.

Theorem C112_return : forall when t status value, In t [0x27; 0x72] ->
  bd_structure when (t, map MI [status; value]) =
  Ok (lines [(s2z "Token type", s2z "0x" ++ fmt_x 2 t); (s2z "Status", s2z "0x" ++ fmt_x 8 status); (s2z "Return value", s2z "0x" ++ fmt_x 8 value)]).
Proof. exact return_text. Qed.
Print Assumptions C112_return.

Theorem C112_text : forall when t name s n, In (t, name) [(0x23, s2z "Path"); (0x28, s2z "Text")] -> ~ In 10 s -> ~ In 0 s ->
  bd_structure when (t, [MI (len (s ++ repeat 0 n)); MB (s ++ repeat 0 n)]) =
  Ok (lines [(s2z "Token type", s2z "0x" ++ fmt_x 2 t); (name ++ s2z " size", fmt_d (len s + Z.of_nat n)); (name, s)]).
Proof.
  assert (R : forall n (s : list Z), ~ In 0 s -> rstrip 0 (s ++ repeat 0 n) = s).
  { intros n. assert (Z0 : rstrip 0 (repeat 0 n) = []) by (induction n as [|n IH]; [reflexivity|]; cbn [repeat rstrip]; rewrite IH; reflexivity).
    induction s as [|x s IH]; intros N; [exact Z0|]. cbn [app rstrip]. rewrite IH by (intros I; apply N; right; exact I).
    destruct s as [|y s]; [|reflexivity]. destruct (Z.eqb_spec x 0) as [->|]; [exfalso; apply N; left; reflexivity|reflexivity]. }
  intros when t name s n It N10 N0. rewrite (path_text when t name) by (try exact It; rewrite R by exact N0; exact N10).
  rewrite R by exact N0. rewrite len_app, len_repeat. reflexivity.
Qed.
Print Assumptions C112_text.

Theorem C112_subject : forall when t auid euid egid ruid rgid pid sid port a b c d, In t [0x24; 0x26; 0x75; 0x77] ->
  bd_structure when (t, map MI [auid; euid; egid; ruid; rgid; pid; sid; port] ++ [MB [a; b; c; d]]) =
  Ok (lines [(s2z "Token type", s2z "0x" ++ fmt_x 2 t); (s2z "Audit user identifier", fmt_d auid); (s2z "Effective user identifier", fmt_d euid);
    (s2z "Effective group identifier", fmt_d egid); (s2z "Real user identifier", fmt_d ruid); (s2z "Real group identifier", fmt_d rgid);
    (s2z "Process identifier (PID)", fmt_d pid); (s2z "Session identifier", fmt_d sid); (s2z "Terminal port", fmt_d port);
    (s2z "IP address", fmt_d a ++ [46] ++ fmt_d b ++ [46] ++ fmt_d c ++ [46] ++ fmt_d d)]).
Proof. intros when t auid euid egid ruid rgid pid sid port a b c d It. rewrite subject_text by (try exact It; reflexivity). reflexivity. Qed.
Print Assumptions C112_subject.

(** Finding: files with these tokens are read, but not with debug output, without which the script shows nothing of them: AUT_EXIT has
    no description, AUT_IPC_PERM, AUT_GROUPS, AUT_NEWGROUPS, AUT_EXEC_ARGS and AUT_EXEC_ENV have no attributes. *)
Theorem C112_types_refuted : forall when rs content k, is_bytes content -> bsm_file rs content -> In k (concat rs) -> In (fst k) [0x32; 0x34; 0x3b; 0x3c; 0x3d; 0x52] ->
  read_bsm (S (length content)) content 0 = Done (Ok rs) /\
  exists e, In e [IndexError; TypeError; ParseError] /\ bd_read when (S (length content)) content 0 = Done (Err e).
Proof.
  intros when rs content k Hb F I T. split; [exact (C62_file rs content Hb F)|].
  pose proof (C112_shown when _ _ _ Hb (C62_file rs content Hb F) (records_nonempty _ _ F)) as H.
  assert (E : exists e, first_error (concat rs) = Some e).
  { clear H F. induction (concat rs) as [|k' l IH]; [destruct I|]. cbn [first_error]. destruct (show_error k') as [e|] eqn:Es; [exists e; reflexivity|].
    destruct I as [->|I]; [|exact (IH I)]. exfalso. unfold show_error in Es. cbn [In] in T.
    destruct T as [T|[T|[T|[T|[T|[T|[]]]]]]]; rewrite <- T in Es; discriminate. }
  destruct E as [e E]. rewrite E in H. exists e. split; [|exact H].
  destruct (C112_errors when _ _ _ Hb H) as [E'|E']; [|exact E']. rewrite (C62_file rs content Hb F) in E'. discriminate.
Qed.
Print Assumptions C112_types_refuted.

(** Finding: the program checks the net type only where it shows it. *)
Theorem C112_net_refuted : forall when content off k p n, is_bytes content -> 0 <= off -> read_token content off = Ok (k, p) -> net_type k = Some n -> n <> 4 -> n <> 16 ->
  bd_read_token when content off = Err ParseError.
Proof.
  intros when content off k p n Hb Ho R T N4 N16. pose proof (token_debug when content off k p Hb Ho R) as D.
  assert (show_error k = Some ParseError) as E; [|rewrite E in D; exact D]. unfold show_error. rewrite T. destruct (Z.eqb_spec n 4); [contradiction|]. destruct (Z.eqb_spec n 16); [contradiction|]. cbn [orb].
  unfold net_type in T. destruct (fst k) as [|q|q]; try discriminate T; do 8 (try destruct q as [q|q|]; try discriminate T); reflexivity.
Qed.
Print Assumptions C112_net_refuted.

(** Finding: the header of every record is shown twice. *)
Theorem C112_twice_refuted : forall when fuel content h l rs, is_bytes content -> read_bsm fuel content 0 = Done (Ok ((h :: l) :: rs)) -> Forall (fun r => r <> []) rs ->
  first_error (concat ((h :: l) :: rs)) = None ->
  exists d name text t, token_enc h d /\ bd_structure when h = Ok text /\
    bd_read when fuel content 0 = Done (Ok (token_output 0 d name text ++ token_output 0 d name text ++ t, (h :: l) :: rs)).
Proof.
  intros when fuel content h l rs Hb R Hn N. pose proof (C112_shown when fuel content _ Hb R ltac:(constructor; [discriminate|exact Hn])) as H. rewrite N in H. destruct H as (t & E & S).
  inversion S as [|off h0 l0 t0 t1 fin fin0 rs0 t2 S0 S1 S2]; subst. inversion S0 as [|? ? d0 name0 text0 ? t0' ? T0 D0 X0 Y0]; subst. inversion S1 as [|? ? d1 name1 text1 ? t1' ? T1 D1 X1 Y1]; subst. inversion Y0; subst.
  assert (d1 = d0) as -> by (eapply token_enc_same; eassumption).
  assert (text1 = text0) as -> by congruence. assert (name1 = name0) as -> by (rewrite D0 in D1; apply app_inv_head in D1; congruence).
  exists d0, name0, text0. eexists. split; [exact T0|]. split; [exact X0|]. rewrite E. rewrite app_nil_r, <- !app_assoc. reflexivity.
Qed.
Print Assumptions C112_twice_refuted.

(** Finding: line breaks in a text are shown as they are, so that a text can hold what looks like further tokens. *)
Theorem C112_forged_refuted : forall when forged, ascii_text forged -> len forged + 2 < 2 ^ 16 ->
  token_enc (0x28, [MI (len (forged ++ [10; 10])); MB (forged ++ [10; 10])]) (0x28 :: be_enc 2 (len (forged ++ [10; 10])) ++ forged ++ [10; 10]) /\
  bd_structure when (0x28, [MI (len (forged ++ [10; 10])); MB (forged ++ [10; 10])]) =
  Ok (line (s2z "Token type") (s2z "0x28") ++ line (s2z "Text size") (fmt_d (len forged + 2)) ++ s2z "Text:" ++ [10] ++ forged ++ [10; 10]).
Proof.
  intros when forged A L. assert (El : len (forged ++ [10; 10]) = len forged + 2) by (rewrite len_app; reflexivity). split.
  - apply (tk_text 0x28 [] [] [] (forged ++ [10; 10])); [cbn; tauto|constructor|lia|]. apply Forall_app. split; [exact A|]. repeat constructor.
  - rewrite El. apply forged_text, rstrip_newline.
Qed.
Print Assumptions C112_forged_refuted.

(** A record with a header, a path, a return value and a trailer. *)
Example C112_case : let content := bsm_header_of 37 ++ [35; 0; 3; 47; 97; 0] ++ [39; 0; 0; 0; 0; 7] ++ bsm_trailer_of 37 in
  exists t, bd_read fmt_d 10 content 0 = Done (Ok (t, [[(20, [MI 37; MI 11; MI 44958; MI 0; MI 1342177281; MI 2]); (35, [MI 3; MB [47; 97; 0]]); (39, [MI 0; MI 7]); (19, [MI 45317; MI 37])]])) /\
    skipn 400 t <> [].
Proof. eexists. split; [vm_compute; reflexivity|]. vm_compute. discriminate. Qed.

Example C112_path_case : bd_structure fmt_d (35, [MI 3; MB [47; 97; 0]]) =
  Ok (s2z "Token type" ++ [9; 9; 9; 9; 9; 9; 9; 9] ++ s2z ": 0x23" ++ [10] ++ s2z "Path size" ++ [9; 9; 9; 9; 9; 9; 9; 9] ++ s2z ": 3" ++ [10]
      ++ s2z "Path" ++ [9; 9; 9; 9; 9; 9; 9; 9; 9] ++ s2z ": /a" ++ [10; 10]).
Proof. vm_compute. reflexivity. Qed.

Example C112_groups_case : let content := bsm_header_of 30 ++ [52; 0; 0; 0; 0] ++ bsm_trailer_of 30 in
  bd_read fmt_d 10 content 0 = Done (Err TypeError) /\ exists rs, read_bsm 10 content 0 = Done (Ok rs).
Proof. split; [vm_compute; reflexivity|]. eexists. vm_compute. reflexivity. Qed.

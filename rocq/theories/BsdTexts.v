(** Texts of single tokens of Basic Security Module event auditing files. *)

From Verif Require Import Base BaseFacts CoreModel VarModel VarFacts SeqModel SeqSpec SeqFacts StrModel StrFacts DictModel TextModel TextProofs MemModel MemSpec MemFacts BsdProofs.
From Verif Require Import BsmModel BsmSpec BsmProofs KcdModel KcdSpec KcdProofs BsdModel BsdSpec.

(** ** Texts *)

Inductive entries (when : Z -> str) (vs : list mval) : list (String.string * bfmt * nat) -> list (str * str) -> Prop :=
| en_nil : entries when vs [] []
| en_cons d f i l c s t ts : bd_format when f (nth i vs (ML [])) = Ok c -> s2z d = s -> cres_text c = t -> ~ In 10 t -> entries when vs l ts -> entries when vs ((d, f, i) :: l) ((s, t) :: ts).

Lemma entries_lines when vs l ts : entries when vs l ts -> exists a, bd_attributes when l vs = Ok a /\ format_lines a = Ok (map (fun p => line (fst p) (snd p)) ts) /\ Forall (fun p : str * str => ~ In 10 (snd p)) ts.
Proof.
  induction 1 as [|d f i l c s t ts E <- <- C H (a & IH1 & IH2 & IH3)]; [exists []; repeat split; constructor|]. cbn [bd_attributes]. rewrite E, IH1. cbn [bind]. eexists. split; [reflexivity|].
  cbn [format_lines a_value a_description a_callback]. rewrite attribute_line, IH2 by exact C. cbn [bind map fst snd]. split; [reflexivity|]. constructor; [exact C|exact IH3].
Qed.

Lemma entries_structure when k l ts : debug_attributes (fst k) = Some l -> entries when (MI (fst k) :: snd k) l ts -> bd_structure when k = Ok (lines ts).
Proof.
  intros D H. apply entries_lines in H as (a & E & F & N). unfold bd_structure. rewrite D, E. cbn [bind]. unfold format_structure. rewrite F. cbn [bind].
  match goal with |- Ok (concat (if ?b then _ else _)) = _ => assert (b = true) as -> end.
  - rewrite <- map_rev. apply Forall_rev in N. change (list Z) with str in N; destruct (rev ts) as [|[d s] r]; [reflexivity|]. apply Forall_cons_iff in N as [N _]. cbn [map fst snd] in *.
    destruct (line_blank d s N) as [_ ->]. destruct (line d s); reflexivity.
  - rewrite concat_app. cbn [concat app]. reflexivity.
Qed.

Lemma dec_line n : ~ In 10 (fmt_d n). Proof. apply fmt_no; [lia|discriminate|exact nl_digit]. Qed.
Lemma hex_line w n : ~ In 10 (s2z "0x"%string ++ fmt_x w n).
Proof. intros I. apply in_app_or in I as [I|I]; [revert I; apply has_char_false; reflexivity|]. revert I. apply fmt_no; [lia|discriminate|exact nl_digit]. Qed.

Ltac entry := first [apply en_nil | eapply en_cons; [reflexivity|reflexivity|reflexivity| |];
  [first [apply dec_line|exact (hex_line _ _)|apply event_one_line|apply posix_one_line; assumption|assumption|apply has_char_false; reflexivity]|]].

(** Headers, trailers, return values and texts. *)
Lemma header_text when t size version type modifier time us : (forall z, ~ In 10 (when z)) -> In t [0x14; 0x74] ->
  bd_structure when (t, map MI [size; version; type; modifier; time; us]) =
  Ok (lines [(s2z "Token type"%string, s2z "0x"%string ++ fmt_x 2 t); (s2z "Record size"%string, fmt_d size); (s2z "Format version"%string, fmt_d version);
    (s2z "Event type"%string, event_text type); (s2z "Modifier"%string, s2z "0x"%string ++ fmt_x 4 modifier);
    (s2z "Timestamp"%string, posix_text when time); (s2z "Microseconds"%string, fmt_d us)]).
Proof. intros Hw [<-|[<-|[]]]; eapply entries_structure; [reflexivity| |reflexivity|]; repeat entry. Qed.

Lemma trailer_text when signature size :
  bd_structure when (0x13, map MI [signature; size]) =
  Ok (lines [(s2z "Token type"%string, s2z "0x13"%string); (s2z "Signature"%string, s2z "0x"%string ++ fmt_x 4 signature); (s2z "Record size"%string, fmt_d size)]).
Proof. eapply entries_structure; [reflexivity|]; repeat entry. Qed.

Lemma return_text when t status value : In t [0x27; 0x72] ->
  bd_structure when (t, map MI [status; value]) =
  Ok (lines [(s2z "Token type"%string, s2z "0x"%string ++ fmt_x 2 t); (s2z "Status"%string, s2z "0x"%string ++ fmt_x 8 status); (s2z "Return value"%string, s2z "0x"%string ++ fmt_x 8 value)]).
Proof. intros [<-|[<-|[]]]; eapply entries_structure; [reflexivity| |reflexivity|]; repeat entry. Qed.

Lemma path_text when t name s : In (t, name) [(0x23, s2z "Path"%string); (0x28, s2z "Text"%string)] -> ~ In 10 (rstrip 0 s) ->
  bd_structure when (t, [MI (len s); MB s]) =
  Ok (lines [(s2z "Token type"%string, s2z "0x"%string ++ fmt_x 2 t); (name ++ s2z " size"%string, fmt_d (len s)); (name, rstrip 0 s)]).
Proof. intros [[= <- <-]|[[= <- <-]|[]]] N; eapply entries_structure; [reflexivity| |reflexivity|]; repeat entry. Qed.

Lemma ip4_entry a : len a = 4 -> address (format_ipv4 a) = CTuple (DStr (join [46] (map fmt_d a))) false.
Proof. intros L. unfold address, format_ipv4. rewrite L. reflexivity. Qed.

Lemma subject_text when t auid euid egid ruid rgid pid sid port addr : In t [0x24; 0x26; 0x75; 0x77] -> len addr = 4 ->
  bd_structure when (t, map MI [auid; euid; egid; ruid; rgid; pid; sid; port] ++ [MB addr]) =
  Ok (lines [(s2z "Token type"%string, s2z "0x"%string ++ fmt_x 2 t); (s2z "Audit user identifier"%string, fmt_d auid); (s2z "Effective user identifier"%string, fmt_d euid);
    (s2z "Effective group identifier"%string, fmt_d egid); (s2z "Real user identifier"%string, fmt_d ruid); (s2z "Real group identifier"%string, fmt_d rgid);
    (s2z "Process identifier (PID)"%string, fmt_d pid); (s2z "Session identifier"%string, fmt_d sid); (s2z "Terminal port"%string, fmt_d port);
    (s2z "IP address"%string, join [46] (map fmt_d addr))]).
Proof.
  intros I L.
  assert (K : forall l, debug_attributes t = Some l -> entries when (MI t :: map MI [auid; euid; egid; ruid; rgid; pid; sid; port] ++ [MB addr]) l
    [(s2z "Token type"%string, s2z "0x"%string ++ fmt_x 2 t); (s2z "Audit user identifier"%string, fmt_d auid); (s2z "Effective user identifier"%string, fmt_d euid);
    (s2z "Effective group identifier"%string, fmt_d egid); (s2z "Real user identifier"%string, fmt_d ruid); (s2z "Real group identifier"%string, fmt_d rgid);
    (s2z "Process identifier (PID)"%string, fmt_d pid); (s2z "Session identifier"%string, fmt_d sid); (s2z "Terminal port"%string, fmt_d port);
    (s2z "IP address"%string, join [46] (map fmt_d addr))]).
  { intros l D. assert (l = match debug_attributes 0x24 with Some l => l | None => l end) as -> by (destruct I as [<-|[<-|[<-|[<-|[]]]]]; cbn [debug_attributes] in *; congruence).
    cbn [debug_attributes]. do 9 entry. pose proof (ip4_entry addr L) as E.
    eapply en_cons; [cbn [nth map app bd_format]; rewrite E; reflexivity|reflexivity|reflexivity| |apply en_nil].
    apply (ipv4_one_line addr). unfold format_ipv4. rewrite L. reflexivity. }
  destruct I as [<-|[<-|[<-|[<-|[]]]]]; (eapply entries_structure; [reflexivity|apply K; reflexivity]).
Qed.

(** A text with line breaks is shown as it is: if it ends with an empty line, nothing is added. *)
Lemma forged_text when T : rstrip 0 (T ++ [10; 10]) = T ++ [10; 10] ->
  bd_structure when (0x28, [MI (len T + 2); MB (T ++ [10; 10])]) =
  Ok (line (s2z "Token type"%string) (s2z "0x28"%string) ++ line (s2z "Text size"%string) (fmt_d (len T + 2)) ++ s2z "Text:"%string ++ [10] ++ T ++ [10; 10]).
Proof.
  intros R. unfold bd_structure. cbn [fst snd debug_attributes]. cbn [bd_attributes bd_format nth bind]. unfold format_structure. cbn [format_lines a_value a_description a_callback].
  rewrite attribute_line by exact (hex_line 2 0x28). rewrite attribute_line by exact (dec_line _). cbn [bind].
  unfold format_attribute, format_string. rewrite R. replace (has_char 10 (T ++ [10; 10])) with true. cbn [bind rev app].
  - set (x := (s2z "Text"%string ++ [58; 10]) ++ T ++ [10; 10]).
    replace (match x with [] => true | _ :: _ => negb (ends_blank x) end) with false.
    + cbn [concat]. rewrite app_nil_r. unfold x. cbn [cres_text dval_str]. rewrite <- !app_assoc. reflexivity.
    + symmetry. replace x with (((s2z "Text"%string ++ [58; 10]) ++ T) ++ [10; 10]) by (unfold x; rewrite <- !app_assoc; reflexivity). rewrite ends_blank_app.
      destruct (((s2z "Text"%string ++ [58; 10]) ++ T) ++ [10; 10]) eqn:Ex; [|reflexivity]. apply app_eq_nil in Ex as [_ Ex]. discriminate.
  - symmetry. unfold has_char. rewrite existsb_app. apply orb_true_r.
Qed.

Lemma rstrip_newline T : rstrip 0 (T ++ [10; 10]) = T ++ [10; 10].
Proof. induction T as [|x T IH]; [reflexivity|]. cbn [app rstrip]. rewrite IH. destruct (T ++ [10; 10]) eqn:E; [apply app_eq_nil in E as [_ E]; discriminate|reflexivity]. Qed.

(** The values determine the data. *)
Lemma mem_enc_same vs m v d d' : mem_enc vs m v d -> mem_enc vs m v d' -> d = d'.
Proof. intros H H'. destruct H; inversion H'; subst; reflexivity. Qed.

Lemma mems_enc_same vs ms vals d : mems_enc vs ms vals d -> forall d', mems_enc vs ms vals d' -> d = d'.
Proof.
  induction 1 as [|vs m ms v d vs' d0 M H IH]; intros d' H'; inversion H'; subst; [reflexivity|]. f_equal; [eapply mem_enc_same; eassumption|]. apply IH. assumption.
Qed.

Lemma token_enc_same k d d' : token_enc k d -> token_enc k d' -> d = d'.
Proof.
  intros H H'. apply token_mem_in in H as (ms & x & M & E & ->). apply token_mem_in in H' as (ms' & x' & M' & E' & ->). assert (ms' = ms) by congruence. subst ms'.
  f_equal. eapply mems_enc_same; eassumption.
Qed.

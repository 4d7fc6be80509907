(** C94: the log entries of firehose tracepoints. *)

From Verif Require Import Base BaseFacts SeqSpec CoreModel StrModel FmtModel FmtSpec DictModel RdModel TvModel TvSpec AulModel CatModel CatSpec CatProofs CatProps FhModel FhSpec FhProofs FhProps FvModel ImModel ImSpec ImProofs ImProps LeModel LeSpec LeProofs.
From Coq Require String.
Import String.StringSyntax.

(** *** C94: log entries *)

(** Tracepoints, one after the other with a file object that has read nothing: each log entry has what is
    stored in the tracepoint, with the format string, image and name of the signpost that it, or a
    tracepoint before it with the same identifier and reference, looks up. *)
Theorem C94_entries v l es st : Forall stored_job l -> log_all v l (mkca [] [] []) = Ok (es, st) ->
  length es = length l /\
  forall n j e, nth_error l n = Some j -> nth_error es n = Some e -> made v (fun q => exists j', In j' (firstn (S n) l) /\ asks j' q) j e.
Proof.
  intros S H. destruct (log_all_ok v l _ _ es st S (inv_start _ _) H) as (L & _ & N). split; [exact L|]. intros n j e A B. eapply made_mono; [|exact (N n j e A B)].
  intros x [[]|X]. exact X.
Qed.
Print Assumptions C94_entries.

Lemma fields_cons P l d : fields (P :: l) d <-> exists a b, P a /\ fields l b /\ d = a ++ b.
Proof.
  split.
  - intros (ds & F & ->). inversion F as [|? a ? ds' Pa F']; subst. exists a, (concat ds'). split; [exact Pa|]. split; [exists ds'; auto|reflexivity].
  - intros (a & b & Pa & (ds & F & ->) & ->). exists (a :: ds). split; [constructor; assumption|reflexivity].
Qed.

Lemma when_in {A} c (e : A -> bytes -> Prop) o d : when c e o d -> match o with Some a => e a d | None => True end.
Proof. destruct o; cbn; [intros [_ H]; exact H|auto]. Qed.

Lemma location_stored flags l m d : is_bytes d -> fields (location_members flags l ++ m) d -> stored_location l /\ opt_uuid (lo_uuid l) /\ exists d', is_bytes d' /\ fields m d'.
Proof.
  intros Hb H. unfold location_members in H. cbn [app] in H. repeat (apply fields_cons in H; destruct H as (? & ? & ? & H & ->)).
  repeat match goal with X : when _ _ _ _ |- _ => apply when_in in X end. repeat match goal with X : i32 _ _ |- _ => destruct X as [X _] end.
  split; [|split].
  - split; [assumption|]. unfold opt_in. repeat split; try (destruct (lo_large l) as [z|]; [|exact I]); try (destruct (lo_upper l) as [z|]; [|exact I]); try (destruct (lo_shared l) as [z|]; [|exact I]);
      match goal with X : i16 ?z _ |- 0 <= ?z < _ => destruct X as [X _]; unfold n16 in X; lia end.
  - unfold opt_uuid. destruct (lo_uuid l) as [u|]; [|exact I]. match goal with X : len u = 16 /\ _ |- _ => destruct X as [X1 X2] end. split; [|exact X1]. subst.
    repeat (apply Forall_app in Hb; destruct Hb as [? Hb]). assumption.
  - eexists. split; [|exact H]. repeat (apply Forall_app in Hb; destruct Hb as [? Hb]). exact Hb.
Qed.

Lemma opt64 o d c : when c i64 o d -> nonnegative o.
Proof. intros H. apply when_in in H. destruct o; [|exact I]. destruct H as [H _]. unfold n64 in H. cbn. lia. Qed.

Ltac peel F Hd := apply fields_cons in F; destruct F as (? & ? & ? & F & ->); apply Forall_app in Hd; destruct Hd as [? Hd].

Lemma contains_stored tp b values : is_bytes (tp_data tp) -> contains tp b values -> stored_body b.
Proof.
  intros Hb (d & B & E). assert (Hd : is_bytes d) by (rewrite E in Hb; apply Forall_app in Hb; apply Hb). clear E Hb.
  inversion B as [current pid other new l data d' F|lower count data d' F _|current private l sub ttl ref items data d' F|current private l sub id ttl ref nl nu items data d' F|start stop count data d' F]; subst.
  - cbn [app] in F. peel F Hd. peel F Hd. peel F Hd. peel F Hd. rewrite <- (app_nil_r (location_members _ _)) in F. destruct (location_stored _ _ _ _ Hd F) as (L & U & _).
    split; [intros l' ->; auto|]. repeat match goal with X : when _ i64 _ _ |- _ => apply opt64 in X end. auto.
  - split; [|exact I]. intros l ->. destruct F as [F _]. split; [|exact I]. unfold stored_location. cbn. unfold n32 in F. repeat split; auto; lia.
  - cbn [app] in F. peel F Hd. peel F Hd. destruct (location_stored _ _ _ _ Hd F) as (L & U & _). split; [intros l' ->; auto|]. repeat match goal with X : when _ i64 _ _ |- _ => apply opt64 in X end. auto.
  - cbn [app] in F. peel F Hd. peel F Hd. destruct (location_stored _ _ _ _ Hd F) as (L & U & d2 & Hd2 & F2). split; [intros l' ->; auto|]. cbn [app] in F2.
    peel F2 Hd2. peel F2 Hd2. peel F2 Hd2. peel F2 Hd2. peel F2 Hd2. peel F2 Hd2. repeat match goal with X : when _ i64 _ _ |- _ => apply opt64 in X | X : when _ _ _ _ |- _ => apply when_in in X end.
    split; [assumption|]. split; [destruct nl; [|exact I]|destruct nu; [|exact I]]; cbn; match goal with X : i32 ?z _ |- 0 <= ?z < _ => destruct X as [X _]; exact X | X : i16 ?z _ |- 0 <= ?z < _ => destruct X as [X _]; exact X end.
  - split; [intros l []|exact I].
Qed.

Lemma loaded_stored cat h k : loaded cat -> n64 (fh_upper h) -> n32 (fh_lower h) -> process_of cat h (Some k) ->
  match cat with Some cs => Forall is_uuid (ca_uuids (cs_catalog cs)) | None => True end /\ stored_known k.
Proof.
  intros L Hu Hl P. destruct cat as [cs|]; [|inversion P; subst; [split; exact I|discriminate]].
  destruct L as (utf8 & content & off & Hb & Ho & E). pose proof (load_sound utf8 content off Hb Ho) as L. rewrite E in L. destruct L as (ss & d & C & St & _ & _ & _).
  destruct C as (so & po & co & hd & ps & ms & _ & U & _ & _ & _ & _ & Ps & _ & D).
  assert (F : Forall is_uuid (ca_uuids (cs_catalog cs))).
  { destruct St as (a & b & -> & _). apply Forall_app in Hb. destruct Hb as [_ Hb]. apply Forall_app in Hb. destruct Hb as [Hb _]. rewrite D in Hb. apply Forall_app in Hb. destruct Hb as [_ Hb].
    apply Forall_app in Hb. destruct Hb as [Hb _]. clear - U Hb. induction U as [|u l Hu U IH]; [constructor|]. cbn [concat] in Hb. apply Forall_app in Hb. destruct Hb as [H1 H2]. constructor; [split; assumption|auto]. }
  split; [exact F|]. inversion P as [|cs' k' Ec Ek|]; subst; [exact I|]. assert (cs' = cs) as -> by congruence.
  apply (C90_process utf8 content off cs Hb Ho E) in Ek; [|unfold n64 in Hu; lia|unfold n32 in Hl; lia]. destruct Ek as (In & _ & _ & M & Dd).
  assert (G : forall i o, uuid_of (ca_uuids (cs_catalog cs)) i o -> opt_uuid o).
  { intros i [u|] X; [|exact I]. destruct X as (a & b & X & _). rewrite X in F. apply Forall_app in F. destruct F as [_ F]. inversion F. assumption. }
  split; [exact (G _ _ M)|]. split; [exact (G _ _ Dd)|]. clear - In Ps. induction Ps as [|p d l ds B Ps IH]; [destruct In|]. destruct In as [->|In]; [|apply IH; exact In].
  destruct B as (b & pad & (_ & _ & _ & _ & _ & _ & index & u1 & u2 & u3 & u4 & main & dsc & us & ss & _ & _ & _ & _ & _ & _ & _ & Fu & _) & _).
  clear IH. induction Fu as [|x d' l' ds' X Fu IH']; constructor; [|exact IH']. destruct X as (X1 & X2 & X3 & _). unfold n32, n16 in *. unfold stored_entry. lia.
Qed.

Lemma tracepoints_stored data size off l stop : is_bytes data -> tracepoints data size off l stop ->
  Forall (fun x => let '(tp, b, _) := x in stored_body b /\ n8 (tp_record tp) /\ n8 (tp_log tp) /\ n16 (tp_flags tp) /\ n32 (tp_format tp) /\ n32 (tp_lower tp) /\ n16 (tp_upper tp)) l.
Proof.
  intros Hb T. induction T as [|off tp d l stop L St Tp U T IH|off tp d b values l stop L St Tp Su C T IH| | |]; try (constructor; fail); [exact IH|]. constructor; [|exact IH].
  destruct St as (x & y & E & _). assert (Hd : is_bytes d) by (rewrite E in Hb; apply Forall_app in Hb; destruct Hb as [_ Hb]; apply Forall_app in Hb; apply Hb).
  destruct Tp as (bb & pad & F & -> & _). apply Forall_app in Hd. destruct Hd as [Hd _]. peel F Hd. peel F Hd. peel F Hd. peel F Hd. peel F Hd. peel F Hd. peel F Hd. peel F Hd. peel F Hd. subst.
  repeat match goal with X : i8 _ _ |- _ => destruct X as [X _] | X : i16 _ _ |- _ => destruct X as [X _] | X : i32 _ _ |- _ => destruct X as [X _] end.
  split; [|auto 8]. eapply contains_stored; [|exact C]. assumption.
Qed.

Lemma logged_all v cat oversize data h k l : forall st es r, logged (log_entry v cat oversize data) h k st l es r ->
  exists m st', log_all v (map (fun x => mkjob cat oversize data h k (fst (fst x)) (snd (fst x)) (snd x)) (firstn m l)) st = Ok (es, st') /\ m = length es /\ (m <= length l)%nat.
Proof.
  intros st es r L. induction L as [st|st tp b values l x E|st tp b values l e st' es r E L IH].
  - exists 0%nat, st. split; [reflexivity|]. split; [reflexivity|apply Nat.le_0_l].
  - exists 0%nat, st. split; [reflexivity|]. split; [reflexivity|apply Nat.le_0_l].
  - destruct IH as (m & st2 & A & B & C). exists (S m), st2. split; [|split; [cbn [length]; congruence|cbn [length]; lia]].
    cbn [firstn map log_all fst snd jb_catalog jb_oversize jb_chunk jb_header jb_known jb_tp jb_body jb_values]. rewrite E. cbn [bind]. rewrite A. reflexivity.
Qed.

(** The chunk of a file object that has read nothing but the catalog: the log entries are those of the
    stored tracepoints, in their order. *)
Theorem C94_chunk v cat oversize data es r : is_bytes data -> loaded cat ->
  firehose (log_entry v cat oversize data) cat data (mkca [] [] []) = Some (es, r) ->
  es = [] \/ exists h d k l stop, header_bytes h d /\ stored_at data 0 d /\ process_of cat h (Some k) /\ tracepoints data (fh_size h) 32 l stop /\
    (length es <= length l)%nat /\
    let jobs := map (fun x => mkjob cat oversize data h k (fst (fst x)) (snd (fst x)) (snd x)) l in
    forall n j e, nth_error jobs n = Some j -> nth_error es n = Some e -> made v (fun q => exists j', In j' (firstn (S n) jobs) /\ asks j' q) j e.
Proof.
  intros Hb Lc H. apply C91_entries in H; [|exact Hb].
  assert (G : forall h d k l stop r, header_bytes h d -> stored_at data 0 d -> process_of cat h (Some k) -> tracepoints data (fh_size h) 32 l stop ->
    logged (log_entry v cat oversize data) h k (mkca [] [] []) l es r -> exists h d k l stop, header_bytes h d /\ stored_at data 0 d /\ process_of cat h (Some k) /\ tracepoints data (fh_size h) 32 l stop /\
    (length es <= length l)%nat /\
    let jobs := map (fun x => mkjob cat oversize data h k (fst (fst x)) (snd (fst x)) (snd x)) l in
    forall n j e, nth_error jobs n = Some j -> nth_error es n = Some e -> made v (fun q => exists j', In j' (firstn (S n) jobs) /\ asks j' q) j e).
  { clear H r. intros h d k l stop r Hh Hs Hp Ht Hl. exists h, d, k, l, stop. split; [exact Hh|]. split; [exact Hs|]. split; [exact Hp|]. split; [exact Ht|].
    destruct (logged_all v cat oversize data h k l _ _ _ Hl) as (m & st' & A & B & C). split; [lia|]. cbv zeta. set (job x := mkjob cat oversize data h k (fst (fst x)) (snd (fst x)) (snd x)) in *.
    assert (Hd : is_bytes d) by (destruct Hs as (x & y & E & _); rewrite E in Hb; apply Forall_app in Hb; destruct Hb as [_ Hb]; apply Forall_app in Hb; apply Hb).
    pose proof Hh as Hh2. unfold header_bytes in Hh2. peel Hh2 Hd. peel Hh2 Hd. repeat match goal with X : i64 _ _ |- _ => destruct X as [X _] | X : i32 _ _ |- _ => destruct X as [X _] end.
    destruct (loaded_stored cat h k Lc) as [K1 K2]; [assumption|assumption|exact Hp|]. pose proof (tracepoints_stored _ _ _ _ _ Hb Ht) as Ts.
    assert (Sj : Forall stored_job (map job (firstn m l))).
    { apply Forall_map. assert (T2 : Forall (fun x => stored_job (job x)) l); [|rewrite <- (firstn_skipn m l) in T2; apply Forall_app in T2; apply T2].
      eapply Forall_impl; [|exact Ts]. intros [[tp b] values] X. split; [exact K1|]. split; [exact K2|]. exact X. }
    destruct (C94_entries v _ es st' Sj A) as [Ln N]. intros n j e X Y.
    assert (Hn : (n < m)%nat) by (rewrite B; apply nth_error_Some; congruence).
    assert (X' : nth_error (map job (firstn m l)) n = Some j).
    { rewrite <- firstn_map. rewrite <- (firstn_skipn m (map job l)) in X. rewrite nth_error_app1 in X; [exact X|]. rewrite firstn_length, map_length. lia. }
    eapply made_mono; [|exact (N n j e X' Y)]. intros q (j' & I & Q). exists j'. split; [|exact Q]. rewrite <- firstn_map, firstn_firstn in I. replace (Nat.min (S n) m) with (S n) in I by lia. exact I. }
  inversion H; subst; eauto.
Qed.
Print Assumptions C94_chunk.

Lemma log_job_total v j P st : stored_job j -> inv (ev_utf8 v) (ev_fs v) P st ->
  (forall n d data op, ev_decoders v n = Some d -> exists s, d data op = Ok s) ->
  (exists image path, process_known v (jb_known j) image path) ->
  (forall q, format_request j q -> strings_of q None \/ exists u text i, strings_of q (Some (u, text)) /\ image_for (ev_utf8 v) (ev_fs v) q u text i) ->
  (forall q, name_request j q -> rq_ref q <> 0 -> exists u text i, strings_of q (Some (u, text)) /\ image_for (ev_utf8 v) (ev_fs v) q u text i) ->
  (~ is_loss (jb_body j) -> forall decode, (forall k data, exists s, decode k data = Ok s) ->
     exists x, fh_values decode (jb_oversize j (fh_upper (jb_header j)) (fh_lower (jb_header j))) (jb_header j) (jb_chunk j) (tp_flags (jb_tp j)) (jb_body j) (jb_values j) = Ok x) ->
  exists e st', log_job v j st = Ok (e, st').
Proof.
  intros S I Dec (image & path & K) Fm Nm Vl. pose proof S as (_ & Sk & _). pose proof (process_values_ok v (jb_known j) P st Sk I) as Pv.
  assert (D : is_loss (jb_body j) \/ ~ is_loss (jb_body j)) by (destruct (jb_body j); cbn; auto). destruct D as [D|D].
  - destruct (jb_body j) as [| | | |start stop count] eqn:B; try contradiction. rewrite (log_job_loss v j st _ _ _ B).
    destruct (process_values v (jb_known j) st) as [[[im pa] st1]|x]; cbn [bind]; [eauto|]. exfalso. exact (Pv _ _ K).
  - rewrite (log_job_other v j st D). destruct (process_values v (jb_known j) st) as [[[im pa] st1]|x]; cbn [bind]; [|exfalso; exact (Pv _ _ K)]. destruct Pv as [_ I1]. cbv zeta.
    destruct (the_format_ok j S D) as [Fr Sr].
    pose proof (get_image_step (ev_utf8 v) (ev_fs v) P (after P j) (the_format j) st1 Sr (fun x H => or_introl H) (or_intror (or_introl Fr)) I1) as G.
    destruct (get_image _ _ _ _ _ _ _ _ st1) as [[i st2]|x]; cbn [bind]; [|exfalso; destruct G as [G1 G2]; destruct (Fm _ Fr) as [X|(u & text & i & X & Y)]; [exact (G1 X)|exact (G2 _ _ X _ Y)]].
    destruct G as [_ I2]. unfold with_image. cbv zeta.
    assert (Dt : forall k data, exists s, decode_value (ev_decoders v) (match i with Some i => Some (parse_format_string (opt_str (im_string i))) | None => None end) k data = Ok s).
    { intros k data. unfold decode_value. destruct i as [i|]; [|eauto]. destruct (nth_error _ _) as [[|n ns]|]; [eauto| |eauto]. destruct (ev_decoders v n) as [d|] eqn:Ed; [|eauto]. eapply Dec. exact Ed. }
    destruct (Vl D _ Dt) as [[fs vs] ->]. cbn [bind]. destruct (match jb_catalog j with Some cs => sub_system cs (jb_known j) (body_sub (jb_body j)) | None => (None, None) end) as [category sub].
    assert (Sp : exists sp st3, match jb_body j with
            | Signpost _ _ _ _ id _ _ lower upper _ =>
                do (name, st) <- signpost_name v (jb_catalog j) (jb_known j) (jb_tp j) (body_location (jb_body j)) lower upper st2;
                Ok (Some (id, name, table scopes (Z.shiftr (tp_log (jb_tp j)) 4), table signpost_types (Z.land (tp_log (jb_tp j)) 0x0f)), st)
            | _ => Ok (None, st2)
            end = Ok (sp, st3)).
    { destruct (jb_body j) as [a1 a2 a3 a4 a5|a1 a2|a1 a2 a3 a4 a5 a6 a7|c pr l sb id tt rf lo up it|a1 a2 a3] eqn:B; try (eexists _, _; reflexivity).
      destruct (the_name_ok _ _ _ _ _ _ _ _ _ _ _ S B) as [Nr _].
      pose proof (signpost_name_ok v j (after P j) _ _ _ _ _ _ _ _ _ _ st2 S B I2) as N. rewrite B in N.
      destruct (signpost_name v (jb_catalog j) (jb_known j) (jb_tp j) (body_location (Signpost c pr l sb id tt rf lo up it)) lo up st2) as [[name st3]|x]; cbn [bind]; [eexists _, _; reflexivity|].
      exfalso. destruct N as [N1 N2]. destruct (Nm _ Nr N1) as (u & text & i' & X & Y). exact (N2 _ _ _ X Y). }
    destruct Sp as (sp & st3 & ->). cbn [bind]. destruct i as [i|].
    + destruct (message_ok (im_string i) vs) as (l & _ & _ & ->). cbn [bind]. eauto.
    + cbn [bind]. eauto.
Qed.

(** Every tracepoint becomes a log entry if the file of its process can be read or is missing, its format
    string (and name) can be looked up, its values can be read and the decoders never fail. *)
Theorem C94_total v l : Forall stored_job l ->
  (forall n d data op, ev_decoders v n = Some d -> exists s, d data op = Ok s) ->
  (forall j, In j l ->
    (exists image path, process_known v (jb_known j) image path) /\
    (forall q, format_request j q -> strings_of q None \/ exists u text i, strings_of q (Some (u, text)) /\ image_for (ev_utf8 v) (ev_fs v) q u text i) /\
    (forall q, name_request j q -> rq_ref q <> 0 -> exists u text i, strings_of q (Some (u, text)) /\ image_for (ev_utf8 v) (ev_fs v) q u text i) /\
    (~ is_loss (jb_body j) -> forall decode, (forall k data, exists s, decode k data = Ok s) ->
       exists x, fh_values decode (jb_oversize j (fh_upper (jb_header j)) (fh_lower (jb_header j))) (jb_header j) (jb_chunk j) (tp_flags (jb_tp j)) (jb_body j) (jb_values j) = Ok x)) ->
  exists es st, log_all v l (mkca [] [] []) = Ok (es, st).
Proof.
  intros S Dec H. assert (I : inv (ev_utf8 v) (ev_fs v) (fun _ => False) (mkca [] [] [])) by apply inv_start. revert I. generalize (fun _ : request => False). generalize (mkca [] [] []).
  induction l as [|j l IH]; intros st P I; cbn [log_all]; [eauto|]. inversion S as [|? ? Sj Sl]; subst.
  change (log_entry v (jb_catalog j) (jb_oversize j) (jb_chunk j) st (jb_header j) (jb_known j) (jb_tp j) (jb_body j) (jb_values j)) with (log_job v j st).
  destruct (H j (or_introl eq_refl)) as (A & B & C & D). destruct (log_job_total v j P st Sj I Dec A B C D) as (e & st1 & E). rewrite E. cbn [bind].
  destruct (log_job_ok v j P st e st1 Sj I E) as [_ I1]. destruct (IH Sl (fun j' X => H j' (or_intror X)) st1 _ I1) as (es & st2 & E2). rewrite E2. cbn [bind]. eauto.
Qed.
Print Assumptions C94_total.

(** A process without main executable has no log entries, not even of losses. *)
Theorem C94_main_refuted v j l st k : jb_known j = Some k -> kn_main k = None -> log_all v (j :: l) st = Err AttributeError.
Proof. intros K M. cbn [log_all]. unfold log_entry, process_values. rewrite K, M. reflexivity. Qed.
Print Assumptions C94_main_refuted.

(** The identifier of the process image is that of the catalog only if there is a uuidtext file. *)
Theorem C94_process_refuted v j l es st k u n e : Forall stored_job l -> log_all v l (mkca [] [] []) = Ok (es, st) -> nth_error l n = Some j -> nth_error es n = Some e ->
  jb_known j = Some k -> kn_main k = Some u -> text_file (ev_utf8 v) (ev_fs v) u None -> le_image e = None.
Proof.
  intros S H A B K M T. destruct (C94_entries v l es st S H) as [_ N]. destruct (N n j e A B) as [_ X].
  assert (Sj : stored_job j) by (rewrite Forall_forall in S; apply S; eapply nth_error_In; exact A). pose proof Sj as (_ & Sk & _). rewrite K in Sk. pose proof (text_bytes k u Sk M) as [Ub Ul].
  assert (G : forall path, process_known v (jb_known j) (le_image e) path -> le_image e = None).
  { intros path P. rewrite K in P. inversion P as [|k' u' f Mu O|k' u' Mu O]; [|reflexivity]. assert (u' = u) by congruence. subst u'. apply (text_iff _ _ u _ Ub ltac:(lia)) in O. apply (text_iff _ _ u _ Ub ltac:(lia)) in T. congruence. }
  assert (X2 : exists path, process_known v (jb_known j) (le_image e) path).
  { destruct (jb_body j); [| | | |destruct X as [_ (path & X)]; eauto]; destruct X as (o & r & _ & _ & C); exists (re_path r); apply C. }
  destruct X2 as (path & X2). exact (G path X2).
Qed.
Print Assumptions C94_process_refuted.

(** A signpost that has a name and whose address is in no image of the process has no log entry. *)
Theorem C94_signpost_refuted v j st es q : stored_job j -> name_request j q -> rq_ref q <> 0 -> strings_of q None -> log_all v [j] (mkca [] [] []) <> Ok (es, st).
Proof.
  intros S Nq R Q H. destruct (C94_entries v [j] es st (Forall_cons _ S (Forall_nil _)) H) as [L N]. destruct es as [|e [|? ?]]; try discriminate L. destruct (N 0%nat j e eq_refl eq_refl) as [_ X].
  pose proof Nq as [Rq B]. destruct (jb_body j) as [| | |c pr loc sb id tt rf lo up it|] eqn:E; try contradiction. destruct X as (o & r & _ & _ & C). pose proof (co_signpost _ _ _ _ _ _ C) as Sp.
  unfold the_signpost in Sp. rewrite E in Sp. destruct Sp as (name & scope & kind & _ & Nm & _).
  destruct (the_name_ok _ _ _ _ _ _ _ _ _ _ _ S E) as [_ Ss].
  assert (Same : forall q', name_request j q' -> rq_uuids q' = rq_uuids q /\ rq_flags q' = rq_flags q /\ rq_process q' = rq_process q /\ rq_loc q' = rq_loc q /\ rq_ref q' = rq_ref q).
  { intros q' [(A1 & A2 & A3 & A4) A5]. destruct Rq as (B1 & B2 & B3 & B4). rewrite E in *. cbn in A4, B4. destruct A5 as (l1 & u1 & L1 & U1 & R1 & _). destruct B as (l2 & u2 & L2 & U2 & R2 & _).
    apply first_one in L1, L2, U1, U2. split; [congruence|]. split; [congruence|]. split; [congruence|]. split; [congruence|]. congruence. }
  assert (Sq : stored_request q).
  { destruct (Same (the_name j)) as (E1 & E2 & E3 & E4 & E5); [apply (the_name_ok _ _ _ _ _ _ _ _ _ _ _ S E)|]. unfold stored_request in *. rewrite <- E1, <- E3, <- E4, <- E5. exact Ss. }
  inversion Nm as [q' Q1 Q2|q' i Q1 Q2 Q3]; destruct (Same q' Q1) as (E1 & E2 & E3 & E4 & E5); [congruence|].
  destruct Q3 as (u & text & q2 & t2 & G & _). assert (G' : strings_of q (Some (u, text))).
  { inversion G as [k' u' T P M|b k' u' T P M|k' pre e' post u' up' T P Fs El Hs Fl Nt|k' up' T P Fs Fl|u' T U]; subst; rewrite ?E1, ?E2, ?E3, ?E4 in *;
      [eapply so_main|eapply so_dsc|eapply so_absolute|eapply so_own]; eassumption. }
  pose proof (strings_of_fun q _ _ Sq Q G') as Z. discriminate Z.
Qed.
Print Assumptions C94_signpost_refuted.

(** The message of a tracepoint depends on those before it: with the reference 0x10 it is that of the
    string in the file, unless the dynamic reference 0x80000010 comes before it. *)
Definition shows (data : option bytes) (op : option operator) : result str := Ok (match data with Some d => map (fun b => b + 48) d | None => [] end).
Definition case_v : environment := mkev Some case_fs (repeat 7 16) (fun t => t * 2) (fun n => Some shows).
Definition case_job (record log flags format : Z) (b : body) (values : bytes) : job :=
  mkjob None (fun _ _ _ => None) (repeat 0 48) (mkfh 5 6 48 4096 1000) case_known (mktp record log flags format 8 500 1 []) b values.
Definition case_loc : location := mkloc 0x2000 None None None None.

Theorem C94_order_refuted :
  let job format := case_job 4 0 2 format (Log None None case_loc None None None [TInline 0 [4]]) [] in
  let messages l := match log_all case_v l (mkca [] [] []) with Ok (es, _) => map le_message es | Err _ => [] end in
  messages [job 0x10] = [s2z "4 items"%string] /\ messages [job 0x80000010; job 0x10] = [s2z "4"%string; s2z "4"%string].
Proof. vm_compute. split; reflexivity. Qed.
Print Assumptions C94_order_refuted.

(** A log message, an activity, a signpost and a loss; a signpost whose address is in no image. *)
Example C94_case :
  (match log_all case_v [case_job 4 0x11 3 0x19 (Log (Some (2 ^ 63 + 9)) None case_loc (Some 3) (Some 14) None [TRange 0x22 0 2]) [1; 2];
                        case_job 2 1 2 0x10 (Activity (Some 5) None (Some 6) (Some 7) case_loc) [];
                        case_job 6 0x81 0x8002 0x10 (Signpost None None case_loc None 42 None None (Some 0x19) None [TInline 0 [1]]) [];
                        case_job 7 0 0 0 (Loss 11 12 13) []] (mkca [] [] []) with
   | Ok ([a; b; c; d], _) =>
       le_message a = s2z "12 failed"%string /\ le_mach a = 2 ^ 32 + 1500 /\ le_time a = 2 * (2 ^ 32 + 1500) /\ le_trace a = 0x1900031104 /\ le_event a = Some (s2z "logEvent"%string) /\
       le_image a = Some (repeat 0xa1 16) /\
       option_map re_type (le_rest a) = Some (Some (s2z "Fault"%string)) /\ option_map re_activity (le_rest a) = Some 9 /\ option_map re_ttl (le_rest a) = Some 14 /\
       option_map re_frames (le_rest a) = Some [(repeat 0xa1 16, 0x2000)] /\
       le_message b = s2z "<decode: missing data> items"%string /\ option_map re_creator (le_rest b) = Some (Some 5) /\ option_map re_parent (le_rest b) = Some (Some 6) /\ option_map re_activity (le_rest b) = Some 7 /\
       option_map re_signpost (le_rest c) = Some (Some (42, Some (s2z "%s failed"%string), Some (s2z "process"%string), Some (s2z "begin"%string))) /\
       le_message d = s2z "lost >=13 unreliable messages from 11-12 (Mach continuous exact start-approx. end)"%string /\ le_loss d = Some (13, (11, 22), (12, 24))
   | _ => False
   end) /\
  log_all case_v [case_job 6 0x81 0x8008 0x10 (Signpost None None case_loc None 42 None None (Some 0x19) None []) []] (mkca [] [] []) = Err AttributeError.
Proof. vm_compute. repeat split. Qed.

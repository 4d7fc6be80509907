From Verif Require Import Base BaseFacts BitFacts SeqSpec CoreModel StrModel StrFacts FmtModel FmtSpec FmtProofs FmtProps DictModel RdModel TvModel TvSpec AulModel AulSpec AulProofs CatModel CatSpec FhModel FhSpec FhProofs FvModel ImModel ImSpec ImProofs LeModel LeSpec.
From Coq Require String.
Import String.StringSyntax.

(** ** Decoding *)

Lemma opt_str_text o : opt_str o = opt_text o.
Proof. destruct o; reflexivity. Qed.

Lemma decode_value_ok v o k data :
  decoded v o k data (decode_value (ev_decoders v) (match o with Some i => Some (parse_format_string (opt_str (im_string i))) | None => None end) (Z.of_nat k) data).
Proof.
  unfold decode_value. destruct o as [i|]; [|apply de_no_image; reflexivity]. rewrite Nat2Z.id, opt_str_text.
  destruct (toks_exist (opt_text (im_string i))) as (l & Hok & Ht). rewrite <- Ht. destruct (C38_operators l Hok) as (L1 & L2 & O). destruct (nth_error (convs l) k) as [c|] eqn:C.
  - destruct (decoders_exist (cv_annotation c) (cv_specifier c)) as (d & D). pose proof (C38_decoders l k c d Hok C D) as N. rewrite N. destruct d as [|n ns].
    + eapply de_no_decoder; [reflexivity|exact Hok|exact Ht|exact C|exact D].
    + destruct (ev_decoders v n) as [f|] eqn:E.
      * destruct (O k c C) as (op & On & O1 & O2 & O3 & O4). rewrite On.
        assert (op = {| op_flags := cv_flags c; op_precision := opt_text (cv_precision c); op_specifier := cv_specifier c; op_width := opt_text (cv_width c) |}) as -> by (destruct op; cbn in *; congruence).
        eapply de_decoder; [reflexivity|exact Hok|exact Ht|exact C|exact D|exact E].
      * eapply de_unsupported; [reflexivity|exact Hok|exact Ht|exact C|exact D|exact E].
  - assert (N : nth_error (fm_decoders (parse_format_string (toks_text l))) k = None).
    { apply nth_error_None. rewrite L2. apply nth_error_None. exact C. }
    rewrite N. eapply de_no_conversion; [reflexivity|exact Hok|exact Ht|exact C].
Qed.

Lemma message_ok s vs : exists l, toks_ok l /\ toks_text l = opt_text s /\ format_string (parse_format_string (opt_str s)) vs = Ok (fill l vs).
Proof. destruct (C38_total (opt_text s)) as (l & H1 & H2 & H3). exists l. split; [exact H1|]. split; [exact H2|]. exact (H3 vs). Qed.

(** ** Names *)

Ltac not_in := let H := fresh in intros ? H; cbn [In] in H; repeat (destruct H as [H|H]; [inversion H; congruence|]); exact H.

Lemma event_type_ok tp : event_name (tp_record tp) (tp_log tp) (event_type tp).
Proof.
  unfold event_type, event_name. destruct (Z.eqb_spec (tp_record tp) 2) as [E|N]; split; intros H; try contradiction; cbn [table].
  - rewrite E. destruct (Z.eqb_spec 1 (tp_log tp)) as [<-|]; [eexists; split; [left; reflexivity|reflexivity]|].
    destruct (Z.eqb_spec 3 (tp_log tp)) as [<-|]; [eexists; split; [right; left; reflexivity|reflexivity]|]. not_in.
  - destruct (Z.eqb_spec 4 (tp_record tp)) as [<-|]; [eexists; split; [right; left; reflexivity|reflexivity]|].
    destruct (Z.eqb_spec 7 (tp_record tp)) as [<-|]; [eexists; split; [right; right; right; left; reflexivity|reflexivity]|].
    destruct (Z.eqb_spec 6 (tp_record tp)) as [<-|]; [eexists; split; [right; right; left; reflexivity|reflexivity]|].
    destruct (Z.eqb_spec 3 (tp_record tp)) as [<-|]; [eexists; split; [left; reflexivity|reflexivity]|]. not_in.
Qed.

Lemma log_types_ok log : log_name log (table log_types log).
Proof.
  pose proof (Z.div_mod log 16 ltac:(lia)) as D. unfold log_types. cbn [table].
  repeat match goal with |- context [?a =? log] => destruct (Z.eqb_spec a log) as [<-|]; [eexists; split; [|reflexivity]; cbn; tauto|] end.
  intros t H. cbn [In] in H. repeat (destruct H as [H|H]; [inversion H; lia|]). exact H.
Qed.

Lemma scopes_ok log : scope_name log (table scopes (Z.shiftr log 4)).
Proof.
  unfold scope_name, scopes. rewrite Z.shiftr_div_pow2 by lia. change (2 ^ 4) with 16. set (x := log / 16). cbn [table].
  destruct (Z.eqb_spec 4 x) as [<-|]; [eexists; split; [left; reflexivity|reflexivity]|]. destruct (Z.eqb_spec 8 x) as [<-|]; [eexists; split; [right; left; reflexivity|reflexivity]|].
  destruct (Z.eqb_spec 12 x) as [<-|]; [eexists; split; [right; right; left; reflexivity|reflexivity]|]. not_in.
Qed.

Lemma signpost_types_ok log : signpost_kind log (table signpost_types (Z.land log 0x0f)).
Proof.
  unfold signpost_kind, signpost_types. change 0x0f with (Z.ones 4). rewrite Z.land_ones by lia. change (2 ^ 4) with 16. set (x := log mod 16). cbn [table].
  destruct (Z.eqb_spec 0 x) as [<-|]; [eexists; split; [left; reflexivity|reflexivity]|]. destruct (Z.eqb_spec 1 x) as [<-|]; [eexists; split; [right; left; reflexivity|reflexivity]|].
  destruct (Z.eqb_spec 2 x) as [<-|]; [eexists; split; [right; right; left; reflexivity|reflexivity]|]. not_in.
Qed.

Lemma mask_ok a : Z.land a activity_mask = a mod 2 ^ 63.
Proof. change activity_mask with (Z.ones 63). apply Z.land_ones. lia. Qed.

(** ** Requests *)

Lemma gives_mono utf8 fs (P Q : request -> Prop) q o : (forall x, P x -> Q x) -> gives utf8 fs P q o -> gives utf8 fs Q q o.
Proof. intros H G. destruct o as [i|]; [|exact G]. destruct G as (u & text & q' & t' & G1 & G2 & G3). exists u, text, q', t'. auto. Qed.

Lemma inv_mono utf8 fs (P Q : request -> Prop) st : (forall x, P x -> Q x) -> inv utf8 fs P st -> inv utf8 fs Q st.
Proof.
  intros H (F & L & A). split; [exact F|]. split; [exact L|]. eapply Forall_impl; [|exact A]. cbn beta. intros x (q' & w & t & H1 & H2 & H3). exists q', w, t. auto.
Qed.

Lemma name_nonneg lower upper : opt_in 32 lower -> opt_in 16 upper -> 0 <= or0 lower < 2 ^ 32 /\ 0 <= or0 upper < 2 ^ 16.
Proof. intros A B. split; apply opt_or0; (lia || assumption). Qed.

Lemma location_of_body b : ~ is_loss b -> location_of b (body_location b).
Proof. destruct b; cbn; auto. Qed.
Lemma location_of_fun b l : location_of b l -> l = body_location b.
Proof. destruct b; cbn; auto. contradiction. Qed.

Definition request_for (j : job) (r : Z) (dynamic : bool) : request :=
  mkrq (catalog_uuids (jb_catalog j)) (tp_flags (jb_tp j)) (jb_known j) (body_location (jb_body j)) r dynamic.

Lemma request_for_of j r d : ~ is_loss (jb_body j) -> request_of j (request_for j r d).
Proof. intros N. unfold request_of, request_for. cbn. repeat split; try reflexivity. apply location_of_body, N. Qed.

Lemma request_for_stored j r d : stored_job j -> ~ is_loss (jb_body j) -> 0 <= r -> stored_request (request_for j r d).
Proof.
  intros (C & K & (L & _) & _) N R. unfold stored_request, request_for. cbn. split; [unfold catalog_uuids; destruct (jb_catalog j); [exact C|constructor]|].
  split; [apply L, location_of_body, N|]. split; [exact R|]. exact K.
Qed.

Definition the_format (j : job) : request :=
  request_for j (fst (format_reference (body_location (jb_body j)) (tp_format (jb_tp j)))) (snd (format_reference (body_location (jb_body j)) (tp_format (jb_tp j)))).

Lemma first_exists l : exists v, first_set l v.
Proof.
  induction l as [|[v|] l (w & IH)]; [exists 0; constructor| |exists w; apply fs_next; [left; reflexivity|exact IH]].
  destruct (Z.eq_dec v 0) as [->|N]; [exists w; apply fs_next; [right; reflexivity|exact IH]|exists v; apply fs_this; exact N].
Qed.

Lemma first_nonneg l v : Forall nonnegative l -> first_set l v -> 0 <= v.
Proof.
  intros F H. induction H as [|w l N|o l w N H IH]; [lia| |inversion F; auto]. inversion F; subst. assumption.
Qed.

Lemma the_format_ok j : stored_job j -> ~ is_loss (jb_body j) -> format_request j (the_format j) /\ stored_request (the_format j).
Proof.
  intros S N. pose proof S as (_ & _ & (L & _) & _ & _ & _ & Hf & _). set (loc := body_location (jb_body j)).
  destruct (first_exists [lo_shared loc; lo_large loc]) as (upper & U). pose proof (format_reference_ok loc (tp_format (jb_tp j)) upper Hf U) as R.
  destruct (L _ (location_of_body _ N)) as [(_ & Lg & _ & Ls) _]. fold loc in Lg, Ls.
  assert (Nn : 0 <= upper). { apply (first_nonneg [lo_shared loc; lo_large loc]); [|exact U]. constructor; [destruct (lo_shared loc); cbn in *; lia|]. constructor; [destruct (lo_large loc); cbn in *; lia|constructor]. }
  split.
  - split; [apply request_for_of, N|]. exists upper. split; [exact U|exact R].
  - apply request_for_stored; [exact S|exact N|]. fold loc. destruct R as [E _]. rewrite E. pose proof (Z.mod_pos_bound (tp_format (jb_tp j)) (2 ^ 31) ltac:(lia)). lia.
Qed.

Lemma text_bytes k u : stored_known (Some k) -> kn_main k = Some u -> is_uuid u.
Proof. intros (M & _) E. rewrite E in M. exact M. Qed.

Lemma process_values_ok v k (P : request -> Prop) st : stored_known k -> inv (ev_utf8 v) (ev_fs v) P st ->
  match process_values v k st with
  | Ok (image, path, st') => process_known v k image path /\ inv (ev_utf8 v) (ev_fs v) P st'
  | Err _ => forall image path, ~ process_known v k image path
  end.
Proof.
  intros S (F & L & A). unfold process_values. destruct k as [k|]; [|split; [constructor|exact (conj F (conj L A))]].
  destruct (kn_main k) as [u|] eqn:M; [|intros image path X; inversion X; congruence].
  pose proof (text_bytes k u S M) as [Ub Ul]. pose proof (get_text_ok (ev_utf8 v) (ev_fs v) u st F) as G.
  destruct (get_text (ev_utf8 v) (ev_fs v) u st) as [[f st']|e]; cbn [bind].
  - destruct G as (O & F' & C). apply (text_iff _ _ u _ Ub ltac:(lia)) in O. destruct f as [f|].
    + split; [eapply pk_file; [exact M|exact O]|]. split; [exact F'|]. rewrite C. exact (conj L A).
    + split; [eapply pk_missing; [exact M|exact O]|]. split; [exact F'|]. rewrite C. exact (conj L A).
  - intros image path X. inversion X as [|k' u' f Mu O|k' u' Mu O]; subst; assert (u' = u) as -> by congruence; apply (text_iff _ _ u _ Ub ltac:(lia)) in O; congruence.
Qed.

Definition name_reference_of (b : body) : Z * bool :=
  match b with Signpost _ _ _ _ _ _ _ lower upper _ => name_reference lower upper | _ => (0, false) end.

Definition the_name (j : job) : request := request_for j (fst (name_reference_of (jb_body j))) (snd (name_reference_of (jb_body j))).

Lemma the_name_ok j current private l sub id ttl ref lower upper items : stored_job j -> jb_body j = Signpost current private l sub id ttl ref lower upper items ->
  name_request j (the_name j) /\ stored_request (the_name j).
Proof.
  intros S E. assert (N : ~ is_loss (jb_body j)) by (rewrite E; cbn; auto). pose proof S as (_ & _ & (L & B) & _). rewrite E in B. destruct B as (_ & B1 & B2).
  destruct (name_nonneg lower upper B1 B2) as [N1 N2]. assert (F1 : first_set [lower] (or0 lower)) by (apply first_one; reflexivity). assert (F2 : first_set [upper] (or0 upper)) by (apply first_one; reflexivity).
  pose proof (name_reference_ok lower upper (or0 lower) (or0 upper) N1 F1 F2) as R. unfold the_name. rewrite E. cbn [name_reference_of]. split.
  - split; [apply request_for_of, N|]. rewrite E. exists (or0 lower), (or0 upper). auto.
  - apply request_for_stored; [exact S|exact N|]. destruct R as [-> _]. pose proof (Z.mod_pos_bound (or0 lower) (2 ^ 31) ltac:(lia)). lia.
Qed.

Definition after (P : request -> Prop) (j : job) : request -> Prop := fun q => P q \/ asks j q.

Definition make (v : environment) (j : job) (image : option bytes) : str -> option (Z * (Z * Z) * (Z * Z)) -> option rest -> entry :=
  mkle (ev_boot v) (tp_time (jb_header j) (jb_tp j)) image (tp_thread (jb_tp j)) (ev_time v (tp_time (jb_header j) (jb_tp j)))
    (trace_identifier (tp_format (jb_tp j)) (tp_flags (jb_tp j)) (tp_log (jb_tp j)) (tp_record (jb_tp j))) (event_type (jb_tp j)).

Lemma general_ok v j image message loss rest : stored_job j -> general v j (make v j image message loss rest).
Proof.
  intros (_ & _ & _ & H1 & H2 & H3 & H4 & H5 & H6). unfold n8, n16, n32 in *. unfold make. constructor; cbn [le_boot le_mach le_time le_thread le_trace le_event]; try reflexivity.
  - unfold tp_time. rewrite LdbProofs.lor_add_shift by lia. lia.
  - rewrite trace_identifier_sum by (unfold u; change (256 ^ Z.of_nat 1) with (2 ^ 8); change (256 ^ Z.of_nat 2) with (2 ^ 16); change (256 ^ Z.of_nat 4) with (2 ^ 32); lia). lia.
  - apply event_type_ok.
Qed.

Lemma address_of loc text : stored_location loc -> exists a, load_address loc a /\ program_counter loc text = a - text.
Proof.
  intros S. assert (P : 0 <= program_counter loc 0).
  { unfold program_counter. rewrite base_address by exact S. destruct S as (Hl & Hg & Hu & Hs). pose proof (opt_or0 16 _ ltac:(lia) Hg) as G. pose proof (opt_or0 16 _ ltac:(lia) Hu) as U. pose proof (opt_or0 16 _ ltac:(lia) Hs) as Sh.
    rewrite Z.sub_0_r. assert (forall v s, 0 <= v -> 0 <= Z.lor (lo_lower loc + 2 ^ 32 * or0 (lo_upper loc)) (Z.shiftl v s)) as N.
    { intros v s Hv. apply Z.lor_nonneg. split; [lia|]. apply Z.shiftl_nonneg. exact Hv. }
    destruct (truthy (lo_shared loc)); [destruct (truthy (lo_large loc) && negb (or0 (lo_large loc) =? Z.shiftr (or0 (lo_shared loc)) 1))|destruct (truthy (lo_large loc))]; try (apply N; lia); lia. }
  exists (program_counter loc 0). assert (A : load_address loc (program_counter loc 0)) by (apply (program_counter_ok loc 0); [exact S|exact P|lia]). split; [exact A|]. apply program_counter_ok; assumption.
Qed.

(** The part of [log_entry] behind the image. *)
Definition with_image (v : environment) (j : job) (pi : option bytes) (path : option str) (i : option image) (st : caches) : result (entry * caches) :=
  let b := jb_body j in let tp := jb_tp j in let k := jb_known j in let h := jb_header j in let loc := body_location b in
  let f := match i with Some i => Some (parse_format_string (opt_str (im_string i))) | None => None end in
  do (fs, vs) <- fh_values (decode_value (ev_decoders v) f) (jb_oversize j (fh_upper h) (fh_lower h)) h (jb_chunk j) (tp_flags tp) b (jb_values j);
  let (category, sub) := match jb_catalog j with Some cs => sub_system cs k (body_sub b) | None => (None, None) end in
  let pc := program_counter loc (match i with Some i => im_text i | None => 0 end) in
  let frames := match fs, i with [], Some i => [(im_id i, pc)] | _, _ => fs end in
  do (signpost, st) <- match b with
                       | Signpost _ _ _ _ id _ _ lower upper _ =>
                           do (name, st) <- signpost_name v (jb_catalog j) k tp loc lower upper st;
                           Ok (Some (id, name, table scopes (Z.shiftr (tp_log tp) 4), table signpost_types (Z.land (tp_log tp) 0x0f)), st)
                       | _ => Ok (None, st)
                       end;
  do message <- match f with Some f => format_string f vs | None => Ok (s2z "<compose failure [missing precomposed log]>"%string) end;
  Ok (make v j pi message None (Some (mkre frames category
    (match i with Some i => im_string i | None => None end)
    (match k with Some k => pr_pid (kn_process k) | None => 0 end) path
    (match i with Some i => Some (im_id i) | None => None end)
    (match i with Some i => im_path i | None => None end) pc sub (or0 (body_ttl b))
    (match b with Signpost _ _ _ _ _ _ _ _ _ _ => None | _ => table log_types (tp_log tp) end)
    (Z.land (match b with Activity _ _ _ new _ => or0 new | _ => or0 (body_current b) end) activity_mask)
    (match b with Activity current _ _ _ _ => if tp_log tp =? 0x01 then Some (or0 current) else None | _ => None end)
    (match b with Activity _ _ other _ _ => Some (Z.land (or0 other) activity_mask) | _ => None end)
    signpost)), st).

Definition log_job (v : environment) (j : job) (st : caches) : result (entry * caches) :=
  log_entry v (jb_catalog j) (jb_oversize j) (jb_chunk j) st (jb_header j) (jb_known j) (jb_tp j) (jb_body j) (jb_values j).

Lemma log_job_loss v j st start stop count : jb_body j = Loss start stop count ->
  log_job v j st = do (image, path, st) <- process_values v (jb_known j) st;
                   Ok (make v j image (loss_message count start stop) (Some (count, (start, ev_time v start), (stop, ev_time v stop))) None, st).
Proof. intros E. unfold log_job, log_entry. rewrite E. destruct (process_values v (jb_known j) st) as [[[image path] st']|e]; reflexivity. Qed.

Lemma log_job_other v j st : ~ is_loss (jb_body j) ->
  log_job v j st = do (image, path, st) <- process_values v (jb_known j) st;
                   let q := the_format j in
                   do (i, st) <- get_image (ev_utf8 v) (ev_fs v) (rq_uuids q) (rq_process q) (rq_flags q) (rq_loc q) (rq_ref q) (rq_dynamic q) st;
                   with_image v j image path i st.
Proof.
  intros N. unfold log_job, log_entry, with_image, the_format, request_for, make. cbn [rq_uuids rq_process rq_flags rq_loc rq_ref rq_dynamic].
  destruct (process_values v (jb_known j) st) as [[[image path] st']|e]; cbn [bind]; [|reflexivity].
  destruct (jb_body j); try (exfalso; apply N; exact I); cbv zeta; destruct (format_reference _ (tp_format (jb_tp j))) as [r d]; reflexivity.
Qed.

Lemma signpost_name_ok v j (P : request -> Prop) current private l sub id ttl ref lower upper items st : stored_job j -> jb_body j = Signpost current private l sub id ttl ref lower upper items ->
  inv (ev_utf8 v) (ev_fs v) P st ->
  match signpost_name v (jb_catalog j) (jb_known j) (jb_tp j) (body_location (jb_body j)) lower upper st with
  | Ok (name, st') => name_of v (after P j) j name /\ inv (ev_utf8 v) (ev_fs v) (after P j) st'
  | Err _ => rq_ref (the_name j) <> 0 /\ forall u text i, strings_of (the_name j) (Some (u, text)) -> ~ image_for (ev_utf8 v) (ev_fs v) (the_name j) u text i
  end.
Proof.
  intros S E I. destruct (the_name_ok _ _ _ _ _ _ _ _ _ _ _ S E) as [Nr Sr]. assert (R : name_reference lower upper = (rq_ref (the_name j), rq_dynamic (the_name j))).
  { unfold the_name, request_for. rewrite E. cbn [rq_ref rq_dynamic name_reference_of]. destruct (name_reference lower upper); reflexivity. }
  unfold signpost_name. rewrite R. destruct (Z.eqb_spec (rq_ref (the_name j)) 0) as [Z0|NZ].
  - split; [eapply no_name; eassumption|]. eapply inv_mono; [|exact I]. intros x Hx. left. exact Hx.
  - pose proof (get_image_step (ev_utf8 v) (ev_fs v) P (after P j) (the_name j) st Sr (fun x H => or_introl H) (or_intror (or_intror Nr)) I) as G.
    unfold the_name at 1 2 3 4 in G. unfold request_for in G. cbn [rq_uuids rq_process rq_flags rq_loc] in G.
    destruct (get_image (ev_utf8 v) (ev_fs v) (catalog_uuids (jb_catalog j)) (jb_known j) (tp_flags (jb_tp j)) (body_location (jb_body j)) (rq_ref (the_name j)) (rq_dynamic (the_name j)) st) as [[[i|] st']|e]; cbn [bind].
    + destruct G as [G I']. split; [eapply no_image; eassumption|exact I'].
    + destruct G as [G I']. split; [exact NZ|]. intros u text i H. pose proof (strings_of_fun _ _ _ Sr G H) as X. discriminate X.
    + destruct G as [_ G]. split; [exact NZ|]. intros u text i H. apply G. exact H.
Qed.

Lemma with_image_ok v j (P : request -> Prop) image path i st : stored_job j -> ~ is_loss (jb_body j) -> process_known v (jb_known j) image path ->
  gives (ev_utf8 v) (ev_fs v) (after P j) (the_format j) i -> inv (ev_utf8 v) (ev_fs v) (after P j) st ->
  forall e st', with_image v j image path i st = Ok (e, st') -> made v (after P j) j e /\ inv (ev_utf8 v) (ev_fs v) (after P j) st'.
Proof.
  intros S N K G I e st' H. destruct (the_format_ok j S N) as [Fr Sr]. pose proof S as (_ & _ & (L & Bd) & _). destruct (L _ (location_of_body _ N)) as [Sl _].
  unfold with_image in H. cbv zeta in H.
  destruct (fh_values _ _ _ _ _ _ _) as [[fs vs]|x] eqn:V in H; cbn [bind] in H; [|discriminate].
  destruct (match jb_catalog j with Some cs => sub_system cs (jb_known j) (body_sub (jb_body j)) | None => (None, None) end) as [category sub] eqn:Cs.
  set (pc := program_counter (body_location (jb_body j)) (match i with Some i => im_text i | None => 0 end)) in *.
  destruct (match jb_body j with
            | Signpost _ _ _ _ id _ _ lower upper _ =>
                do (name, st) <- signpost_name v (jb_catalog j) (jb_known j) (jb_tp j) (body_location (jb_body j)) lower upper st;
                Ok (Some (id, name, table scopes (Z.shiftr (tp_log (jb_tp j)) 4), table signpost_types (Z.land (tp_log (jb_tp j)) 0x0f)), st)
            | _ => Ok (None, st)
            end) as [[signpost st2]|x] eqn:Sp in H; cbn [bind] in H; [|discriminate].
  assert (M : exists message, (match (match i with Some i => Some (parse_format_string (opt_str (im_string i))) | None => None end) with
             | Some f => format_string f vs | None => Ok (s2z "<compose failure [missing precomposed log]>"%string) end) = Ok message /\
             match i with None => message = s2z "<compose failure [missing precomposed log]>"%string
             | Some i => exists l, toks_ok l /\ toks_text l = opt_text (im_string i) /\ message = fill l vs end).
  { destruct i as [i|]; [|eexists; split; reflexivity]. destruct (message_ok (im_string i) vs) as (l & H1 & H2 & H3). exists (fill l vs). split; [exact H3|]. exists l. auto. }
  destruct M as (message & M1 & M2). rewrite M1 in H. cbn [bind] in H. injection H as He Hs. subst st2.
  assert (Sg : (exists type, the_signpost v (after P j) j signpost type /\ type = match jb_body j with Signpost _ _ _ _ _ _ _ _ _ _ => None | _ => table log_types (tp_log (jb_tp j)) end) /\
               inv (ev_utf8 v) (ev_fs v) (after P j) st').
  { destruct (jb_body j) as [a1 a2 a3 a4 a5|a1 a2|a1 a2 a3 a4 a5 a6 a7|c pr l sb id tt rf lo up it|a1 a2 a3] eqn:B; try (exfalso; apply N; exact Logic.I).
    1-3: assert (signpost = None /\ st' = st) as [-> ->] by (split; congruence); split; [|exact I]; eexists; split; [|reflexivity]; unfold the_signpost; rewrite B; split; [reflexivity|apply log_types_ok].
    assert (I2 : inv (ev_utf8 v) (ev_fs v) (after P j) st) by exact I.
    pose proof (signpost_name_ok v j (after P j) _ _ _ _ _ _ _ _ _ _ st S B I2) as Nm. rewrite B in Nm.
    destruct (signpost_name v (jb_catalog j) (jb_known j) (jb_tp j) (body_location (Signpost c pr l sb id tt rf lo up it)) lo up st) as [[name st3]|x]; cbn [bind] in Sp; [|discriminate].
    assert (st' = st3) as -> by congruence. assert (signpost = Some (id, name, table scopes (Z.shiftr (tp_log (jb_tp j)) 4), table signpost_types (Z.land (tp_log (jb_tp j)) 15))) as -> by congruence.
    destruct Nm as [Nm I3]. assert (Mn : forall x, after (after P j) j x -> after P j x) by (intros x [H|H]; [exact H|right; exact H]). split; [|eapply inv_mono; [exact Mn|exact I3]].
    exists None. split; [|reflexivity]. unfold the_signpost. rewrite B. do 3 eexists. split; [reflexivity|]. split; [|split; [apply scopes_ok|split; [apply signpost_types_ok|reflexivity]]].
    destruct Nm as [q Q1 Q2|q i' Q1 Q2 Q3]; [eapply no_name; eassumption|eapply no_image; [exact Q1|exact Q2|eapply gives_mono; [exact Mn|exact Q3]]]. }
  destruct Sg as [(type & Sg & ->) I']. split; [|exact I']. split; [subst e; apply general_ok; exact S|].
  assert (X : exists o r, le_loss e = None /\ le_rest e = Some r /\ content v (after P j) j e o r).
  { exists i. eexists. subst e. split; [reflexivity|]. split; [reflexivity|]. constructor; cbn [re_frames re_pc le_message re_format re_sender re_sender_path le_image re_path re_pid re_category re_sub re_ttl re_activity re_creator re_parent re_signpost re_type make].
    - exists (the_format j). split; [exact Fr|exact G].
    - eexists. exists fs, vs. split; [intros k data; apply decode_value_ok|]. split; [exact V|]. split; [intros Nf; destruct fs; [contradiction|reflexivity]|]. split; [intros ->; destruct i; reflexivity|]. exact M2.
    - destruct (address_of _ (match i with Some i => im_text i | None => 0 end) Sl) as (a & A1 & A2). exists (body_location (jb_body j)), a. split; [apply location_of_body, N|]. split; [exact A1|exact A2].
    - unfold image_string. reflexivity.
    - reflexivity.
    - reflexivity.
    - exact K.
    - reflexivity.
    - rewrite !mask_ok. destruct (jb_body j) as [a1 a2 a3 a4 a5|a1 a2|a1 a2 a3 a4 a5 a6 a7|c pr l sb id tt rf lo up it|a1 a2 a3] eqn:B; try (exfalso; apply N; exact Logic.I); cbn [body_sub body_ttl body_current] in *.
      + destruct (Z.eqb_spec (tp_log (jb_tp j)) 1) as [El|El].
        * exists None, None, a4, (Some a1), (Some a3), (or0 a4), 0. split; [apply mb_create; exact El|]. split; [symmetry; exact Cs|]. split; [apply first_one; reflexivity|]. split; [reflexivity|].
          split; [apply first_one; reflexivity|]. split; [reflexivity|]. split; [exists (or0 a1); split; [apply first_one; reflexivity|reflexivity]|exists (or0 a3); split; [apply first_one; reflexivity|rewrite mask_ok; reflexivity]].
        * exists None, None, a4, None, (Some a3), (or0 a4), 0. split; [apply mb_activity; exact El|]. split; [symmetry; exact Cs|]. split; [apply first_one; reflexivity|]. split; [reflexivity|].
          split; [apply first_one; reflexivity|]. split; [reflexivity|]. split; [reflexivity|exists (or0 a3); split; [apply first_one; reflexivity|rewrite mask_ok; reflexivity]].
      + exists None, None, None, None, None, 0, 0. split; [apply mb_trace|]. split; [symmetry; exact Cs|]. split; [apply first_one; reflexivity|]. split; [reflexivity|].
        split; [apply first_one; reflexivity|]. split; [reflexivity|]. split; reflexivity.
      + exists a4, a5, a1, None, None, (or0 a1), (or0 a5). split; [apply mb_log|]. split; [symmetry; exact Cs|]. split; [apply first_one; reflexivity|]. split; [reflexivity|].
        split; [apply first_one; reflexivity|]. split; [reflexivity|]. split; reflexivity.
      + exists sb, tt, c, None, None, (or0 c), (or0 tt). split; [apply mb_signpost|]. split; [symmetry; exact Cs|]. split; [apply first_one; reflexivity|]. split; [reflexivity|].
        split; [apply first_one; reflexivity|]. split; [reflexivity|]. split; reflexivity.
    - exact Sg. }
  destruct (jb_body j); try exact X. exfalso. apply N. exact Logic.I.
Qed.

Lemma log_job_ok v j (P : request -> Prop) st e st' : stored_job j -> inv (ev_utf8 v) (ev_fs v) P st -> log_job v j st = Ok (e, st') ->
  made v (after P j) j e /\ inv (ev_utf8 v) (ev_fs v) (after P j) st'.
Proof.
  intros S I H. pose proof S as (_ & Sk & _). pose proof (process_values_ok v (jb_known j) P st Sk I) as Pv.
  assert (D : is_loss (jb_body j) \/ ~ is_loss (jb_body j)) by (destruct (jb_body j); cbn; auto). destruct D as [D|D].
  - destruct (jb_body j) as [| | | |start stop count] eqn:B; try contradiction. rewrite (log_job_loss v j st _ _ _ B) in H.
    destruct (process_values v (jb_known j) st) as [[[image path] st1]|x]; cbn [bind] in H; [|discriminate]. destruct Pv as [K I1]. injection H as <- <-. split.
    + split; [apply general_ok; exact S|]. rewrite B. split; [split; [reflexivity|split; reflexivity]|]. exists path. exact K.
    + eapply inv_mono; [|exact I1]. intros x Hx. left. exact Hx.
  - rewrite (log_job_other v j st D) in H. destruct (process_values v (jb_known j) st) as [[[image path] st1]|x]; cbn [bind] in H; [|discriminate]. destruct Pv as [K I1]. cbv zeta in H.
    destruct (the_format_ok j S D) as [Fr Sr].
    pose proof (get_image_step (ev_utf8 v) (ev_fs v) P (after P j) (the_format j) st1 Sr (fun x H => or_introl H) (or_intror (or_introl Fr)) I1) as G.
    destruct (get_image _ _ _ _ _ _ _ _ st1) as [[i st2]|x]; cbn [bind] in H; [|discriminate]. destruct G as [G I2]. eapply with_image_ok; eassumption.
Qed.

Lemma made_mono v (P Q : request -> Prop) j e : (forall x, P x -> Q x) -> made v P j e -> made v Q j e.
Proof.
  intros H [G M]. split; [exact G|]. assert (Nm : forall name, name_of v P j name -> name_of v Q j name).
  { intros name [q Q1 Q2|q i' Q1 Q2 Q3]; [eapply no_name; eassumption|eapply no_image; [exact Q1|exact Q2|eapply gives_mono; [exact H|exact Q3]]]. }
  assert (X : (exists o r, le_loss e = None /\ le_rest e = Some r /\ content v P j e o r) -> exists o r, le_loss e = None /\ le_rest e = Some r /\ content v Q j e o r).
  { intros (o & r & H1 & H2 & [Ci C1 C2 C3 C4 C5 C6 C7 C8 Csp]). exists o, r. split; [exact H1|]. split; [exact H2|]. constructor; try assumption.
    - destruct Ci as (q & Q1 & Q2). exists q. split; [exact Q1|eapply gives_mono; [exact H|exact Q2]].
    - unfold the_signpost in *. destruct (jb_body j); try assumption. destruct Csp as (name & scope & kind & S1 & S2 & S3). exists name, scope, kind. auto. }
  destruct (jb_body j); auto.
Qed.

Lemma log_all_ok v l : forall (P : request -> Prop) st es st', Forall stored_job l -> inv (ev_utf8 v) (ev_fs v) P st -> log_all v l st = Ok (es, st') ->
  length es = length l /\ inv (ev_utf8 v) (ev_fs v) (fun q => P q \/ exists j, In j l /\ asks j q) st' /\
  forall n j e, nth_error l n = Some j -> nth_error es n = Some e -> made v (fun q => P q \/ exists j', In j' (firstn (S n) l) /\ asks j' q) j e.
Proof.
  induction l as [|j l IH]; intros P st es st' S I H; cbn [log_all] in H.
  - assert (es = [] /\ st' = st) as [-> ->] by (split; congruence). split; [reflexivity|]. split; [eapply inv_mono; [|exact I]; intros x Hx; left; exact Hx|]. intros [|n] j e X; discriminate.
  - inversion S as [|? ? Sj Sl]; subst. change (log_entry v (jb_catalog j) (jb_oversize j) (jb_chunk j) st (jb_header j) (jb_known j) (jb_tp j) (jb_body j) (jb_values j)) with (log_job v j st) in H.
    destruct (log_job v j st) as [[e st1]|x] eqn:E; cbn [bind] in H; [|discriminate]. destruct (log_all v l st1) as [[es' st2]|x] eqn:El; cbn [bind] in H; [|discriminate].
    assert (es = e :: es' /\ st' = st2) as [-> ->] by (split; congruence). destruct (log_job_ok v j P st e st1 Sj I E) as [M I1]. destruct (IH _ st1 es' st2 Sl I1 El) as (Ln & I2 & N).
    split; [cbn [length]; lia|]. split.
    + eapply inv_mono; [|exact I2]. intros x [[Hx|Hx]|(j' & J1 & J2)]; [left; exact Hx|right; exists j; split; [left; reflexivity|exact Hx]|right; exists j'; split; [right; exact J1|exact J2]].
    + intros [|n] j' e' X Y; cbn [nth_error] in X, Y.
      * assert (j' = j /\ e' = e) as [-> ->] by (split; congruence). eapply made_mono; [|exact M]. intros x [Hx|Hx]; [left; exact Hx|right; exists j; split; [left; reflexivity|exact Hx]].
      * eapply made_mono; [|exact (N n j' e' X Y)]. change (firstn (Datatypes.S (Datatypes.S n)) (j :: l)) with (j :: firstn (Datatypes.S n) l).
        intros x [[Hx|Hx]|(j2 & J1 & J2)]; [left; exact Hx|right; exists j; split; [left; reflexivity|exact Hx]|right; exists j2; split; [right; exact J1|exact J2]].
Qed.

From Verif Require Import Base BaseFacts SeqSpec CoreModel StrModel FmtModel FmtSpec DictModel RdModel RdSpec RdFacts TvModel TvSpec TvProofs AulModel CatModel CatSpec CatProofs CatProps FhModel FhSpec FhProofs ImModel ImSpec ImProofs LeModel LeSpec LeProofs LeProps SdModel SdSpec.
From Coq Require String.
Import String.StringSyntax.

Lemma before0_holds d : holds_text d (before0 d).
Proof.
  induction d as [|b d (N & H)]; [split; [intros []|left; reflexivity]|]. cbn [before0]. destruct (Z.eqb_spec b 0) as [->|Nz].
  - split; [intros []|]. right. exists d. reflexivity.
  - split; [intros [E|E]; [contradiction|exact (N E)]|]. destruct H as [H|(rest & H)]; [left; congruence|right; exists rest; cbn [app]; congruence].
Qed.

Lemma before0_app t rest : ~ In 0 t -> before0 (t ++ 0 :: rest) = t.
Proof.
  induction t as [|b t IH]; intros N; [reflexivity|]. cbn [app before0]. destruct (Z.eqb_spec b 0) as [->|Nz]; [exfalso; apply N; left; reflexivity|]. f_equal. apply IH. intros H. apply N. right. exact H.
Qed.
Lemma before0_id t : ~ In 0 t -> before0 t = t.
Proof.
  induction t as [|b t IH]; intros N; [reflexivity|]. cbn [before0]. destruct (Z.eqb_spec b 0) as [->|Nz]; [exfalso; apply N; left; reflexivity|]. f_equal. apply IH. intros H. apply N. right. exact H.
Qed.
Lemma holds_iff d t : holds_text d t <-> t = before0 d.
Proof.
  split; [|intros ->; apply before0_holds]. intros [N [->|(rest & ->)]]; [symmetry; apply before0_id, N|symmetry; apply before0_app, N].
Qed.

Lemma reads_text utf8 n : reads (rd_text utf8 n) (text_bytes utf8 n).
Proof.
  unfold rd_text. eapply reads_iff; [eapply reads_bind; [apply reads_bytes|intros ?; apply reads_some]|]. intros s d _. cbv beta. unfold text_bytes. split.
  - intros (a & d1 & d2 & [L ->] & [E ->] & ->). rewrite app_nil_r. split; [exact L|]. exists (before0 a). split; [apply before0_holds|exact E].
  - intros (L & t & H & E). apply holds_iff in H. subst t. exists d, d, []. rewrite app_nil_r. auto.
Qed.

Lemma reads_simple utf8 : reads (rd_simpledump utf8) (simple_bytes utf8).
Proof.
  unfold rd_simpledump. eapply reads_iff; [fh_reads ltac:(apply reads_text)|]. intros s d _. cbv beta. unfold simple_bytes. split.
  - intros (a1 & ? & ? & H1 & (a2 & ? & ? & H2 & (a3 & ? & ? & H3 & (a4 & ? & ? & H4 & (a5 & ? & ? & H5 & (a6 & ? & ? & H6 & (a7 & ? & ? & H7 & (a8 & ? & ? & H8 & (a9 & ? & ? & [H9 ->] & (a10 & ? & ? & [H10 ->] & (a11 & ? & ? & H11 & (a12 & ? & ? & H12 & (a13 & ? & ? & H13 & (a14 & ? & ? & H14 & (a15 & ? & ? & H15 & [-> ->] & ->) & ->) & ->) & ->) & ->) & ->) & ->) & ->) & ->) & ->) & ->) & ->) & ->) & ->) & ->).
    exists a12, a13. cbn [sd_upper sd_lower sd_log sd_time sd_thread sd_address sd_sender sd_sub sd_message]. assert (uuid_bytes a9 a9) by (split; [exact H9|reflexivity]). f_in.
  - destruct s as [up lo lg ti th ad se su me]. cbn [sd_upper sd_lower sd_log sd_time sd_thread sd_address sd_sender sd_sub sd_message]. intros (n & m & H). f_out.
    repeat match goal with H : any _ _ |- _ => destruct H as [? H] end. match goal with H : uuid_bytes _ _ |- _ => destruct H as [? ->] end.
    repeat match goal with |- exists a d1 d2, _ /\ (exists _, _) /\ _ => do 3 eexists; split; [|split; [|reflexivity]]; [first [eassumption | (split; [|reflexivity]; eassumption)]|] end.
    eexists _, _, []. split; [eassumption|]. split; [split; reflexivity|]. reflexivity.
Qed.

Lemma reads_state utf8 : reads (rd_statedump utf8) (state_bytes utf8).
Proof.
  unfold rd_statedump. eapply reads_iff; [fh_reads ltac:(apply reads_text)|]. intros s d _. cbv beta. unfold state_bytes. split.
  - intros (a1 & ? & ? & H1 & (a2 & ? & ? & H2 & (a3 & ? & ? & H3 & (a4 & ? & ? & H4 & (a5 & ? & ? & H5 & (a6 & ? & ? & H6 & (a7 & ? & ? & H7 & (a8 & ? & ? & [H8 ->] & (a9 & ? & ? & H9 & (a10 & ? & ? & H10 & (a11 & ? & ? & [H11 ->] & (a12 & ? & ? & [H12 ->] & (a13 & ? & ? & H13 & (a14 & ? & ? & [H14 ->] & [-> ->] & ->) & ->) & ->) & ->) & ->) & ->) & ->) & ->) & ->) & ->) & ->) & ->) & ->) & ->).
    cbn [st_upper st_lower st_time st_activity st_sender st_type st_library st_decoder st_title st_data]. subst a10. assert (uuid_bytes a8 a8) by (split; [exact H8|reflexivity]).
    assert (len a11 = 64 /\ a11 = a11) by (split; [exact H11|reflexivity]). assert (len a12 = 64 /\ a12 = a12) by (split; [exact H12|reflexivity]). assert (a14 = a14) by reflexivity. f_in.
  - destruct s as [up lo ti ac se ty li de ti2 da]. cbn [st_upper st_lower st_time st_activity st_sender st_type st_library st_decoder st_title st_data]. intros H. f_out.
    repeat match goal with H : any _ _ |- _ => destruct H as [? H] end. match goal with H : uuid_bytes _ _ |- _ => destruct H as [? ->] end.
    repeat match goal with H : _ /\ _ = li |- _ => destruct H as [? ->] | H : _ /\ _ = de |- _ => destruct H as [? ->] end. subst.
    repeat match goal with |- exists a d1 d2, _ /\ (exists _, _) /\ _ => do 3 eexists; split; [|split; [|reflexivity]]; [first [eassumption | (split; [|reflexivity]; eassumption)]|] end.
    eexists _, _, []. split; [split; reflexivity|]. split; [split; reflexivity|]. reflexivity.
Qed.

(** ** Processes *)

Lemma in_catalog_find cat upper lower k : loaded cat -> 0 <= upper -> 0 <= lower ->
  (in_catalog cat upper lower k <-> (match cat with Some cs => find_process cs upper lower | None => None end) = Some k).
Proof.
  intros L Hu Hl. unfold in_catalog. destruct cat as [cs|]; [|split; [intros (cs & X & _); discriminate|discriminate]]. destruct L as (utf8 & content & off & Hb & Ho & E).
  rewrite (C90_process utf8 content off cs Hb Ho E upper lower k Hu Hl). split.
  - intros (cs' & X & H). assert (cs' = cs) as -> by congruence. exact H.
  - intros H. exists cs. split; [reflexivity|exact H].
Qed.

Lemma dump_process_ok v strict cat upper lower : loaded cat -> 0 <= upper -> 0 <= lower ->
  match dump_process strict cat upper lower with
  | Ok k => process_of_dump strict cat upper lower k
  | Err x => process_fails v strict cat upper lower x
  end.
Proof.
  intros L Hu Hl. unfold dump_process. pose proof (fun k => in_catalog_find cat upper lower k L Hu Hl) as I.
  destruct (match cat with Some cs => find_process cs upper lower | None => None end) as [k|]; [apply I; reflexivity|].
  destruct strict; [apply pf_missing; [reflexivity|]|split; [reflexivity|]]; intros k H; apply I in H; discriminate.
Qed.

Lemma process_of_dump_fun strict cat upper lower a b : loaded cat -> 0 <= upper -> 0 <= lower ->
  process_of_dump strict cat upper lower a -> process_of_dump strict cat upper lower b -> a = b.
Proof.
  intros L Hu Hl A B. pose proof (fun k => in_catalog_find cat upper lower k L Hu Hl) as I. destruct a as [a|], b as [b|]; cbn in A, B; [|exfalso; apply B in A; exact A|exfalso; destruct A as [_ A]; apply A in B; exact B|reflexivity].
  apply I in A, B. congruence.
Qed.

Lemma loaded_dump strict cat upper lower k : loaded cat -> 0 <= upper < 2 ^ 64 -> 0 <= lower < 2 ^ 32 -> process_of_dump strict cat upper lower k -> stored_known k.
Proof.
  intros L Hu Hl P. destruct k as [k|]; [|exact I]. cbn in P. apply in_catalog_find in P; [|exact L|lia|lia]. destruct cat as [cs|]; [|discriminate].
  apply (loaded_stored (Some cs) (mkfh upper lower 0 0 0) (Some k) L); [exact Hu|exact Hl|]. eapply po_found; [reflexivity|exact P].
Qed.

Lemma process_values_fails v k P st x : stored_known k -> inv (ev_utf8 v) (ev_fs v) P st -> process_values v k st = Err x -> image_fails v k x.
Proof.
  intros S (F & L & A) H. unfold process_values in H. destruct k as [k|]; [|discriminate]. destruct (kn_main k) as [u|] eqn:M; [|assert (x = AttributeError) as -> by congruence; eapply xf_main; [reflexivity|exact M]].
  pose proof (LeProofs.text_bytes k u S M) as [Ub Ul]. pose proof (get_text_ok (ev_utf8 v) (ev_fs v) u st F) as G.
  destruct (get_text (ev_utf8 v) (ev_fs v) u st) as [[f st']|e]; cbn [bind] in H; [destruct f; discriminate|]. assert (e = x) as -> by congruence. clear H.
  destruct u as [|b l]; [cbn in Ul; lia|]. assert (K : hex_of (b :: l) (uuid_key (b :: l))) by (apply hex_iff; [exact Ub|reflexivity]). rewrite uuid_key_cons in *. unfold open_text in G. cbn [firstn skipn] in G.
  match type of G with context [ev_fs v ?p] => destruct (ev_fs v p) as [content|] eqn:E end; [|discriminate].
  destruct (read_uuidtext (ev_utf8 v) content) as [[es path]|y] eqn:R; cbn [bind] in G; [discriminate|]. assert (y = x) as -> by congruence. eapply xf_file; [reflexivity|exact M|exact K|exact E|exact R].
Qed.

Lemma simple_nonneg utf8 s d : simple_bytes utf8 s d -> 0 <= sd_upper s < 2 ^ 64 /\ 0 <= sd_lower s < 2 ^ 32.
Proof. intros (n & m & H). apply FhProofs.fields_cons in H as (? & ? & H1 & H & ->). apply FhProofs.fields_cons in H as (? & ? & H2 & H & ->). destruct H1 as [H1 _], H2 as [H2 _]. auto. Qed.
Lemma state_nonneg utf8 s d : state_bytes utf8 s d -> 0 <= st_upper s < 2 ^ 64 /\ 0 <= st_lower s < 2 ^ 32.
Proof. intros H. apply FhProofs.fields_cons in H as (? & ? & H1 & H & ->). apply FhProofs.fields_cons in H as (? & ? & H2 & H & ->). destruct H1 as [H1 _], H2 as [H2 _]. auto. Qed.

Lemma rd_data_none {A} (r : reader A) e data x : reads r e -> is_bytes data -> rd_data r data = Err x -> forall a d rest, e a d -> data <> d ++ rest.
Proof. intros R Hb E a d rest H D. assert (rd_data r data = Ok a) by (apply (rd_data_iff r e); [exact R|exact Hb|exists d, rest; auto]). congruence. Qed.

Lemma message_ok v s : message_of v s (state_message v s).
Proof.
  unfold state_message. destruct (Z.eqb_spec (st_type s) 3) as [T|T]; [|apply mo_other; exact T].
  pose proof (before0_holds (st_library s)) as A. pose proof (before0_holds (st_decoder s)) as B.
  destruct (ev_utf8 v (before0 (st_library s))) as [library|] eqn:Ea; cbn [bind]; [|eapply mo_text; eauto].
  destruct (ev_utf8 v (before0 (st_decoder s))) as [decoder|] eqn:Eb; cbn [bind]; [|eapply mo_text; eauto].
  destruct (ev_decoders v (library ++ [58] ++ decoder)) as [d|] eqn:Ed; cbn [bind].
  - eapply mo_decoder; eauto.
  - rewrite <- !app_assoc. eapply mo_unsupported; eauto.
Qed.

Lemma message_fun v s a b : message_of v s a -> message_of v s b -> a = b.
Proof.
  intros A B. destruct A as [N|x y lib dec d T X Y U V W|x y lib dec T X Y U V W|x y T X Y U]; destruct B as [N'|x' y' lib' dec' d' T' X' Y' U' V' W'|x' y' lib' dec' T' X' Y' U' V' W'|x' y' T' X' Y' U']; try congruence;
    apply holds_iff in X, Y, X', Y'; subst; try (destruct U; congruence); try (destruct U'; congruence); rewrite U in U'; rewrite V in V'; assert (lib' = lib /\ dec' = dec) as [-> ->] by (split; congruence); congruence.
Qed.

Lemma simple_ok v strict cat data P st : loaded cat -> is_bytes data -> inv (ev_utf8 v) (ev_fs v) P st ->
  match simple_entry v strict cat data st with
  | Ok (e, st') => simple_made v strict cat data e /\ inv (ev_utf8 v) (ev_fs v) P st'
  | Err x => simple_fails v strict cat data x
  end.
Proof.
  intros L Hb I. unfold simple_entry. destruct (Z.ltb_spec 0 (len data)) as [Ln|Ln]; cbn [guard bind].
  2: { apply xs_empty. destruct data; [reflexivity|]. rewrite len_cons in Ln. pose proof (len_nonneg data). lia. }
  assert (Nn : data <> []) by (intros ->; cbn in Ln; lia).
  destruct (rd_data (rd_simpledump (ev_utf8 v)) data) as [s|x] eqn:R; cbn [bind].
  2: { assert (x = ParseError) as -> by (eapply rd_data_errors; [apply reads_simple|exact Hb|exact R]). apply xs_data; [exact Nn|]. intros s d rest. eapply rd_data_none; [apply reads_simple|exact Hb|exact R]. }
  apply (rd_data_iff _ _ _ _ (reads_simple _) Hb) in R as (d & rest & B & E). destruct (simple_nonneg _ _ _ B) as [Nu Nl].
  pose proof (dump_process_ok v strict cat (sd_upper s) (sd_lower s) L ltac:(lia) ltac:(lia)) as D. destruct (dump_process strict cat (sd_upper s) (sd_lower s)) as [k|x]; cbn [bind]; [|eapply xs_process; eassumption].
  pose proof (loaded_dump _ _ _ _ _ L Nu Nl D) as Sk. pose proof (process_values_ok v k P st Sk I) as Pv. pose proof (process_values_fails v k P st) as Pf.
  destruct (process_values v k st) as [[[image path] st']|x]; cbn [bind]; [|eapply xs_image; try eassumption; apply Pf; auto]. destruct Pv as [Pk I']. split; [|exact I'].
  exists s, d, rest, k. split; [exact B|]. split; [exact E|]. split; [exact D|]. split; [constructor; try reflexivity; exact Pk|]. cbn [du_type du_message du_sub du_thread du_pc du_event du_activity].
  split; [apply log_types_ok|]. repeat split; reflexivity.
Qed.

Lemma state_ok v strict cat data P st : loaded cat -> is_bytes data -> inv (ev_utf8 v) (ev_fs v) P st ->
  match state_entry v strict cat data st with
  | Ok (e, st') => state_made v strict cat data e /\ inv (ev_utf8 v) (ev_fs v) P st'
  | Err x => state_fails v strict cat data x
  end.
Proof.
  intros L Hb I. unfold state_entry. destruct (Z.ltb_spec 0 (len data)) as [Ln|Ln]; cbn [guard bind].
  2: { apply xt_empty. destruct data; [reflexivity|]. rewrite len_cons in Ln. pose proof (len_nonneg data). lia. }
  assert (Nn : data <> []) by (intros ->; cbn in Ln; lia).
  destruct (rd_data (rd_statedump (ev_utf8 v)) data) as [s|x] eqn:R; cbn [bind].
  2: { assert (x = ParseError) as -> by (eapply rd_data_errors; [apply reads_state|exact Hb|exact R]). apply xt_data; [exact Nn|]. intros s d rest. eapply rd_data_none; [apply reads_state|exact Hb|exact R]. }
  apply (rd_data_iff _ _ _ _ (reads_state _) Hb) in R as (d & rest & B & E). destruct (state_nonneg _ _ _ B) as [Nu Nl].
  pose proof (dump_process_ok v strict cat (st_upper s) (st_lower s) L ltac:(lia) ltac:(lia)) as D. destruct (dump_process strict cat (st_upper s) (st_lower s)) as [k|x]; cbn [bind]; [|eapply xt_process; eassumption].
  pose proof (message_ok v s) as M. destruct (state_message v s) as [m|x]; cbn [bind]; [|eapply xt_message; eassumption].
  pose proof (loaded_dump _ _ _ _ _ L Nu Nl D) as Sk. pose proof (process_values_ok v k P st Sk I) as Pv. pose proof (process_values_fails v k P st) as Pf.
  destruct (process_values v k st) as [[[image path] st']|x]; cbn [bind]; [|eapply xt_image; try eassumption; apply Pf; auto]. destruct Pv as [Pk I']. split; [|exact I'].
  exists s, d, rest, k. split; [exact B|]. split; [exact E|]. split; [exact D|]. split; [constructor; try reflexivity; exact Pk|]. cbn [du_type du_message du_sub du_thread du_pc du_event du_activity].
  split; [exact M|]. split; [rewrite mask_ok; reflexivity|]. repeat split; reflexivity.
Qed.

(** ** Each dump has one outcome *)

Lemma named_fun l a b x y : (forall t t', In (a, b, t) l -> In (a, b, t') l -> t = t') -> named l a b x -> named l a b y -> x = y.
Proof.
  intros U X Y. destruct x as [x|], y as [y|]; cbn in X, Y; [| | |reflexivity].
  - destruct X as (t & X & ->), Y as (t' & Y & ->). f_equal. f_equal. exact (U _ _ X Y).
  - destruct X as (t & X & _). destruct (Y t X).
  - destruct Y as (t & Y & _). destruct (X t Y).
Qed.

Lemma log_name_fun log x y : log_name log x -> log_name log y -> x = y.
Proof.
  unfold log_name. apply named_fun. generalize (log / 16), (log mod 16). intros a b t t'. cbn [In]. intros H1 H2.
  repeat match goal with H : _ \/ _ |- _ => destruct H as [H|H] end; try contradiction; congruence.
Qed.

Lemma text_file_fun v u f g : is_bytes u -> 0 < len u -> text_file (ev_utf8 v) (ev_fs v) u f -> text_file (ev_utf8 v) (ev_fs v) u g -> f = g.
Proof. intros Hb L A B. apply text_iff in A; [|exact Hb|exact L]. apply text_iff in B; [|exact Hb|exact L]. congruence. Qed.

Lemma process_known_fun v k i p i' p' : stored_known k -> process_known v k i p -> process_known v k i' p' -> i = i' /\ p = p'.
Proof.
  intros S A B. destruct A as [|k u f M T|k u M T]; [inversion B; auto| |]; pose proof (LeProofs.text_bytes k u S M) as [Ub Ul];
    inversion B as [|k2 u2 f2 M2 T2|k2 u2 M2 T2]; assert (u2 = u) by congruence; subst u2; pose proof (text_file_fun v u _ _ Ub ltac:(lia) T T2) as E; try discriminate E.
  - assert (f2 = f) by congruence. subst. auto.
  - auto.
Qed.

Lemma image_fails_file v k u c d s content x : stored_known (Some k) -> kn_main k = Some u -> hex_of u (c :: d :: s) -> ev_fs v [[c; d]; s] = Some content -> read_uuidtext (ev_utf8 v) content = Err x ->
  open_text (ev_utf8 v) (ev_fs v) (uuid_key u) = Err x.
Proof.
  intros S M H E R. pose proof (LeProofs.text_bytes k u S M) as [Ub Ul]. apply hex_iff in H; [|exact Ub]. rewrite <- H. unfold open_text. cbn [firstn skipn]. unfold bytes, str in *. rewrite E. cbn [bind]. rewrite R. reflexivity.
Qed.

Lemma image_fails_fun v k x y : stored_known k -> image_fails v k x -> image_fails v k y -> x = y.
Proof.
  intros S A B. destruct A as [k1 E1 M1|k1 u c d s content x E1 M1 H1 F1 R1]; destruct B as [k2 E2 M2|k2 u2 c2 d2 s2 content2 x2 E2 M2 H2 F2 R2]; subst; assert (k1 = k2) by congruence; subst; try congruence.
  assert (u2 = u) by congruence; subst. pose proof (image_fails_file v _ _ _ _ _ _ _ S M1 H1 F1 R1). pose proof (image_fails_file v _ _ _ _ _ _ _ S M2 H2 F2 R2). congruence.
Qed.

Lemma image_fails_not v k x i p : stored_known k -> image_fails v k x -> ~ process_known v k i p.
Proof.
  intros S A B. destruct A as [k1 E1 M1|k1 u c d s content x E1 M1 H1 F1 R1]; subst; inversion B as [|k2 u2 f2 M2 T2|k2 u2 M2 T2]; subst; try congruence; assert (u2 = u) by congruence; subst;
    pose proof (image_fails_file v _ _ _ _ _ _ _ S M1 H1 F1 R1) as O; pose proof (LeProofs.text_bytes _ u S M1) as [Ub Ul]; apply text_iff in T2; try exact Ub; try lia; congruence.
Qed.

Lemma simple_fun utf8 s d rest s' d' rest' : is_bytes (d ++ rest) -> simple_bytes utf8 s d -> simple_bytes utf8 s' d' -> d ++ rest = d' ++ rest' -> s = s'.
Proof.
  intros Hb A B E. assert (X : rd_data (rd_simpledump utf8) (d ++ rest) = Ok s) by (apply (rd_data_iff _ _ _ _ (reads_simple _) Hb); exists d, rest; auto).
  assert (Y : rd_data (rd_simpledump utf8) (d ++ rest) = Ok s') by (apply (rd_data_iff _ _ _ _ (reads_simple _) Hb); exists d', rest'; auto). congruence.
Qed.
Lemma state_fun utf8 s d rest s' d' rest' : is_bytes (d ++ rest) -> state_bytes utf8 s d -> state_bytes utf8 s' d' -> d ++ rest = d' ++ rest' -> s = s'.
Proof.
  intros Hb A B E. assert (X : rd_data (rd_statedump utf8) (d ++ rest) = Ok s) by (apply (rd_data_iff _ _ _ _ (reads_state _) Hb); exists d, rest; auto).
  assert (Y : rd_data (rd_statedump utf8) (d ++ rest) = Ok s') by (apply (rd_data_iff _ _ _ _ (reads_state _) Hb); exists d', rest'; auto). congruence.
Qed.

Lemma common_fun v k sender off time e e' : stored_known k -> common v k sender off time e -> common v k sender off time e' ->
  du_image e = du_image e' /\ du_path e = du_path e' /\ du_pid e = du_pid e' /\ du_sender e = du_sender e' /\ du_frame e = du_frame e' /\ du_boot e = du_boot e' /\ du_mach e = du_mach e' /\ du_time e = du_time e' /\ du_trace e = du_trace e'.
Proof. intros S [A1 A2 A3 A4 A5 A6 A7 A8] [B1 B2 B3 B4 B5 B6 B7 B8]. destruct (process_known_fun _ _ _ _ _ _ S A1 B1) as [E1 E2]. repeat split; congruence. Qed.

Lemma process_fails_not v strict cat u l x k : process_fails v strict cat u l x -> ~ process_of_dump strict cat u l k.
Proof. intros [St N] P. destruct k as [k|]; [exact (N k P)|]. destruct P as [P _]. congruence. Qed.

Lemma dump_eq (e e' : dump) : du_activity e = du_activity e' -> du_frame e = du_frame e' -> du_boot e = du_boot e' -> du_message e = du_message e' -> du_event e = du_event e' -> du_mach e = du_mach e' ->
  du_type e = du_type e' -> du_pid e = du_pid e' -> du_image e = du_image e' -> du_path e = du_path e' -> du_sub e = du_sub e' -> du_sender e = du_sender e' -> du_pc e = du_pc e' -> du_thread e = du_thread e' ->
  du_time e = du_time e' -> du_trace e = du_trace e' -> e = e'.
Proof.
  destruct e as [a1 a2 a3 a4 a5 a6 a7 a8 a9 a10 a11 a12 a13 a14 a15 a16], e' as [b1 b2 b3 b4 b5 b6 b7 b8 b9 b10 b11 b12 b13 b14 b15 b16].
  cbn [du_activity du_frame du_boot du_message du_event du_mach du_type du_pid du_image du_path du_sub du_sender du_pc du_thread du_time du_trace].
  intros -> -> -> -> -> -> -> -> -> -> -> -> -> -> -> ->. reflexivity.
Qed.

Lemma simple_made_fun v strict cat data e e' : loaded cat -> is_bytes data -> simple_made v strict cat data e -> simple_made v strict cat data e' -> e = e'.
Proof.
  intros L Hb (s & d & rest & k & B & E & D & C & T & M & Su & Th & Pc & Ev & Ac) (s2 & d2 & rest2 & k2 & B2 & E2 & D2 & C2 & T2 & M2 & Su2 & Th2 & Pc2 & Ev2 & Ac2).
  subst data. assert (s = s2) by (eapply simple_fun; eassumption). subst s2. destruct (simple_nonneg _ _ _ B) as [Nu Nl]. assert (k2 = k) by (eapply process_of_dump_fun; try eassumption; lia). subst k2.
  destruct (common_fun v k _ _ _ e e' (loaded_dump _ _ _ _ _ L Nu Nl D) C C2) as (X1 & X2 & X3 & X4 & X5 & X6 & X7 & X8 & X9). pose proof (log_name_fun _ _ _ T T2). apply dump_eq; congruence.
Qed.

Lemma state_made_fun v strict cat data e e' : loaded cat -> is_bytes data -> state_made v strict cat data e -> state_made v strict cat data e' -> e = e'.
Proof.
  intros L Hb (s & d & rest & k & B & E & D & C & M & Ac & Ev & T & Su & Th & Pc) (s2 & d2 & rest2 & k2 & B2 & E2 & D2 & C2 & M2 & Ac2 & Ev2 & T2 & Su2 & Th2 & Pc2).
  subst data. assert (s = s2) by (eapply state_fun; eassumption). subst s2. destruct (state_nonneg _ _ _ B) as [Nu Nl]. assert (k2 = k) by (eapply process_of_dump_fun; try eassumption; lia). subst k2.
  destruct (common_fun v k _ _ _ e e' (loaded_dump _ _ _ _ _ L Nu Nl D) C C2) as (X1 & X2 & X3 & X4 & X5 & X6 & X7 & X8 & X9). pose proof (message_fun _ _ _ _ M M2) as Me. apply dump_eq; congruence.
Qed.

Lemma simple_same utf8 data s d rest s' d' rest' : is_bytes data -> simple_bytes utf8 s d -> simple_bytes utf8 s' d' -> data = d ++ rest -> data = d' ++ rest' -> s = s'.
Proof. intros Hb A B -> E. exact (simple_fun _ _ _ _ _ _ _ Hb A B E). Qed.
Lemma simple_nonempty utf8 s d rest : simple_bytes utf8 s d -> d ++ rest <> [].
Proof. intros (n & m & B) N. apply FhProofs.fields_cons in B as (a & b & [_ B] & _ & ->). apply (f_equal len) in N. rewrite !len_app in N. assert (len a = 8) by (rewrite B; apply len_le_enc). pose proof (len_nonneg b). pose proof (len_nonneg rest). cbn in N. lia. Qed.
Lemma state_same utf8 data s d rest s' d' rest' : is_bytes data -> state_bytes utf8 s d -> state_bytes utf8 s' d' -> data = d ++ rest -> data = d' ++ rest' -> s = s'.
Proof. intros Hb A B -> E. exact (state_fun _ _ _ _ _ _ _ Hb A B E). Qed.
Lemma state_nonempty utf8 s d rest : state_bytes utf8 s d -> d ++ rest <> [].
Proof. intros B N. apply FhProofs.fields_cons in B as (a & b & [_ B] & _ & ->). apply (f_equal len) in N. rewrite !len_app in N. assert (len a = 8) by (rewrite B; apply len_le_enc). pose proof (len_nonneg b). pose proof (len_nonneg rest). cbn in N. lia. Qed.

Lemma simple_fails_not v strict cat data e x : loaded cat -> is_bytes data -> simple_fails v strict cat data x -> ~ simple_made v strict cat data e.
Proof.
  intros L Hb F (s & d & rest & k & B & E & D & C & _). pose proof (simple_nonneg _ _ _ B) as [Nu Nl]. pose proof (loaded_dump _ _ _ _ _ L Nu Nl D) as Sk.
  destruct F as [N|N F|s2 d2 rest2 x B2 E2 F|s2 d2 rest2 k2 x B2 E2 D2 F].
  - apply (simple_nonempty _ _ _ rest B). congruence.
  - exact (F s d rest B E).
  - assert (s = s2) by (exact (simple_same _ _ _ _ _ _ _ _ Hb B B2 E E2)). subst s2. exact (process_fails_not _ _ _ _ _ _ _ F D).
  - assert (s = s2) by (exact (simple_same _ _ _ _ _ _ _ _ Hb B B2 E E2)). subst s2. assert (k2 = k) by (eapply process_of_dump_fun; try eassumption; lia). subst k2. exact (image_fails_not v k x _ _ Sk F (cm_process _ _ _ _ _ _ C)).
Qed.

Lemma state_fails_not v strict cat data e x : loaded cat -> is_bytes data -> state_fails v strict cat data x -> ~ state_made v strict cat data e.
Proof.
  intros L Hb F (s & d & rest & k & B & E & D & C & M & _). pose proof (state_nonneg _ _ _ B) as [Nu Nl]. pose proof (loaded_dump _ _ _ _ _ L Nu Nl D) as Sk.
  destruct F as [N|N F|s2 d2 rest2 x B2 E2 F|s2 d2 rest2 k2 x B2 E2 D2 F|s2 d2 rest2 k2 m x B2 E2 D2 M2 F].
  - apply (state_nonempty _ _ _ rest B). congruence.
  - exact (F s d rest B E).
  - assert (s = s2) by (exact (state_same _ _ _ _ _ _ _ _ Hb B B2 E E2)). subst s2. exact (process_fails_not _ _ _ _ _ _ _ F D).
  - assert (s = s2) by (exact (state_same _ _ _ _ _ _ _ _ Hb B B2 E E2)). subst s2. pose proof (message_fun _ _ _ _ M F). discriminate.
  - assert (s = s2) by (exact (state_same _ _ _ _ _ _ _ _ Hb B B2 E E2)). subst s2. assert (k2 = k) by (eapply process_of_dump_fun; try eassumption; lia). subst k2. exact (image_fails_not v k x _ _ Sk F (cm_process _ _ _ _ _ _ C)).
Qed.

Lemma simple_fails_fun v strict cat data x y : loaded cat -> is_bytes data -> simple_fails v strict cat data x -> simple_fails v strict cat data y -> x = y.
Proof.
  intros L Hb A. assert (Ne : forall s d rest, simple_bytes (ev_utf8 v) s d -> data = d ++ rest -> data <> []).
  { intros s d rest B ->. eapply simple_nonempty. exact B. }
  destruct A as [N|N F|s d rest x B E F|s d rest k x B E D F]; intros G; destruct G as [N2|N2 F2|s2 d2 rest2 y B2 E2 F2|s2 d2 rest2 k2 y B2 E2 D2 F2]; try reflexivity; try contradiction;
    try (exfalso; eapply Ne; eassumption); try (exfalso; eapply F; eassumption); try (exfalso; eapply F2; eassumption); assert (s = s2) by (exact (simple_same _ _ _ _ _ _ _ _ Hb B B2 E E2)); subst s2.
  - destruct F, F2. reflexivity.
  - exfalso. exact (process_fails_not _ _ _ _ _ _ _ F D2).
  - exfalso. exact (process_fails_not _ _ _ _ _ _ _ F2 D).
  - pose proof (simple_nonneg _ _ _ B) as [Nu Nl]. assert (k2 = k) by (eapply process_of_dump_fun; try eassumption; lia). subst k2. exact (image_fails_fun v k x y (loaded_dump _ _ _ _ _ L Nu Nl D) F F2).
Qed.

Lemma state_fails_fun v strict cat data x y : loaded cat -> is_bytes data -> state_fails v strict cat data x -> state_fails v strict cat data y -> x = y.
Proof.
  intros L Hb A. assert (Ne : forall s d rest, state_bytes (ev_utf8 v) s d -> data = d ++ rest -> data <> []).
  { intros s d rest B ->. eapply state_nonempty. exact B. }
  destruct A as [N|N F|s d rest x B E F|s d rest k x B E D M|s d rest k m x B E D M F]; intros G; destruct G as [N2|N2 F2|s2 d2 rest2 y B2 E2 F2|s2 d2 rest2 k2 y B2 E2 D2 M2|s2 d2 rest2 k2 m2 y B2 E2 D2 M2 F2]; try reflexivity; try contradiction;
    try (exfalso; eapply Ne; eassumption); try (exfalso; eapply F; eassumption); try (exfalso; eapply F2; eassumption); assert (s = s2) by (exact (state_same _ _ _ _ _ _ _ _ Hb B B2 E E2)); subst s2.
  all: try (exfalso; exact (process_fails_not _ _ _ _ _ _ _ F D2)).
  all: try (exfalso; exact (process_fails_not _ _ _ _ _ _ _ F2 D)).
  - destruct F, F2. reflexivity.
  - pose proof (message_fun _ _ _ _ M M2). congruence.
  - pose proof (message_fun _ _ _ _ M M2). discriminate.
  - pose proof (message_fun _ _ _ _ M M2). discriminate.
  - pose proof (state_nonneg _ _ _ B) as [Nu Nl]. assert (k2 = k) by (eapply process_of_dump_fun; try eassumption; lia). subst k2. exact (image_fails_fun v k x y (loaded_dump _ _ _ _ _ L Nu Nl D) F F2).
Qed.

(** ** Histories *)

Lemma log_one_ok v strict x (P : request -> Prop) st e st' : stored_source x -> inv (ev_utf8 v) (ev_fs v) P st -> log_one v strict x st = Ok (e, st') ->
  made_of v strict (fun q => P q \/ asked_by x q) x e /\ inv (ev_utf8 v) (ev_fs v) (fun q => P q \/ asked_by x q) st'.
Proof.
  intros S I H. destruct x as [j|cat data|cat data]; cbn [log_one stored_source asked_by] in *.
  - change (log_entry v (jb_catalog j) (jb_oversize j) (jb_chunk j) st (jb_header j) (jb_known j) (jb_tp j) (jb_body j) (jb_values j)) with (log_job v j st) in H.
    destruct (log_job v j st) as [[e1 st1]|y] eqn:E; cbn [bind] in H; [|discriminate]. assert (e = LPoint e1 /\ st' = st1) as [-> ->] by (split; congruence). exact (log_job_ok v j P st e1 st1 S I E).
  - destruct S as [L Hb]. pose proof (simple_ok v strict cat data P st L Hb I) as O. destruct (simple_entry v strict cat data st) as [[e1 st1]|y]; cbn [bind] in H; [|discriminate].
    assert (e = LDump e1 /\ st' = st1) as [-> ->] by (split; congruence). destruct O as [O1 O2]. split; [exact O1|]. eapply inv_mono; [|exact O2]. auto.
  - destruct S as [L Hb]. pose proof (state_ok v strict cat data P st L Hb I) as O. destruct (state_entry v strict cat data st) as [[e1 st1]|y]; cbn [bind] in H; [|discriminate].
    assert (e = LDump e1 /\ st' = st1) as [-> ->] by (split; congruence). destruct O as [O1 O2]. split; [exact O1|]. eapply inv_mono; [|exact O2]. auto.
Qed.

Lemma made_of_mono v strict (P Q : request -> Prop) x e : (forall q, P q -> Q q) -> made_of v strict P x e -> made_of v strict Q x e.
Proof. intros H. destruct x, e; cbn; auto. apply made_mono, H. Qed.

Lemma log_each_ok v strict l : forall (P : request -> Prop) st es st', Forall stored_source l -> inv (ev_utf8 v) (ev_fs v) P st -> log_each v strict l st = Ok (es, st') ->
  length es = length l /\ inv (ev_utf8 v) (ev_fs v) (fun q => P q \/ exists x, In x l /\ asked_by x q) st' /\
  forall n x e, nth_error l n = Some x -> nth_error es n = Some e -> made_of v strict (fun q => P q \/ exists y, In y (firstn (S n) l) /\ asked_by y q) x e.
Proof.
  induction l as [|x l IH]; intros P st es st' S I H; cbn [log_each] in H.
  - assert (es = [] /\ st' = st) as [-> ->] by (split; congruence). split; [reflexivity|]. split; [eapply inv_mono; [|exact I]; intros q Hq; left; exact Hq|]. intros [|n] j e X; discriminate.
  - inversion S as [|? ? Sj Sl]; subst. destruct (log_one v strict x st) as [[e st1]|y] eqn:E; cbn [bind] in H; [|discriminate]. destruct (log_each v strict l st1) as [[es' st2]|y] eqn:El; cbn [bind] in H; [|discriminate].
    assert (es = e :: es' /\ st' = st2) as [-> ->] by (split; congruence). destruct (log_one_ok v strict x P st e st1 Sj I E) as [M I1]. destruct (IH _ st1 es' st2 Sl I1 El) as (Ln & I2 & N).
    split; [cbn [length]; lia|]. split.
    + eapply inv_mono; [|exact I2]. intros q [[Hq|Hq]|(j' & J1 & J2)]; [left; exact Hq|right; exists x; split; [left; reflexivity|exact Hq]|right; exists j'; split; [right; exact J1|exact J2]].
    + intros [|n] j' e' X Y; cbn [nth_error] in X, Y.
      * assert (j' = x /\ e' = e) as [-> ->] by (split; congruence). eapply made_of_mono; [|exact M]. intros q [Hq|Hq]; [left; exact Hq|right; exists x; split; [left; reflexivity|exact Hq]].
      * eapply made_of_mono; [|exact (N n j' e' X Y)]. change (firstn (Datatypes.S (Datatypes.S n)) (x :: l)) with (x :: firstn (Datatypes.S n) l).
        intros q [[Hq|Hq]|(j2 & J1 & J2)]; [left; exact Hq|right; exists x; split; [left; reflexivity|exact Hq]|right; exists j2; split; [right; exact J1|exact J2]].
Qed.

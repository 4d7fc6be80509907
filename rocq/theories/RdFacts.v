From Verif Require Import Base BaseFacts CoreModel CoreProofs SeqModel SeqSpec DictModel SeqFacts StructFacts Utf16Model Utf16Spec Utf16Facts MemModel MemFacts MemTools RdModel RdSpec.

Lemma reads_ret {A} (a : A) : reads (rd_ret a) (fun b d => b = a /\ d = []).
Proof.
  intros content pos Hb Hp. unfold rd_ret. split; [|discriminate]. intros b p. split.
  - intros H. assert (b = a /\ p = pos) as [-> ->] by (split; congruence). exists []. change (len (@nil Z)) with 0. split; [auto|]. split; [|lia].
    apply stored_at_iff. change (len (@nil Z)) with 0. split; [lia|]. split; [lia|]. destruct (zskipn pos content); reflexivity.
  - intros (d & [-> ->] & _ & ->). change (len (@nil Z)) with 0. rewrite Z.add_0_r. reflexivity.
Qed.

Lemma reads_bind {A B} (r : reader A) (k : A -> reader B) e f : reads r e -> (forall a, reads (k a) (f a)) ->
  reads (rd_bind r k) (fun b d => exists a d1 d2, e a d1 /\ f a b d2 /\ d = d1 ++ d2).
Proof.
  intros R K content pos Hb Hp. unfold rd_bind. destruct (R content pos Hb Hp) as [R1 R2].
  destruct (r content pos) as [[a p1]|x] eqn:E; cbn [bind].
  - destruct (proj1 (R1 a p1) eq_refl) as (d1 & E1 & S1 & ->). pose proof (stored_at_inside _ _ _ S1) as [_ I]. pose proof (len_nonneg d1).
    destruct (K a content (pos + len d1) Hb ltac:(lia)) as [K1 K2]. split; [|exact K2]. intros b p. rewrite K1. split.
    + intros (d2 & E2 & S2 & ->). exists (d1 ++ d2). split; [eauto 6|]. split; [apply stored_at_app; auto|]. rewrite len_app. lia.
    + intros (d & (a' & d1' & d2 & E1' & E2 & ->) & S & ->). apply stored_at_app in S as [S1' S2].
      assert (Q : Ok (a, pos + len d1) = Ok (a', pos + len d1')) by (apply R1; eauto). assert (a' = a) by congruence. subst a'.
      assert (len d1' = len d1) by (assert (pos + len d1 = pos + len d1') by congruence; lia).
      exists d2. split; [exact E2|]. rewrite H0 in S2. split; [exact S2|]. rewrite len_app. lia.
  - split; [|intros y Hy; apply R2; congruence]. intros b p. split; [discriminate|].
    intros (d & (a & d1 & d2 & E1 & E2 & ->) & S & ->). apply stored_at_app in S as [S1 _].
    assert (Q : Err x = Ok (a, pos + len d1)) by (apply R1; eauto). discriminate.
Qed.

Lemma reads_guard b : reads (rd_guard b) (fun _ d => b = true /\ d = []).
Proof.
  intros content pos Hb Hp. unfold rd_guard. destruct b; cbn [guard bind].
  - split; [|discriminate]. intros [] p. destruct (proj1 (reads_ret tt content pos Hb Hp) tt p) as [A B]. split.
    + intros H. destruct (A H) as (d & [_ ->] & S). exists []. auto.
    + intros (d & [_ ->] & S). apply B. exists []. auto.
  - split; [|intros x H; congruence]. intros a p. split; [discriminate|]. intros (d & [H _] & _). discriminate.
Qed.

Lemma reads_int k : int_wf k -> reads (rd_int k) (fun z d => fval_ok k (VI z) /\ d = enc_field k (VI z)).
Proof.
  intros Hk content pos Hb Hp. unfold rd_int. destruct (read_struct content [k] pos) as [l|x] eqn:E; cbn [bind].
  - destruct (read_int_shape _ _ _ _ Hb Hk E) as [z ->]. pose proof (proj1 (read_int_iff _ _ _ _ Hb Hk) E) as [S F].
    split; [|discriminate]. intros a p. split.
    + intros H. assert (a = z /\ p = pos + Z.of_nat (fsize k)) as [-> ->] by (split; congruence). exists (enc_field k (VI z)). rewrite (len_enc_int _ _ F). auto.
    + intros (d & [Fa ->] & Sa & ->). rewrite (len_enc_int _ _ Fa). assert (Q : read_struct content [k] pos = Ok [VI a]) by (apply read_int_iff; auto). congruence.
  - split.
    + intros a p. split; [discriminate|]. intros (d & [Fa ->] & Sa & ->). assert (Q : read_struct content [k] pos = Ok [VI a]) by (apply read_int_iff; auto). congruence.
    + intros y H. apply read_struct_err in E; [congruence|lia].
Qed.

Lemma reads_bytes n : reads (rd_bytes n) (fun a d => len a = n /\ d = a).
Proof.
  intros content pos Hb Hp. unfold rd_bytes. destruct (Z.leb_spec 0 n) as [Hn|Hn]; cbn [guard bind].
  - split; [|intros x; apply read_next_errors]. intros a p. rewrite (read_next_iff _ _ _ _ _ Hp Hn). split.
    + intros (S & L & ->). exists a. rewrite L. auto.
    + intros (d & (L & ->) & S & ->). rewrite L. auto.
  - split; [|intros x H; congruence]. intros a p. split; [discriminate|]. intros (d & (L & _) & _). pose proof (len_nonneg a). lia.
Qed.

Lemma reads_struct ks : Forall fkind_wf ks -> (0 < struct_size ks)%nat ->
  reads (rd_struct ks) (fun vs d => Forall2 fval_ok ks vs /\ d = enc_struct ks vs).
Proof.
  intros Hk Hs content pos Hb Hp. unfold rd_struct. destruct (read_struct content ks pos) as [l|x] eqn:E; cbn [bind].
  - pose proof (proj1 (read_struct_iff _ _ _ _ Hb Hk Hs) E) as [S F]. split; [|discriminate]. intros a p. split.
    + intros H. assert (a = l /\ p = pos + Z.of_nat (struct_size ks)) as [-> ->] by (split; congruence). exists (enc_struct ks l). unfold len. rewrite (enc_struct_length _ _ F). auto.
    + intros (d & [Fa ->] & Sa & ->). unfold len. rewrite (enc_struct_length _ _ Fa). assert (Q : read_struct content ks pos = Ok a) by (apply read_struct_iff; auto). congruence.
  - split.
    + intros a p. split; [discriminate|]. intros (d & [Fa ->] & Sa & ->). assert (Q : read_struct content ks pos = Ok a) by (apply read_struct_iff; auto). congruence.
    + intros y H. apply read_struct_err in E; [congruence|lia].
Qed.

Lemma reads_wide : reads rd_wide utf16_z.
Proof.
  intros content pos Hb Hp. unfold rd_wide.
  assert (Hz : is_bytes (zskipn pos content)) by (rewrite <- (zfirstn_zskipn content pos) in Hb; apply Forall_app in Hb as [_ Hb]; exact Hb).
  assert (St : forall d, stored_at content pos d <-> exists rest, zskipn pos content = d ++ rest).
  { intros d. split.
    - intros (pre & post & E & <-). exists post. rewrite E, zskipn_app_len by reflexivity. reflexivity.
    - intros [rest E]. exists (zfirstn pos content), rest. split; [rewrite <- E, zfirstn_zskipn; reflexivity|]. rewrite len_zfirstn; lia. }
  destruct (utf16_cstr (zskipn pos content)) as [[s n]|x] eqn:E; cbn [bind].
  - split; [|discriminate]. intros a p. split.
    + intros H. assert (a = s /\ p = pos + n) as [-> ->] by (split; congruence). apply utf16_cstr_iff in E as (d & rest & E & U & ->); [|exact Hz].
      exists d. split; [exact U|]. split; [|reflexivity]. apply St. eauto.
    + intros (d & U & S & ->). apply St in S as [rest S]. rewrite S, (utf16_cstr_ok _ _ _ U) in E. congruence.
  - apply utf16_cstr_err in E as E'. subst x. split; [|intros y H; congruence]. intros a p. split; [discriminate|].
    intros (d & U & S & ->). apply St in S as [rest S]. rewrite S, (utf16_cstr_ok _ _ _ U) in E. discriminate.
Qed.

Lemma reads_some {A} (o : option A) : reads (rd_some o) (fun a d => o = Some a /\ d = []).
Proof.
  intros content pos Hb Hp. unfold rd_some. destruct o as [x|].
  - split; [|discriminate]. intros a p. rewrite (proj1 (reads_ret x content pos Hb Hp) a p). split; intros (d & [E ->] & S); exists []; split; auto; split; auto; congruence.
  - split; [|intros x H; congruence]. intros a p. split; [discriminate|]. intros (d & [H _] & _). discriminate.
Qed.

Lemma reads_times {A} (r : reader A) e n : reads r e ->
  reads (rd_times n r) (fun l d => length l = n /\ exists ds, Forall2 e l ds /\ d = concat ds).
Proof.
  intros R. induction n as [|n IH]; cbn [rd_times]; intros content pos Hb Hp.
  - destruct (reads_ret (@nil A) content pos Hb Hp) as [R1 R2]. split; [|exact R2]. intros l p. rewrite R1. split.
    + intros (d & [-> ->] & S). exists []. split; [|exact S]. split; [reflexivity|]. exists []. split; [constructor|reflexivity].
    + intros (d & [L (ds & F & ->)] & S). destruct l; [|discriminate]. inversion F; subst. exists []. auto.
  - destruct (reads_bind _ _ _ _ R (fun a => reads_bind _ _ _ _ IH (fun l => reads_ret (a :: l))) content pos Hb Hp) as [R1 R2].
    split; [|exact R2]. intros l p. rewrite R1. split.
    + intros (d & (a & d1 & d2 & Ea & (l' & d3 & d4 & [L (ds & F & ->)] & [-> ->] & ->) & ->) & S & ->). eexists. split; [|split; [exact S|reflexivity]].
      split; [cbn; congruence|]. exists (d1 :: ds). split; [constructor; assumption|]. cbn [concat]. rewrite app_nil_r. reflexivity.
    + intros (d & [L (ds & F & ->)] & S & ->). inversion F as [|a d1 l' ds' Ea F' El Ed]; subst; [discriminate|]. eexists. split; [|split; [exact S|reflexivity]].
      exists a, d1, (concat ds'). split; [exact Ea|]. split; [|reflexivity]. exists l', (concat ds'), []. split; [|split; [auto|rewrite app_nil_r; reflexivity]].
      split; [cbn in L; congruence|]. eauto.
Qed.

(** The relation of a reader can be replaced by an equivalent one. *)
Lemma reads_iff {A} (r : reader A) (e f : A -> bytes -> Prop) : reads r e -> (forall a d, is_bytes d -> (e a d <-> f a d)) -> reads r f.
Proof.
  intros R H content pos Hb Hp. destruct (R content pos Hb Hp) as [R1 R2]. split; [|exact R2]. intros a p. rewrite R1.
  assert (Hd : forall d, stored_at content pos d -> is_bytes d).
  { intros d (pre & post & -> & _). apply Forall_app in Hb as [_ Hb]. apply Forall_app in Hb as [Hb _]. exact Hb. }
  split; intros (d & E & S & P); exists d; (split; [apply (H a d (Hd d S)); exact E|auto]).
Qed.

Lemma solid_int k : int_wf k -> solid (rd_int k).
Proof.
  intros Hk content pos Hp. pose proof (read_mems_far content k [] pos [] Hk ltac:(lia)) as E. cbn [read_mems read_mem] in E. unfold rd_int.
  destruct (read_struct content [k] pos) as [[|[z|] [|]]|]; cbn [bind] in *; congruence.
Qed.

Lemma solid_bytes n : 0 < n -> solid (rd_bytes n).
Proof.
  intros Hn content pos Hp. pose proof (len_nonneg content). unfold rd_bytes. destruct (Z.leb_spec 0 n); [|lia]. cbn [guard bind]. apply read_next_short; lia.
Qed.

Lemma solid_bind {A B} (r : reader A) (k : A -> reader B) : solid r -> solid (rd_bind r k).
Proof. intros H content pos Hp. unfold rd_bind. rewrite H by exact Hp. reflexivity. Qed.

(** A reader at any position. *)
Lemma reads_at {A} (r : reader A) e content pos : reads r e -> solid r -> is_bytes content -> 0 <= pos ->
  (forall a p, r content pos = Ok (a, p) <-> exists d, e a d /\ stored_at content pos d /\ p = pos + len d) /\
  (forall x, r content pos = Err x -> x = ParseError).
Proof.
  intros R S Hb Hp. destruct (Z.ltb_spec (len content) pos) as [L|L]; [|apply R; [exact Hb|lia]].
  rewrite (S content pos L). split; [|congruence]. intros a p. split; [discriminate|]. intros (d & _ & St & _). apply stored_at_inside in St. pose proof (len_nonneg d). lia.
Qed.

(** Finds the relation of a reader built from the combinators. *)
Ltac reads_tac tac :=
  match goal with
  | |- reads (rd_bind _ _) _ => eapply reads_bind; [reads_tac tac|intros ?; reads_tac tac]
  | |- reads (rd_ret _) _ => apply reads_ret
  | |- reads (rd_guard _) _ => apply reads_guard
  | |- reads (rd_int _) _ => apply reads_int; exact I || reflexivity || (cbn; lia) || kinds_wf
  | |- reads (rd_bytes _) _ => apply reads_bytes
  | |- reads (rd_some _) _ => apply reads_some
  | |- reads (rd_struct _) _ => apply reads_struct; [kinds_wf|cbn; lia]
  | |- reads rd_wide _ => apply reads_wide
  | |- reads (rd_times _ _) _ => eapply reads_times; reads_tac tac
  | |- _ => tac
  end.

(** A sequence of integers. *)
Lemma reads_ints k n : int_wf k -> reads (rd_times n (rd_int k)) (fun l d => length l = n /\ ints_ok k l /\ d = enc_ints k l).
Proof.
  intros Hk. eapply reads_iff; [apply reads_times, reads_int, Hk|]. intros l d Hd. cbv beta. split.
  - intros (L & ds & F & ->). split; [exact L|]. clear L Hd. induction F as [|v d l ds [Hv ->] F [IH1 IH2]]; [split; [constructor|reflexivity]|].
    split; [constructor; assumption|]. cbn [concat]. rewrite IH2. reflexivity.
  - intros (L & O & ->). split; [exact L|]. exists (map (fun v => enc_field k (VI v)) l). split; [|reflexivity].
    clear L Hd. induction O; constructor; [split; [assumption|reflexivity]|assumption].
Qed.

(** The two directions of an equivalence of relations: the members are taken from, or put into, a
    nest of pairs. *)
Ltac rel_out := repeat match goal with
  | H : exists _, _ |- _ => destruct H
  | H : _ /\ _ |- _ => destruct H
  end; subst.
Ltac rel_in := repeat match goal with |- exists _, _ => eexists | |- _ /\ _ => split end.

(** Reading until the end of the file. *)
Lemma rd_until_iff {A} (r : reader A) e content : reads r e -> (forall a d, e a d -> 0 < len d) -> is_bytes content ->
  forall fuel pos l, 0 <= pos -> len content < pos + Z.of_nat fuel ->
  (rd_until fuel r content pos (len content) = Done (Ok l) <-> exists ds, Forall2 e l ds /\ zskipn pos content = concat ds).
Proof.
  intros R Pos Hb.
  assert (Stop : forall pos l, len content <= pos -> (@Done (list A) (Ok []) = Done (Ok l) <-> exists ds, Forall2 e l ds /\ zskipn pos content = concat ds)).
  { intros pos l L. rewrite zskipn_all by lia. split.
    - intros H. assert (l = []) by congruence. subst l. exists []. split; [constructor|reflexivity].
    - intros (ds & F & E). destruct F as [|a d l ds Ha F]; [reflexivity|]. apply Pos in Ha. cbn [concat] in E. symmetry in E. apply app_eq_nil in E as [-> _]. change (len (@nil Z)) with 0 in Ha. lia. }
  induction fuel as [|fuel IH]; intros pos l Hp Hf; cbn [rd_until]; destruct (Z.ltb_spec pos (len content)) as [L|L]; try lia; try (apply Stop; exact L).
  destruct (R content pos Hb ltac:(lia)) as [R1 R2]. destruct (r content pos) as [[a p]|x] eqn:E.
  - destruct (proj1 (R1 a p) eq_refl) as (d & Ea & S & ->). apply Pos in Ea as Ld. specialize (IH (pos + len d)). pose proof (stored_at_inside _ _ _ S) as [_ In].
    apply stored_at_iff in S as (_ & _ & S). assert (Sk : zskipn pos content = d ++ zskipn (pos + len d) content).
    { rewrite <- (zfirstn_zskipn (zskipn pos content) (len d)) at 1. rewrite S. f_equal. rewrite zskipn_zskipn by lia. reflexivity. }
    split.
    + destruct (rd_until fuel r content (pos + len d) (len content)) as [[l'|]|] eqn:E2; cbn [rbind]; try discriminate. intros H. assert (l = a :: l') by congruence. subst l.
      destruct (proj1 (IH l' ltac:(lia) ltac:(lia)) eq_refl) as (ds & F & Ec). exists (d :: ds). split; [constructor; assumption|]. cbn [concat]. rewrite Sk, Ec. reflexivity.
    + intros (ds & F & Ec). destruct F as [|a' d' l ds Ha F]; [cbn [concat] in Ec; rewrite Sk in Ec; apply app_eq_nil in Ec as [-> _]; change (len (@nil Z)) with 0 in Ld; lia|].
      cbn [concat] in Ec. assert (Q : Ok (a, pos + len d) = Ok (a', pos + len d')).
      { apply R1. exists d'. split; [exact Ha|]. split; [|reflexivity]. exists (zfirstn pos content), (concat ds). split; [rewrite <- Ec, zfirstn_zskipn; reflexivity|]. rewrite len_zfirstn; lia. }
      assert (a' = a /\ pos + len d = pos + len d') as [-> Ld'] by (split; congruence).
      assert (d' = d) as ->.
      { apply (f_equal (zfirstn (len d))) in Ec. rewrite S, zfirstn_app_len in Ec by lia. congruence. }
      rewrite Sk in Ec. apply app_inv_head in Ec. rewrite (proj2 (IH l ltac:(lia) ltac:(lia))); [reflexivity|]. exists ds. auto.
  - split; [discriminate|]. intros (ds & F & Ec). destruct F as [|a d l ds Ha F].
    { cbn [concat] in Ec. apply (f_equal len) in Ec. rewrite len_zskipn in Ec by lia. change (len (@nil Z)) with 0 in Ec. lia. }
    assert (Q : Err x = Ok (a, pos + len d)); [|discriminate]. apply R1. exists d. split; [exact Ha|]. split; [|reflexivity]. cbn [concat] in Ec.
    exists (zfirstn pos content), (concat ds). split; [rewrite <- Ec, zfirstn_zskipn; reflexivity|]. rewrite len_zfirstn; lia.
Qed.

Lemma rd_until_ends {A} (r : reader A) e content : reads r e -> (forall a d, e a d -> 0 < len d) -> is_bytes content ->
  forall fuel pos, 0 <= pos -> len content < pos + Z.of_nat fuel ->
  exists x, rd_until fuel r content pos (len content) = Done x /\ (forall y, x = Err y -> y = ParseError).
Proof.
  intros R Pos Hb. induction fuel as [|fuel IH]; intros pos Hp Hf; cbn [rd_until]; destruct (Z.ltb_spec pos (len content)) as [L|L]; try lia;
    try (eexists; split; [reflexivity|discriminate]).
  destruct (R content pos Hb ltac:(lia)) as [R1 R2]. destruct (r content pos) as [[a p]|x] eqn:E.
  - destruct (proj1 (R1 a p) eq_refl) as (d & Ea & S & ->). apply Pos in Ea as Ld. destruct (IH (pos + len d) ltac:(lia) ltac:(lia)) as ([l|y] & -> & Hy); cbn [rbind].
    + eexists. split; [reflexivity|discriminate].
    + eexists. split; [reflexivity|]. intros z Hz. apply Hy. congruence.
  - eexists. split; [reflexivity|]. intros y Hy. apply R2. congruence.
Qed.

Lemma rd_data_iff {A} (r : reader A) e data a : reads r e -> is_bytes data -> (rd_data r data = Ok a <-> exists d rest, e a d /\ data = d ++ rest).
Proof.
  intros R Hb. pose proof (len_nonneg data). destruct (R data 0 Hb ltac:(lia)) as [R1 _]. unfold rd_data. split.
  - destruct (r data 0) as [[b p]|]; cbn [bind]; [|discriminate]. intros E. assert (b = a) by congruence. subst b. destruct (proj1 (R1 a p) eq_refl) as (d & Ea & (pre & post & Ed & Lp) & _).
    exists d, post. split; [exact Ea|]. destruct pre; [exact Ed|]. rewrite len_cons in Lp. pose proof (len_nonneg pre). lia.
  - intros (d & rest & Ea & Ed). rewrite (proj2 (R1 a (0 + len d))); [reflexivity|]. exists d. split; [exact Ea|]. split; [|reflexivity]. exists [], rest. split; [exact Ed|reflexivity].
Qed.

Lemma rd_data_errors {A} (r : reader A) e data x : reads r e -> is_bytes data -> rd_data r data = Err x -> x = ParseError.
Proof.
  intros R Hb. pose proof (len_nonneg data). destruct (R data 0 Hb ltac:(lia)) as [_ R2]. unfold rd_data. destruct (r data 0) as [[b p]|y]; cbn [bind]; [discriminate|]. intros E. assert (y = x) by congruence. subst y. apply R2. reflexivity.
Qed.

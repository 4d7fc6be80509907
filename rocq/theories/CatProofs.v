From Verif Require Import Base BaseFacts CoreModel CoreProofs GzipModel GzipProofs StrModel StrFacts SeqModel SeqSpec SeqFacts DictModel RdModel RdSpec RdFacts StructFacts
  TvModel TvSpec TvProofs CatModel CatSpec.

(** ** Readers *)

Lemma reads_cstring utf8 : reads (rd_cstring utf8) (string_bytes utf8).
Proof.
  intros content pos Hb Hp. unfold rd_cstring. split.
  - intros t p. split.
    + destruct (cstring_end _) as [s|] eqn:E; [|discriminate]. destruct (utf8 s) as [t'|] eqn:U; [|discriminate]. intros H.
      apply cstring_end_spec in E as (rest & E & N). exists (s ++ [0]). split; [exists s; split; [exact N|]; split; [congruence|reflexivity]|]. split.
      * apply stored_at_from; [exact Hp|]. exists rest. rewrite E, <- app_assoc. reflexivity.
      * rewrite len_app. change (len [0]) with 1. assert (p = pos + len s + 1) by congruence. lia.
    + intros (d & (s & N & U & ->) & S & ->). apply stored_at_from in S; [|exact Hp]. destruct S as [rest S]. rewrite S, <- app_assoc. cbn [app].
      rewrite cstring_end_app by exact N. rewrite U. rewrite len_app. change (len [0]) with 1. f_equal. f_equal. lia.
  - intros x. destruct (cstring_end _) as [s|]; [|congruence]. destruct (utf8 s); congruence.
Qed.

Lemma stored_at_bounds content pos d : stored_at content pos d -> 0 <= pos /\ pos + len d <= len content.
Proof. intros (pre & post & -> & <-). rewrite !len_app. pose proof (len_nonneg pre). pose proof (len_nonneg post). lia. Qed.

Lemma reads_aligned {A} (r : reader A) e : reads r e -> reads (rd_aligned r) (fun a d => aligned (e a) d).
Proof.
  intros R content pos Hb Hp. destruct (R content pos Hb Hp) as [R1 R2]. unfold rd_aligned. split.
  - intros a q. split.
    + destruct (r content pos) as [[a' p]|x] eqn:E; cbn [bind]; [|discriminate]. destruct (proj1 (R1 a' p) eq_refl) as (b & Eb & S & ->).
      pose proof (stored_at_bounds _ _ _ S) as Bd.
      destruct (reads_bytes ((- (pos + len b - pos)) mod 8) content (pos + len b) Hb) as [P1 P2]; [pose proof (len_nonneg b); lia|].
      destruct (rd_bytes _ content (pos + len b)) as [[pad q']|x] eqn:F; cbn [bind]; [|discriminate]. intros H.
      destruct (proj1 (P1 pad q') eq_refl) as (d' & [L ->] & S2 & Q).
      assert (a' = a /\ q' = q) as [-> ->] by (split; congruence). exists (b ++ pad). split; [|split].
      * exists b, pad. split; [exact Eb|]. split; [reflexivity|]. rewrite len_app, L. replace (pos + len b - pos) with (len b) by lia.
        pose proof (Z.mod_pos_bound (- len b) 8 ltac:(lia)). split; [lia|]. exists (- ((- len b) / 8)). pose proof (Z.div_mod (- len b) 8 ltac:(lia)). lia.
      * apply stored_at_app. split; assumption.
      * rewrite len_app. lia.
    + intros (d & (b & pad & Eb & -> & N) & S & ->). apply stored_at_app in S as [S1 S2].
      rewrite (proj2 (R1 a (pos + len b))) by eauto. cbn [bind]. pose proof (stored_at_bounds _ _ _ S1) as Bd.
      destruct (reads_bytes ((- (pos + len b - pos)) mod 8) content (pos + len b) Hb) as [P1 P2]; [pose proof (len_nonneg b); lia|].
      rewrite (proj2 (P1 pad (pos + len b + len pad))).
      2: { exists pad. split; [split; [|reflexivity]|auto]. destruct N as [N [k K]]. rewrite len_app in *. replace (pos + len b - pos) with (len b) by lia.
           apply (Z.mod_unique_pos _ _ (- k)); [pose proof (len_nonneg pad)|]; lia. }
      cbn [bind]. rewrite len_app. f_equal. f_equal. lia.
  - intros x. destruct (r content pos) as [[a' p]|y] eqn:E; cbn [bind]; [|intros H; apply R2; congruence].
    destruct (proj1 (R1 a' p) eq_refl) as (b & Eb & S & ->). pose proof (stored_at_bounds _ _ _ S) as Bd.
    destruct (reads_bytes ((- (pos + len b - pos)) mod 8) content (pos + len b) Hb) as [P1 P2]; [pose proof (len_nonneg b); lia|].
    destruct (rd_bytes _ content (pos + len b)) as [[pad q']|y] eqn:F; cbn [bind]; [discriminate|]. intros H. apply P2. congruence.
Qed.

Lemma covers_nil size : covers size [] <-> size <= 0.
Proof. unfold covers. cbn [concat]. change (len (@nil Z)) with 0. split; [intros [H _]; exact H|]. intros H. split; [exact H|]. intros init last E. destruct init; discriminate. Qed.

Lemma covers_cons size d ds : 0 < len d -> (covers size (d :: ds) <-> 0 < size /\ covers (size - len d) ds).
Proof.
  intros Hd. unfold covers. cbn [concat]. rewrite len_app. split.
  - intros [A B]. split; [|split].
    + destruct ds as [|x ds] using rev_ind; [specialize (B [] d eq_refl); exact B|]. specialize (B (d :: ds) x eq_refl). cbn [concat] in B. rewrite len_app in B.
      pose proof (len_nonneg (concat ds)). lia.
    + lia.
    + intros init last ->. specialize (B (d :: init) last eq_refl). cbn [concat] in B. rewrite len_app in B. lia.
  - intros (P & A & B). split; [lia|]. intros init last E. destruct init as [|y init]; [cbn [concat]; change (len (@nil Z)) with 0; lia|].
    cbn [app] in E. assert (y = d /\ ds = init ++ [last]) as [-> ->] by (split; congruence). specialize (B init last eq_refl). cbn [concat]. rewrite len_app. lia.
Qed.

Lemma reads_sized {A} (r : reader A) e : reads r e -> (forall a d, e a d -> 0 < len d) -> forall fuel size, size <= Z.of_nat fuel ->
  reads (rd_sized fuel r size) (fun l d => exists ds, Forall2 e l ds /\ covers size ds /\ d = concat ds).
Proof.
  intros R Pos. induction fuel as [|fuel IH]; intros size Hs content pos Hb Hp; cbn [rd_sized].
  - split; [|discriminate]. unfold rd_ret. intros l p. split.
    + intros H. assert (l = [] /\ p = pos) as [-> ->] by (split; congruence). exists []. split; [exists []; split; [constructor|]; split; [apply covers_nil; lia|reflexivity]|].
      split; [apply stored_at_from; [exact Hp|]; eexists; reflexivity|]. change (len (@nil Z)) with 0. lia.
    + intros (d & (ds & F & C & ->) & S & ->). destruct F as [|a d l ds Ea F]; [cbn; f_equal; f_equal; lia|]. apply covers_cons in C; [|eapply Pos; exact Ea]. lia.
  - destruct (Z.ltb_spec 0 size) as [L|L].
    2: { split; [|discriminate]. intros l p. split.
      + intros H. assert (l = [] /\ p = pos) as [-> ->] by (split; congruence). exists []. split; [exists []; split; [constructor|]; split; [apply covers_nil; lia|reflexivity]|].
        split; [apply stored_at_from; [exact Hp|]; eexists; reflexivity|]. change (len (@nil Z)) with 0. lia.
      + intros (d & (ds & F & C & ->) & S & ->). destruct F as [|a d l ds Ea F]; [cbn; f_equal; f_equal; lia|]. apply covers_cons in C; [|eapply Pos; exact Ea]. lia. }
    destruct (R content pos Hb Hp) as [R1 R2]. split.
    + intros l q. split.
      * destruct (r content pos) as [[a p]|x] eqn:E; cbn [bind]; [|discriminate]. destruct (proj1 (R1 a p) eq_refl) as (d & Ed & S & ->).
        pose proof (stored_at_bounds _ _ _ S) as Bd. pose proof (Pos _ _ Ed) as Pd.
        destruct (IH (size - (pos + len d - pos)) ltac:(lia) content (pos + len d) Hb ltac:(lia)) as [I1 I2].
        destruct (rd_sized fuel r _ content (pos + len d)) as [[l' q']|x] eqn:F; cbn [bind]; [|discriminate]. intros H.
        assert (l = a :: l' /\ q = q') as [-> ->] by (split; congruence).
        destruct (proj1 (I1 l' q') eq_refl) as (d' & (ds & F2 & C & ->) & S2 & ->). exists (d ++ concat ds). split; [|split].
        -- exists (d :: ds). split; [constructor; assumption|]. split; [|reflexivity]. apply covers_cons; [exact Pd|]. split; [exact L|].
           replace (size - len d) with (size - (pos + len d - pos)) by lia. exact C.
        -- apply stored_at_app. auto.
        -- rewrite len_app. lia.
      * intros (d & (ds & F & C & ->) & S & ->). destruct F as [|a d l ds Ea F]; [apply covers_nil in C; lia|]. pose proof (Pos _ _ Ea) as Pd.
        apply covers_cons in C as [_ C]; [|exact Pd]. cbn [concat] in *. apply stored_at_app in S as [S1 S2]. pose proof (stored_at_bounds _ _ _ S1) as Bd.
        rewrite (proj2 (R1 a (pos + len d))) by eauto. cbn [bind].
        destruct (IH (size - (pos + len d - pos)) ltac:(lia) content (pos + len d) Hb ltac:(lia)) as [I1 I2].
        rewrite (proj2 (I1 l (pos + len d + len (concat ds)))).
        2: { exists (concat ds). split; [exists ds; split; [exact F|]; split; [|reflexivity]|auto]. replace (size - (pos + len d - pos)) with (size - len d) by lia. exact C. }
        cbn [bind]. rewrite len_app. f_equal. f_equal. lia.
    + intros x. destruct (r content pos) as [[a p]|y] eqn:E; cbn [bind]; [|intros H; apply R2; congruence]. destruct (proj1 (R1 a p) eq_refl) as (d & Ed & S & ->).
      pose proof (stored_at_bounds _ _ _ S) as Bd. pose proof (Pos _ _ Ed) as Pd.
      destruct (IH (size - (pos + len d - pos)) ltac:(lia) content (pos + len d) Hb ltac:(lia)) as [I1 I2].
      destruct (rd_sized fuel r _ content (pos + len d)) as [[l' q']|y] eqn:F; cbn [bind]; [discriminate|]. intros H. apply I2. congruence.
Qed.

Lemma reads_s16 : reads (rd_int (FS LE 2)) s16.
Proof. eapply reads_iff; [apply (reads_int (FS LE 2)); cbn; lia|]. intros v d _. unfold s16. cbn [fval_ok enc_field enc_int]. change (8 * Z.of_nat 2 - 1) with 15. change (256 ^ Z.of_nat 2) with (2 ^ 16).
  split; intros [A B]; (split; [lia|exact B]).
Qed.

Ltac cat_reads := tv_reads_with ltac:(first [apply reads_s16 | apply reads_bytes]).

Lemma reads_uuid_entry : reads rd_uuid_entry uuid_entry_bytes.
Proof.
  unfold rd_uuid_entry. eapply reads_iff; [cat_reads|]. intros x d _. cbv beta. unfold uuid_entry_bytes. split.
  - intros H. rel_out. cbn [ue_size ue_index ue_lower ue_upper]. repeat (split; [assumption|]). eexists. split; [|rewrite app_nil_r; reflexivity]. assumption.
  - destruct x as [size index lower upper]. cbn [ue_size ue_index ue_lower ue_upper]. intros (A & B & C & D & u & U & ->).
    put size. put u. put index. put lower. eexists upper, _, []. split; [split; [exact D|reflexivity]|]. split; [auto|]. now rewrite app_nil_r.
Qed.

Lemma reads_sub_entry : reads rd_sub_entry sub_entry_bytes.
Proof.
  unfold rd_sub_entry. eapply reads_iff; [cat_reads|]. intros x d _. cbv beta. unfold sub_entry_bytes. split.
  - intros H. rel_out. cbn [se_id se_sub se_cat]. repeat (split; [assumption|]). rewrite app_nil_r. reflexivity.
  - destruct x as [id sub cat]. cbn [se_id se_sub se_cat]. intros (A & B & C & ->).
    put id. put sub. eexists cat, _, []. split; [split; [exact C|reflexivity]|]. split; [auto|]. now rewrite app_nil_r.
Qed.

Lemma count_len {A} (l : list A) n : 0 <= n -> (length l = Z.to_nat n <-> n = len l).
Proof. unfold len. lia. Qed.

Lemma reads_process : reads rd_process process_bytes.
Proof.
  unfold rd_process, process_bytes. eapply reads_iff.
  { apply reads_aligned. tv_reads_with ltac:(first [apply reads_s16 | apply reads_bytes | apply reads_uuid_entry | apply reads_sub_entry]). }
  intros p d _. cbv beta.
  assert (Eq : forall (P Q : bytes -> Prop), (forall b, P b <-> Q b) -> (aligned P d <-> aligned Q d)).
  { intros P Q H. unfold aligned. split; intros (b & pad & X & Y); exists b, pad; (split; [apply H; exact X|exact Y]). }
  apply Eq. intros b. split.
  - intros H. rel_out. cbn [pr_upper pr_lower pr_pid pr_euid pr_uuids pr_subs pr_main pr_dsc].
    match goal with H : length ?l = Z.to_nat ?n, N : n32 ?n |- _ => rewrite count_len in H by (unfold n32 in N; lia); subst n end.
    match goal with H : length ?l = Z.to_nat ?n, N : n32 ?n |- _ => rewrite count_len in H by (unfold n32 in N; lia); subst n end.
    repeat (split; [assumption|]). eexists _, _, _, _, _, _, _, _, _. rewrite app_nil_r.
    unshelve (do 9 (split; [shelve|]); reflexivity); assumption.
  - destruct p as [main dsc upper lower pid euid uuids subs]. cbn [pr_upper pr_lower pr_pid pr_euid pr_uuids pr_subs pr_main pr_dsc].
    intros (A1 & A2 & A3 & A4 & A5 & A6 & index & u1 & u2 & u3 & u4 & dm & dd & us & ss & B1 & B2 & B3 & B4 & B5 & B6 & B7 & B8 & B9 & ->).
    put index. put u1. put main. put dsc. put upper. put lower. put pid. put euid. put u2. put (len uuids). put u3.
    exists uuids, (concat us). eexists. split; [split; [unfold len; lia|eauto]|]. split; [|reflexivity]. put (len subs). put u4.
    exists subs, (concat ss), []. split; [split; [unfold len; lia|eauto]|]. split; [auto|]. now rewrite app_nil_r.
Qed.

Lemma Forall2_map_concat l ds : Forall2 (fun v d => n16 v /\ d = le_enc 2 v) l ds <-> Forall n16 l /\ ds = map (le_enc 2) l.
Proof.
  split.
  - induction 1 as [|v d l ds [A ->] F [B ->]]; [split; [constructor|reflexivity]|]. split; [constructor; assumption|reflexivity].
  - intros [F ->]. induction F; cbn; constructor; auto.
Qed.

Lemma reads_sub_chunk : reads rd_sub_chunk (fun _ d => sub_chunk_bytes d).
Proof.
  unfold rd_sub_chunk, sub_chunk_bytes. eapply reads_iff; [apply reads_aligned; cat_reads|]. intros [] d _. cbv beta.
  assert (Eq : forall (P Q : bytes -> Prop), (forall b, P b <-> Q b) -> (aligned P d <-> aligned Q d)).
  { intros P Q H. unfold aligned. split; intros (b & pad & X & Y); exists b, pad; (split; [apply H; exact X|exact Y]). }
  apply Eq. intros b. split.
  - intros H. rel_out.
    match goal with H : length ?l = Z.to_nat ?n, N : n32 ?n |- _ => rewrite count_len in H by (unfold n32 in N; lia); subst n end.
    match goal with H : length ?l = Z.to_nat ?n, N : n32 ?n |- _ => rewrite count_len in H by (unfold n32 in N; lia); subst n end.
    repeat match goal with H : Forall2 _ _ _ |- _ => apply Forall2_map_concat in H as [? ->] end.
    eexists _, _, _, _, _, _. rewrite app_nil_r. unshelve (do 8 (split; [shelve|]); reflexivity); assumption.
  - intros (start & stop & size & algorithm & indexes & offsets & A1 & A2 & A3 & A4 & A5 & A6 & A7 & A8 & ->).
    put start. put stop. put size. put algorithm. put (len indexes). eexists indexes, _, _. split; [split; [unfold len; lia|]|split; [|reflexivity]].
    { exists (map (le_enc 2) indexes). split; [apply Forall2_map_concat; auto|reflexivity]. }
    put (len offsets). eexists offsets, _, []. split; [split; [unfold len; lia|]|split; [auto|]].
    { exists (map (le_enc 2) offsets). split; [apply Forall2_map_concat; auto|reflexivity]. } now rewrite app_nil_r.
Qed.

Lemma Forall2_uuids (l ds : list bytes) : Forall2 (fun a d => len a = 16 /\ d = a) l ds <-> Forall (fun u => len u = 16) l /\ ds = l.
Proof.
  split.
  - induction 1 as [|v d l ds [A ->] F [B ->]]; [split; [constructor|reflexivity]|]. split; [constructor; assumption|reflexivity].
  - intros [F ->]. induction F; cbn; constructor; auto.
Qed.

Lemma Forall2_units (l : list unit) (ds : list bytes) : Forall2 (fun _ d => sub_chunk_bytes d) l ds <-> Forall sub_chunk_bytes ds /\ length l = length ds.
Proof.
  split.
  - induction 1 as [|v d l ds A F [B E]]; [split; [constructor|reflexivity]|]. split; [constructor; assumption|cbn; congruence].
  - intros [F E]. revert l E. induction F; intros [|x' l'] E; try discriminate; constructor; auto.
Qed.

Lemma string_pos utf8 t d : string_bytes utf8 t d -> 0 < len d.
Proof. intros (s & _ & _ & ->). rewrite len_app. change (len [0]) with 1. pose proof (len_nonneg s). lia. Qed.

Lemma reads_catalog utf8 : reads (rd_catalog utf8) (fun c d => exists ss, catalog_bytes utf8 c ss d).
Proof.
  unfold rd_catalog. eapply reads_iff.
  { eapply reads_bind; [apply reads_t16|intros so]. eapply reads_bind; [apply reads_t16|intros po]. eapply reads_bind; [apply reads_t16|intros n].
    eapply reads_bind; [apply reads_t16|intros co]. eapply reads_bind; [apply reads_t16|intros m]. eapply reads_bind; [apply reads_bytes|intros u1].
    eapply reads_bind; [apply reads_t64|intros earliest]. eapply reads_bind; [apply reads_times, reads_bytes|intros uuids]. eapply reads_bind; [apply reads_guard|intros x].
    eapply reads_bind; [apply (reads_sized _ _ (reads_cstring utf8) (string_pos utf8)); lia|intros strings].
    eapply reads_bind; [apply reads_times, reads_process|intros ps]. eapply reads_bind; [apply reads_times, reads_sub_chunk|intros chunks]. apply reads_ret. }
  intros c d _. cbv beta. split.
  - intros (so & d1 & d2 & [A1 ->] & (po & d3 & d4 & [A2 ->] & (n & d5 & d6 & [A3 ->] & (co & d7 & d8 & [A4 ->] & (m & d9 & d10 & [A5 ->] & (u1 & d11 & d12 & [A6 ->] & (earliest & d13 & d14 & [A7 ->]
      & (uuids & d15 & d16 & [A8 (ds & F & ->)] & (x & d17 & d18 & [A9 ->] & (strings & d19 & d20 & (ss & F2 & C & ->) & (ps & d21 & d22 & [A10 (qs & F3 & ->)] &
      (chunks & d23 & d24 & [A11 (ms & F4 & ->)] & [-> ->] & ->) & ->) & ->) & ->) & ->) & ->) & ->) & ->) & ->) & ->) & ->) & ->).
    apply Forall2_uuids in F as [F ->]. apply Forall2_units in F4 as [F4 Lm]. apply Z.leb_le in A9. unfold n16 in *.
    rewrite count_len in A8 by (apply Z.div_pos; lia). rewrite count_len in A10 by lia. rewrite count_len in A11 by lia.
    assert (Em : m = len ms) by (unfold len in *; lia).
    exists ss, so, po, co. eexists _, qs, ms. cbn [ca_earliest ca_uuids ca_strings ca_processes]. split; [|].
    { subst n m. split; [exact A1|]. split; [exact A2|]. split; [exact A3|]. split; [exact A4|]. split; [unfold n16; lia|]. split; [exact A7|]. exists u1. split; [exact A6|]. reflexivity. }
    repeat (split; [first [assumption | lia]|]). subst n m. rewrite <- Em. repeat rewrite <- app_assoc. cbn [app]. rewrite app_nil_r. reflexivity.
  - intros (ss & so & po & co & h & ps & ms & (A1 & A2 & A3 & A4 & A5 & A6 & u & Lu & ->) & F & Lf & Le & F2 & C & F3 & F4 & ->).
    destruct c as [earliest uuids strings processes]. cbn [ca_earliest ca_uuids ca_strings ca_processes] in *. repeat rewrite <- app_assoc.
    put so. put po. put (len processes). put co. put (len ms). put u. put earliest. eexists uuids, _, _. split; [split; [unfold len in Lf; lia|]|split; [|reflexivity]].
    { exists uuids. split; [apply Forall2_uuids; auto|reflexivity]. }
    eexists tt, [], _. split; [split; [apply Z.leb_le; exact Le|reflexivity]|]. split; [|reflexivity]. eexists strings, _, _. split; [exists ss; split; [exact F2|]; split; [exact C|reflexivity]|].
    split; [|reflexivity]. eexists processes, _, _. split; [split; [unfold len; lia|]|split; [|reflexivity]]. { eauto. }
    exists (repeat tt (length ms)). eexists _, []. split; [split; [rewrite repeat_length; unfold len; lia|]|split; [auto|]].
    { exists ms. split; [apply Forall2_units; split; [exact F4|apply repeat_length]|reflexivity]. } now rewrite app_nil_r.
Qed.

Lemma solid_catalog utf8 : solid (rd_catalog utf8).
Proof. apply solid_bind, solid_int. cbn. lia. Qed.

(** A documented catalog is read. *)
Lemma documented_bytes utf8 c ss d : catalog_documented utf8 c ss d -> catalog_bytes utf8 c ss d.
Proof.
  intros (h & ps & ms & Hh & Hu & Hs & Hp & Hm & ->).
  assert (L : len (concat (ca_uuids c)) = 16 * len (ca_uuids c)).
  { clear -Hu. induction Hu as [|u l E F IH]; [reflexivity|]. cbn [concat]. rewrite len_app, len_cons. lia. }
  eexists _, _, _, h, ps, ms. split; [exact Hh|]. split; [exact Hu|]. split; [rewrite L, Z.mul_comm, Z.div_mul by lia; reflexivity|].
  split; [pose proof (len_nonneg (concat ss)); lia|]. split; [exact Hs|]. split; [|auto].
  split; [lia|]. intros init last ->. rewrite concat_app, len_app. cbn [concat]. rewrite app_nil_r.
  assert (0 < len last); [|lia]. apply Forall2_app_inv_r in Hs as (l1 & l2 & F1 & F2 & _). inversion F2 as [|t d' l ds E F]; subst. eapply string_pos. exact E.
Qed.

(** ** Process information *)

Lemma proc_id_inj u l u' l' : 0 <= u -> 0 <= l -> 0 <= u' -> 0 <= l' -> proc_id u l = proc_id u' l' -> u = u' /\ l = l'.
Proof.
  intros. unfold proc_id, fmt_d in *. cbn [app] in *.
  match goal with H : _ ++ 64 :: _ = _ |- _ => apply sep_inj in H; [|apply no_sep; lia|apply no_sep; lia]; destruct H as [Eu El] end.
  apply fmt_int_inj in Eu, El; lia.
Qed.

Lemma by_index_iff uuids i : (forall o, by_index uuids i = Ok o <-> i < len uuids /\ uuid_of uuids i o) /\ (forall e, by_index uuids i = Err e <-> len uuids <= i /\ e = IndexError).
Proof.
  unfold by_index. destruct (Z.ltb_spec i 0) as [L|L].
  - pose proof (len_nonneg uuids). split; [|intros e; split; [discriminate|lia]]. intros [u|]; cbn [uuid_of]; split.
    + discriminate.
    + intros [_ (a & b & _ & E)]. pose proof (len_nonneg a). lia.
    + intros _. lia.
    + reflexivity.
  - destruct (nth_error uuids (Z.to_nat i)) as [u|] eqn:N.
    + assert (Hi : i < len uuids) by (assert (nth_error uuids (Z.to_nat i) <> None) as Q by congruence; apply nth_error_Some in Q; unfold len; lia).
      split; [|intros e; split; [discriminate|lia]]. intros [v|]; cbn [uuid_of]; split.
      * intros [= <-]. split; [exact Hi|]. apply nth_error_split in N as (a & b & -> & E). exists a, b. split; [reflexivity|]. unfold len. lia.
      * intros [_ (a & b & E & La)]. f_equal. f_equal. subst uuids. assert (La' : Z.to_nat i = length a) by (unfold len in La; lia). rewrite La' in N.
        rewrite nth_error_app2 in N by lia. rewrite Nat.sub_diag in N. cbn in N. congruence.
      * discriminate.
      * lia.
    + apply nth_error_None in N. assert (len uuids <= i) by (unfold len; lia). split; [intros o; split; [discriminate|lia]|]. intros e. split; [intros [= <-]; auto|]. intros [_ ->]. reflexivity.
Qed.

Definition in_range (p : process) : Prop := 0 <= pr_upper p /\ 0 <= pr_lower p.

(** The dictionary holds the processes [l]. *)
Definition holds (uuids : list bytes) (t : sdict known) (l : list process) : Prop :=
  forall u w, 0 <= u -> 0 <= w -> forall k, sdict_get (proc_id u w) t = Some k <->
    In (kn_process k) l /\ id_of (kn_process k) = (u, w) /\ uuid_of uuids (pr_main (kn_process k)) (kn_main k) /\ uuid_of uuids (pr_dsc (kn_process k)) (kn_dsc k).

Lemma uuid_of_fun uuids i a b : uuid_of uuids i a -> uuid_of uuids i b -> a = b.
Proof.
  intros A B. destruct (Z.lt_ge_cases i (len uuids)) as [L|L].
  - destruct (by_index_iff uuids i) as [H _]. assert (by_index uuids i = Ok a) by (apply H; auto). assert (by_index uuids i = Ok b) by (apply H; auto). congruence.
  - assert (N : forall o, ~ uuid_of uuids i o).
    { intros [u|]; cbn.
      - intros (x & y & -> & E). rewrite len_app, len_cons in L. pose proof (len_nonneg y). lia.
      - pose proof (len_nonneg uuids). lia. }
    exfalso. exact (N a A).
Qed.

Lemma uuid_of_ex uuids i : i < len uuids -> exists o, uuid_of uuids i o.
Proof.
  intros L. destruct (by_index_iff uuids i) as [H1 H2]. destruct (by_index uuids i) as [o|e] eqn:E.
  - exists o. apply (H1 o). reflexivity.
  - destruct (proj1 (H2 e) eq_refl). lia.
Qed.

Lemma holds_get uuids t l p : holds uuids t l -> Forall in_range (p :: l) -> Forall (indexes_ok uuids) l ->
  (sdict_get (proc_id (pr_upper p) (pr_lower p)) t = None <-> ~ In (id_of p) (map id_of l)).
Proof.
  intros H R Ok. inversion R as [|? ? [Ru Rl] Rr]; subst. split.
  - intros N I. apply in_map_iff in I as (q & E & I). rewrite Forall_forall in Ok. destruct (Ok q I) as [O1 O2].
    destruct (uuid_of_ex _ _ O1) as [m M]. destruct (uuid_of_ex _ _ O2) as [s D].
    assert (sdict_get (proc_id (pr_upper p) (pr_lower p)) t = Some (mkkn q m s)); [|congruence]. apply H; auto.
  - intros N. destruct (sdict_get _ t) as [k|] eqn:G; [|reflexivity]. apply H in G; [|assumption|assumption]. destruct G as (I & E & _). exfalso. apply N.
    unfold id_of at 1. rewrite <- E. apply in_map. exact I.
Qed.

Lemma holds_add uuids t l p main dsc : holds uuids t l -> Forall in_range (p :: l) -> Forall (indexes_ok uuids) l -> ~ In (id_of p) (map id_of l) ->
  uuid_of uuids (pr_main p) main -> uuid_of uuids (pr_dsc p) dsc -> holds uuids (sdict_set (proc_id (pr_upper p) (pr_lower p)) (mkkn p main dsc) t) (l ++ [p]).
Proof.
  intros H R Ok N M D u w Hu Hw k. inversion R as [|? ? [Ru Rl] Rr]; subst.
  destruct (list_eqb (proc_id (pr_upper p) (pr_lower p)) (proc_id u w)) eqn:E.
  - apply list_eqb_eq in E. apply proc_id_inj in E; try assumption. destruct E as [<- <-]. rewrite sdict_get_set_same. split.
    + intros [= <-]. cbn [kn_process kn_main kn_dsc]. split; [apply in_or_app; right; left; reflexivity|]. auto.
    + destruct k as [q m' d']. cbn [kn_process kn_main kn_dsc]. intros (I & E & M' & D'). apply in_app_or in I as [I|[<-|[]]].
      * exfalso. apply N. unfold id_of at 1. rewrite <- E. apply in_map. exact I.
      * rewrite (uuid_of_fun _ _ _ _ M M'), (uuid_of_fun _ _ _ _ D D'). reflexivity.
  - rewrite sdict_get_set_other; [|intros X; rewrite X, list_eqb_refl in E; discriminate]. rewrite (H u w Hu Hw k). split.
    + intros (I & X). split; [apply in_or_app; auto|exact X].
    + intros (I & X & Y). split; [|auto]. apply in_app_or in I as [I|[I|[]]]; [exact I|]. exfalso. unfold id_of in X. rewrite <- I in X. assert (pr_upper p = u /\ pr_lower p = w) as [<- <-] by (split; congruence).
      rewrite list_eqb_refl in E. discriminate.
Qed.

Lemma NoDup_snoc {A} (l : list A) x : NoDup (l ++ [x]) <-> NoDup l /\ ~ In x l.
Proof.
  split.
  - intros H. apply NoDup_remove in H as [A1 A2]. rewrite app_nil_r in *. auto.
  - intros [A1 A2]. apply NoDup_Add with (a := x) (l := l); [|auto]. rewrite <- (app_nil_r l) at 1. apply Add_app.
Qed.

Lemma build_follows uuids l : forall t done, holds uuids t done -> Forall in_range (done ++ l) -> processes_ok uuids done ->
  match build_processes uuids l t with
  | Ok t' => holds uuids t' (done ++ l) /\ processes_ok uuids (done ++ l)
  | Err e => processes_bad uuids (done ++ l) e
  end.
Proof.
  induction l as [|p l IH]; intros t done H R O; cbn [build_processes]; [rewrite app_nil_r; auto|].
  assert (Rp : Forall in_range (p :: done)) by (apply Forall_app in R as [R1 R2]; inversion R2; subst; constructor; assumption).
  destruct (by_index_iff uuids (pr_main p)) as [M1 M2]. destruct (by_index_iff uuids (pr_dsc p)) as [D1 D2]. destruct O as [O1 O2].
  destruct (by_index uuids (pr_main p)) as [main|e] eqn:EM; cbn [bind].
  2: { destruct (proj1 (M2 e) eq_refl) as [L ->]. exists done, p, l. split; [reflexivity|]. split; [split; assumption|]. left. split; [|reflexivity]. intros [X _]. lia. }
  destruct (by_index uuids (pr_dsc p)) as [dsc|e] eqn:ED; cbn [bind].
  2: { destruct (proj1 (D2 e) eq_refl) as [L ->]. exists done, p, l. split; [reflexivity|]. split; [split; assumption|]. left. split; [|reflexivity]. intros [_ X]. lia. }
  destruct (proj1 (M1 main) eq_refl) as [LM UM]. destruct (proj1 (D1 dsc) eq_refl) as [LD UD].
  pose proof (holds_get uuids t done p H Rp O1) as G. destruct (sdict_get _ t) as [k|] eqn:EG.
  - exists done, p, l. split; [reflexivity|]. split; [split; assumption|]. right. split; [split; assumption|]. split; [|reflexivity].
    destruct (in_dec (fun a b : Z * Z => ltac:(decide equality; apply Z.eq_dec)) (id_of p) (map id_of done)) as [I|N]; [exact I|]. apply G in N. discriminate.
  - assert (N : ~ In (id_of p) (map id_of done)) by (apply G; reflexivity).
    specialize (IH (sdict_set (proc_id (pr_upper p) (pr_lower p)) (mkkn p main dsc) t) (done ++ [p])). rewrite <- app_assoc in IH. cbn [app] in IH. apply IH.
    + apply holds_add; assumption.
    + exact R.
    + split; [apply Forall_app; split; [exact O1|constructor; [split; assumption|constructor]]|]. rewrite map_app. apply NoDup_snoc. auto.
Qed.

Lemma bad_not_ok uuids l e : processes_bad uuids l e -> ~ processes_ok uuids l.
Proof.
  intros (a & p & b & -> & _ & X) [O N]. destruct X as [[X _]|(_ & X & _)].
  - apply X. rewrite Forall_forall in O. apply O. apply in_or_app. right. left. reflexivity.
  - rewrite map_app in N. cbn [map] in N. apply NoDup_remove_2 in N. apply N. apply in_or_app. auto.
Qed.

Lemma ok_prefix uuids a b : processes_ok uuids (a ++ b) -> processes_ok uuids a.
Proof.
  intros [O N]. split; [apply Forall_app in O; tauto|]. rewrite map_app in N. clear O. induction (map id_of a) as [|x l IH]; [constructor|]. cbn in N. inversion N as [|? ? X Y]; subst.
  constructor; [|apply IH; exact Y]. intros I. apply X. apply in_or_app. auto.
Qed.

Lemma bad_fun uuids l e e' : processes_bad uuids l e -> processes_bad uuids l e' -> e = e'.
Proof.
  intros (a & p & b & -> & O & X) (a' & p' & b' & E & O' & X').
  assert (Bad : forall x q y, ((~ indexes_ok uuids q /\ y = IndexError) \/ (indexes_ok uuids q /\ In (id_of q) (map id_of x) /\ y = ParseError)) -> forall z, ~ processes_ok uuids (x ++ q :: z)).
  { intros x q y H z P. apply (bad_not_ok uuids (x ++ q :: z) y); [|exact P]. exists x, q, z. split; [reflexivity|]. split; [eapply ok_prefix; exact P|exact H]. }
  apply app_eq_app in E as (w & [[-> E]|[-> E]]).
  - destruct w as [|x w]; [cbn in E; injection E as <- <-|].
    + rewrite app_nil_r in *. destruct X as [[X1 ->]|(X1 & X2 & ->)], X' as [[Y1 ->]|(Y1 & Y2 & ->)]; auto; contradiction.
    + cbn in E. injection E as <- ->. exfalso. exact (Bad a' p' e' X' w O).
  - destruct w as [|x w]; [cbn in E; injection E as <- <-|].
    + rewrite app_nil_r in *. destruct X as [[X1 ->]|(X1 & X2 & ->)], X' as [[Y1 ->]|(Y1 & Y2 & ->)]; auto; contradiction.
    + cbn in E. injection E as <- ->. exfalso. exact (Bad a p e X w O').
Qed.

Lemma processes_range utf8 c ss d : catalog_bytes utf8 c ss d -> Forall in_range (ca_processes c).
Proof.
  intros (so & po & co & h & ps & ms & _ & _ & _ & _ & _ & _ & F & _). induction F as [|p b l ps H F IH]; constructor; [|exact IH].
  destruct H as (x & pad & (A & B & _) & _). unfold n64, n32, in_range in *. lia.
Qed.

Lemma holds_nil uuids : holds uuids [] [].
Proof. intros u w _ _ k. cbn. split; [discriminate|intros [[] _]]. Qed.

Lemma load_sound utf8 content off : is_bytes content -> 0 <= off ->
  match load_catalog utf8 content off with
  | Ok cs => exists ss d, catalog_bytes utf8 (cs_catalog cs) ss d /\ stored_at content off d /\ processes_ok (ca_uuids (cs_catalog cs)) (ca_processes (cs_catalog cs)) /\
      cs_strings cs = strings_map 0 (ca_strings (cs_catalog cs)) /\ holds (ca_uuids (cs_catalog cs)) (cs_processes cs) (ca_processes (cs_catalog cs))
  | Err e => (e = ParseError /\ forall c ss d, catalog_bytes utf8 c ss d -> ~ stored_at content off d) \/
      exists c ss d, catalog_bytes utf8 c ss d /\ stored_at content off d /\ processes_bad (ca_uuids c) (ca_processes c) e
  end.
Proof.
  intros Hb Ho. destruct (reads_at _ _ content off (reads_catalog utf8) (solid_catalog utf8) Hb Ho) as [R1 R2]. unfold load_catalog.
  destruct (rd_catalog utf8 content off) as [[c p]|x] eqn:E; cbn [bind].
  - destruct (proj1 (R1 c p) eq_refl) as (d & [ss B] & S & _).
    pose proof (build_follows (ca_uuids c) (ca_processes c) [] [] (holds_nil _) (processes_range _ _ _ _ B) ltac:(split; constructor)) as F. cbn [app] in F.
    destruct (build_processes _ _ _) as [t|e]; cbn [bind].
    + destruct F as [F1 F2]. exists ss, d. cbn [cs_catalog cs_strings cs_processes]. auto.
    + right. exists c, ss, d. auto.
  - left. split; [apply R2; reflexivity|]. intros c ss d B S. assert (Err x = Ok (c, off + len d)); [|discriminate]. apply R1. exists d. eauto.
Qed.

(** ** Strings *)

Lemma zget_none {A} k (l : list (Z * A)) : Forall (fun x => fst x <> k) l -> zget k l = None.
Proof. induction 1 as [|[k' v] l H F IH]; [reflexivity|]. cbn [zget]. rewrite IH. cbn [fst] in H. apply Z.eqb_neq in H. rewrite H. reflexivity. Qed.

Lemma strings_map_from off ts : Forall (fun x => off <= fst x) (strings_map off ts).
Proof.
  revert off. induction ts as [|t ts IH]; intros off; cbn [strings_map]; constructor; [cbn; lia|]. eapply Forall_impl; [|apply IH]. cbn. intros a H. pose proof (len_nonneg t). lia.
Qed.

Lemma strings_get ts ss : plain_strings ts ss -> forall base off t, zget (base + off) (strings_map base ts) = Some t <-> string_at ts ss off t.
Proof.
  induction 1 as [|x d ts ss L F IH]; intros base off t; cbn [strings_map zget].
  - split; [discriminate|]. intros (a & d & b & a' & b' & E & _). destruct a; discriminate.
  - pose proof (len_nonneg x) as Lx. specialize (IH (base + len x + 1) (off - len d) t). replace (base + len x + 1 + (off - len d)) with (base + off) in IH by lia.
    assert (Step : string_at (x :: ts) (d :: ss) off t <-> (off = 0 /\ t = x) \/ string_at ts ss (off - len d) t).
    { split.
      - intros (a & d' & b & a' & b' & E & E' & La & ->). destruct a as [|y a], a' as [|y' a']; try (cbn in La; unfold len in La; cbn in La; lia).
        + left. cbn in E'. split; [reflexivity|congruence].
        + right. cbn [app] in E, E'. assert (y = d /\ ss = a ++ d' :: b) as [-> ->] by (split; congruence). assert (ts = a' ++ t :: b') as -> by congruence.
          exists a, d', b, a', b'. split; [reflexivity|]. split; [reflexivity|]. rewrite !len_cons in La. split; [lia|]. cbn [concat]. rewrite len_app. lia.
      - intros [[-> ->]|(a & d' & b & a' & b' & -> & -> & La & E)].
        + exists [], d, ss, [], ts. auto.
        + exists (d :: a), d', b, (x :: a'), b'. split; [reflexivity|]. split; [reflexivity|]. rewrite !len_cons. split; [lia|]. cbn [concat]. rewrite len_app. lia. }
    rewrite Step. destruct (zget (base + off) (strings_map (base + len x + 1) ts)) as [y|] eqn:G.
    + split.
      * intros [= <-]. right. apply IH. reflexivity.
      * intros [[-> ->]|S]; [|apply IH; exact S]. exfalso.
        rewrite zget_none in G; [discriminate|]. eapply Forall_impl; [|apply strings_map_from]. cbn. intros a Ha. lia.
    + destruct (Z.eqb_spec base (base + off)) as [E|E].
      * split; [intros [= <-]; left; split; [lia|reflexivity]|]. intros [[_ ->]|S]; [reflexivity|]. apply IH in S. discriminate.
      * split; [discriminate|]. intros [[-> _]|S]; [lia|]. apply IH in S. discriminate.
Qed.

Lemma fold_last {A} (f : sub_entry -> A) id l : forall r,
  (forall x, last_entry l id x -> fold_left (fun r e => if se_id e =? id then f e else r) l r = f x) /\
  (Forall (fun y => se_id y <> id) l -> fold_left (fun r e => if se_id e =? id then f e else r) l r = r).
Proof.
  induction l as [|y l IH]; intros r; cbn [fold_left].
  - split; [|reflexivity]. intros x (a & b & E & _). destruct a; discriminate.
  - split.
    + intros x (a & b & E & Ex & Fb). destruct a as [|z a].
      * cbn in E. assert (y = x /\ l = b) as [-> ->] by (split; congruence). apply Z.eqb_eq in Ex. rewrite Ex. apply (proj2 (IH (f x))). exact Fb.
      * cbn in E. assert (z = y /\ l = a ++ x :: b) as [-> ->] by (split; congruence). apply (proj1 (IH _)). exists a, b. auto.
    + intros F. inversion F as [|? ? N F']; subst. apply Z.eqb_neq in N. rewrite N. apply (proj2 (IH r)). exact F'.
Qed.

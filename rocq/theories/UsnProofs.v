From Verif Require Import Base BaseFacts CoreModel CoreProofs VarModel VarFacts StructFacts SeqModel SeqSpec SeqFacts UsnModel UsnSpec.

Definition usn_vals (r : usn_record) (name : bytes) : list fval :=
  [VI (60 + len name + len (us_padding r)); VI 2; VI 0; VI (us_file r); VI (us_parent r); VI (us_sequence r); VI (us_time r);
   VI (us_reason r); VI (us_source r); VI (us_security r); VI (us_attributes r); VI (len name); VI (us_name_offset r)].

Lemma usn_bytes_enc r name : usn_bytes r name = enc_struct usn_layout (usn_vals r name) ++ name ++ us_padding r.
Proof.
  unfold usn_bytes, usn_layout, usn_vals. cbn [enc_struct enc_field enc_int]. rewrite app_nil_r. repeat rewrite <- app_assoc. reflexivity.
Qed.

Lemma usn_vals_ok utf16 r name : usn_ok utf16 r name -> Forall2 fval_ok usn_layout (usn_vals r name).
Proof.
  intros (H8 & H4 & Ho & Hn & Hs & _). unfold usn_layout, usn_vals.
  repeat match goal with H : Forall _ (_ :: _) |- _ => let X := fresh in pose proof (Forall_inv H) as X; apply Forall_inv_tail in H; cbv beta in X end.
  pose proof (len_nonneg name). pose proof (len_nonneg (us_padding r)).
  change (2 ^ 64) with (256 ^ Z.of_nat 8) in *. change (2 ^ 32) with (256 ^ Z.of_nat 4) in *. change (2 ^ 16) with (256 ^ Z.of_nat 2) in *.
  repeat (apply Forall2_cons; [cbn [fval_ok]; first [assumption | split; [lia|assumption] | vm_compute; split; congruence]|]).
  apply Forall2_nil.
Qed.

Lemma usn_bytes_len utf16 r name : usn_ok utf16 r name -> len (usn_bytes r name) = 60 + len name + len (us_padding r).
Proof.
  intros H. rewrite usn_bytes_enc, !len_app. unfold len at 1. rewrite enc_struct_length by (eapply usn_vals_ok; exact H).
  change (Z.of_nat (struct_size usn_layout)) with 60. lia.
Qed.

Lemma usn_read_enc utf16 pre r name post off : usn_ok utf16 r name -> off = len pre ->
  usn_read_record utf16 (pre ++ usn_bytes r name ++ post) off = Ok (r, len (usn_bytes r name)).
Proof.
  intros H Hp. unfold usn_read_record. rewrite (usn_bytes_len utf16) by exact H. rewrite usn_bytes_enc. rewrite <- app_assoc.
  rewrite read_var_enc.
  - cbn [bind usn_vals]. rewrite len_app. pose proof (len_nonneg (us_padding r)).
    destruct (Z.leb_spec (len name) (len name + len (us_padding r))); [|lia]. cbn [Z.eqb Pos.eqb andb guard bind].
    rewrite zfirstn_app_len by reflexivity. rewrite zskipn_app_len by reflexivity. destruct H as (_ & _ & _ & _ & _ & _ & ->).
    match goal with |- Ok (_, ?a) = Ok (_, ?b) => replace a with b; [destruct r; reflexivity|change (Z.of_nat (struct_size usn_layout)) with 60; lia] end.
  - eapply usn_vals_ok; exact H.
  - exact Hp.
  - unfold usn_vals. cbn [usn_ext]. rewrite len_app. lia.
Qed.

Lemma le4_nonzero z : 0 < z < 2 ^ 32 -> forall a b, le_enc 4 z ++ a <> repeat 0 4 ++ b.
Proof.
  intros Hz a b E. apply (f_equal (zfirstn 4)) in E. rewrite !zfirstn_app_len in E by (rewrite ?len_le_enc; reflexivity).
  apply (f_equal le_int) in E. rewrite le_int_enc in E by (change (256 ^ Z.of_nat 4) with (2 ^ 32); lia). cbn in E. lia.
Qed.

(** A record is not an empty header. *)
Lemma usn_not_empty utf16 r name rest : usn_ok utf16 r name -> zfirstn 60 (usn_bytes r name ++ rest) <> repeat 0 60.
Proof.
  intros H E. unfold usn_bytes in E. pose proof (len_nonneg name). pose proof (len_nonneg (us_padding r)).
  destruct H as (_ & _ & _ & _ & Hs & _).
  assert (X : exists b, zfirstn 60 ((le_enc 4 (60 + len name + len (us_padding r)) ++ le_enc 2 2 ++ le_enc 2 0 ++
     le_enc 8 (us_file r) ++ le_enc 8 (us_parent r) ++ le_enc 8 (us_sequence r) ++ le_enc 8 (us_time r) ++
     le_enc 4 (us_reason r) ++ le_enc 4 (us_source r) ++ le_enc 4 (us_security r) ++ le_enc 4 (us_attributes r) ++
     le_enc 2 (len name) ++ le_enc 2 (us_name_offset r) ++ name ++ us_padding r) ++ rest) = le_enc 4 (60 + len name + len (us_padding r)) ++ b).
  { rewrite <- app_assoc. rewrite zfirstn_firstn, firstn_app, le_enc_length.
    rewrite (firstn_all2 (le_enc 4 _)) by (rewrite le_enc_length; change (Z.to_nat 60) with 60%nat; lia). eauto. }
  destruct X as [b X]. rewrite X in E. change (repeat 0 60) with (repeat 0 4 ++ repeat 0 56) in E.
  apply le4_nonzero in E; [exact E|lia].
Qed.

(** The inner loop over stored records. *)
Lemma usn_block_run utf16 rs d : usn_stored utf16 rs d -> forall fuel pre post off block,
  (length rs < fuel)%nat -> len d <= block ->
  (block - len d <= 60 \/ zfirstn 60 post = repeat 0 60) ->
  usn_block fuel utf16 (pre ++ d ++ post) (mkust (len pre) off block) =
  (rs, Some (Ok (mkust (len pre + len d + (if block - len d <=? 60 then 0 else 60)) (off + len d) (block - len d)))).
Proof.
  induction 1 as [|r name rs d Hr Hs IH]; intros fuel pre post off block Hf Hb Ht.
  - destruct fuel as [|fuel]; [cbn in Hf; lia|]. cbn [usn_block ust_block ust_pos ust_offset]. rewrite len_nil in *. rewrite Z.sub_0_r in *. cbn [app].
    destruct (Z.leb_spec block 60).
    + rewrite !Z.add_0_r. reflexivity.
    + destruct Ht as [Ht|Ht]; [lia|]. rewrite zskipn_app_len by reflexivity. rewrite Ht. rewrite list_eqb_refl.
      rewrite len_repeat. rewrite !Z.add_0_r. reflexivity.
  - destruct fuel as [|fuel]; [cbn in Hf; lia|]. cbn [usn_block ust_block ust_pos ust_offset].
    pose proof (usn_bytes_len utf16 r name Hr) as L. assert (Ln : 0 < len name).
    { destruct Hr as (_ & _ & _ & _ & _ & Hn & _). destruct name; [contradiction|]. rewrite len_cons. pose proof (len_nonneg name). lia. }
    pose proof (len_nonneg (us_padding r)). pose proof (len_nonneg d). rewrite len_app in *.
    destruct (Z.leb_spec block 60); [lia|]. rewrite <- app_assoc. rewrite zskipn_app_len by reflexivity.
    rewrite (proj2 (list_eqb_neq _ _)) by (eapply usn_not_empty; exact Hr).
    assert (L60 : len (zfirstn 60 (usn_bytes r name ++ d ++ post)) = 60) by (rewrite len_zfirstn, !len_app; pose proof (len_nonneg post); lia).
    rewrite L60. replace (len pre + 60 - 60) with (len pre) by lia. pose proof (len_nonneg pre). destruct (Z.ltb_spec (len pre) 0); [lia|].
    rewrite (usn_read_enc utf16) by (assumption || reflexivity).
    rewrite (app_assoc pre). replace (len pre + len (usn_bytes r name)) with (len (pre ++ usn_bytes r name)) by (rewrite len_app; reflexivity).
    rewrite IH.
    + rewrite len_app. do 4 f_equal; [|lia..]. replace (block - len (usn_bytes r name) - len d) with (block - (len (usn_bytes r name) + len d)) by lia. lia.
    + cbn [length] in Hf. lia.
    + lia.
    + destruct Ht as [Ht|Ht]; [left; lia|right; exact Ht].
Qed.

Lemma usn_stored_count utf16 rs d : usn_stored utf16 rs d -> 61 * len rs <= len d.
Proof.
  induction 1 as [|r name rs d Hr Hs IH]; [cbn; lia|]. rewrite len_cons, len_app, (usn_bytes_len utf16) by exact Hr.
  assert (Ln : 0 < len name).
  { destruct Hr as (_ & _ & _ & _ & _ & Hn & _). destruct name; [contradiction|]. rewrite len_cons. pose proof (len_nonneg name). lia. }
  pose proof (len_nonneg (us_padding r)). lia.
Qed.

Lemma usn_record_size utf16 content off r n : usn_read_record utf16 content off = Ok (r, n) -> 60 <= n.
Proof.
  unfold usn_read_record. destruct (read_var content usn_layout usn_ext off) as [[[vs d] m]|] eqn:E; [|discriminate]. cbn [bind].
  unfold read_var in E. destruct (read_struct content usn_layout off) as [vs'|]; [|discriminate]. cbn [bind] in E.
  destruct (0 <=? usn_ext vs') eqn:G; [|discriminate]. cbn [guard bind] in E. destruct (_ =? _) in E; [|discriminate].
  assert (m = Z.of_nat (struct_size usn_layout) + usn_ext vs') by congruence. change (Z.of_nat (struct_size usn_layout)) with 60 in *.
  do 13 (destruct vs as [|v vs]; [discriminate|]; destruct v; [|discriminate]). destruct vs; [|discriminate].
  destruct (_ && _); cbn [guard bind]; [|discriminate]. destruct (utf16 _); [|discriminate]. intros X. assert (n = m) by congruence. lia.
Qed.

Lemma usn_record_errors utf16 content off e : is_bytes content -> 0 <= off -> usn_read_record utf16 content off = Err e -> e = ParseError.
Proof.
  intros Hb Ho. unfold usn_read_record. destruct (read_var content usn_layout usn_ext off) as [[[vs d] m]|x] eqn:E.
  - cbn [bind]. unfold read_var in E. destruct (read_struct content usn_layout off) as [vs'|] eqn:E2; [|discriminate]. cbn [bind] in E.
    destruct (0 <=? usn_ext vs') eqn:G; [|discriminate]. cbn [guard bind] in E. destruct (_ =? _) in E; [|discriminate].
    assert (vs' = vs) by congruence. subst vs'.
    apply read_struct_vals in E2; [|exact Hb|repeat (apply Forall_cons; [exact I|]); apply Forall_nil]. destruct E2 as [F _].
    unfold usn_layout in F.
    repeat match goal with F : Forall2 fval_ok (_ :: _) ?l |- _ => let v := fresh "v" in destruct l as [|v l]; [inversion F|apply Forall2_cons_iff in F; let Hv := fresh "Hv" in destruct F as [Hv F]; destruct v; [|contradiction Hv]] end.
    destruct vs; [|inversion F]. destruct (_ && _); cbn [guard bind]; [|congruence]. destruct (utf16 _); congruence.
  - cbn [bind]. apply read_var_errors in E. destruct E as [->|[-> E]]; [congruence|lia].
Qed.

(** The loops end. *)
Lemma usn_block_ends utf16 content : forall fuel s, ust_block s <= 60 * Z.of_nat fuel -> (0 < fuel)%nat ->
  exists rs r, usn_block fuel utf16 content s = (rs, Some r) /\
    match r with Ok s' => ust_offset s' + ust_block s' = ust_offset s + ust_block s | Err _ => True end.
Proof.
  induction fuel as [|fuel IH]; intros s Hs Hf; [lia|]. cbn [usn_block]. destruct (Z.leb_spec (ust_block s) 60); [do 2 eexists; split; [reflexivity|]; reflexivity || exact I|].
  destruct (list_eqb _ _); [do 2 eexists; split; [reflexivity|]; reflexivity|]. destruct (_ - 60 <? 0); [do 2 eexists; split; [reflexivity|]; reflexivity || exact I|].
  destruct (usn_read_record _ _ _) as [[r n]|e] eqn:E; [|do 2 eexists; split; [reflexivity|]; exact I]. apply usn_record_size in E.
  destruct fuel as [|fuel].
  - (* one round left *) cbn in Hs. lia.
  - destruct (IH (mkust (ust_pos s + len (zfirstn 60 (zskipn (ust_pos s) content)) - 60 + n) (ust_offset s + n) (ust_block s - n))) as (rs & x & E2 & P).
    + cbn [ust_block]. lia.
    + lia.
    + rewrite E2. do 2 eexists. split; [reflexivity|]. destruct x; [|exact I]. cbn [ust_offset ust_block] in P. lia.
Qed.

Lemma usn_read_sound utf16 content off r n : is_bytes content -> usn_read_record utf16 content off = Ok (r, n) -> usn_found utf16 content r.
Proof.
  intros Hb. unfold usn_read_record. destruct (read_var content usn_layout usn_ext off) as [[[vs d] m]|] eqn:E; [|discriminate]. cbn [bind].
  pose proof (read_var_inside _ _ _ _ _ _ _ E ltac:(cbn; lia)) as (Ho & Hm & Hi).
  apply read_var_ok in E as (E & He & Ld & Ed & Em). change (Z.of_nat (struct_size usn_layout)) with 60 in *.
  apply read_struct_iff in E as [St F]; [|exact Hb|kinds_wf|cbn; lia].
  unfold usn_layout in F. pose proof F as F0. inv2 F0.
  repeat match goal with H : fval_ok (FU _ _) ?v |- _ => is_var v; destruct v as [|]; [|contradiction] end.
  match type of St with context [enc_struct _ [VI ?a1; VI ?a2; VI ?a3; VI ?a4; VI ?a5; VI ?a6; VI ?a7; VI ?a8; VI ?a9; VI ?a10; VI ?a11; VI ?a12; VI ?a13]] =>
    rename a1 into size, a2 into major, a3 into minor, a4 into file, a5 into parent, a6 into sequence, a7 into time, a8 into reason, a9 into source, a10 into security, a11 into attributes, a12 into nsize, a13 into noff end.
  destruct ((major =? 2) && (minor =? 0) && (nsize <=? len d)) eqn:G; cbn [guard bind]; [|discriminate].
  apply andb_true_iff in G as [G G3]. apply andb_true_iff in G as [G1 G2]. apply Z.eqb_eq in G1, G2. apply Z.leb_le in G3. subst major minor.
  destruct (utf16 (zfirstn nsize d)) as [name|] eqn:U; [|discriminate]. intros R.
  assert (r = mkusn file parent sequence time reason source security attributes noff name (zskipn nsize d)) as -> by congruence. clear R.
  repeat match goal with H : fval_ok (FU _ _) (VI _) |- _ => cbn [fval_ok] in H end. cbn [usn_ext] in *.
  apply stored_at_iff in St as (_ & L & St). change (len (enc_struct _ _)) with 60 in *.
  assert (Ln : len (zfirstn nsize d) = nsize) by (rewrite len_zfirstn; lia).
  exists (zfirstn off content), (zfirstn nsize d), (zskipn (off + size) content). cbn [us_file us_parent us_sequence us_time us_reason us_source us_security us_attributes us_name_offset us_name us_padding].
  assert (Lp : len (zskipn nsize d) = size - 60 - nsize) by (rewrite len_zskipn; lia). rewrite Ln, Lp.
  split; [|repeat split; repeat constructor; try lia; exact U].
  unfold usn_bytes. cbn [us_file us_parent us_sequence us_time us_reason us_source us_security us_attributes us_name_offset us_name us_padding]. rewrite Ln, Lp.
  replace (60 + nsize + (size - 60 - nsize)) with size by lia.
  transitivity (zfirstn off content ++ (enc_struct usn_layout
        [VI size; VI 2; VI 0; VI file; VI parent; VI sequence; VI time; VI reason; VI source; VI security; VI attributes; VI nsize; VI noff] ++ d) ++ zskipn (off + size) content).
  - rewrite <- St, Ed. rewrite <- app_assoc. rewrite <- (zfirstn_zskipn content off) at 1. f_equal. rewrite <- (zfirstn_zskipn (zskipn off content) 60) at 1. f_equal.
    rewrite zskipn_zskipn by lia. replace (60 + off) with (off + 60) by lia. rewrite <- (zfirstn_zskipn (zskipn (off + 60) content) (size - 60)) at 1. f_equal.
    rewrite zskipn_zskipn by lia. f_equal. lia.
  - f_equal. f_equal. rewrite zfirstn_zskipn. unfold usn_layout. cbn [enc_struct enc_field enc_int]. rewrite app_nil_r. rewrite <- !app_assoc. reflexivity.
Qed.

Lemma usn_block_sound utf16 content : is_bytes content -> forall fuel s r, In r (fst (usn_block fuel utf16 content s)) -> usn_found utf16 content r.
Proof.
  intros Hb. induction fuel as [|fuel IH]; intros s r; cbn [usn_block]; [intros []|]. destruct (_ <=? 60); [intros []|]. cbv zeta. destruct (list_eqb _ _); [intros []|].
  destruct (_ <? 0); [intros []|]. destruct (usn_read_record _ _ _) as [[r' n]|e] eqn:E; [|intros []].
  pose proof (IH (mkust (ust_pos s + len (zfirstn 60 (zskipn (ust_pos s) content)) - 60 + n) (ust_offset s + n) (ust_block s - n)) r) as IHr. destruct (usn_block fuel _ _ _) as [rs end_]. cbn [fst] in *.
  intros [<-|I]; [eapply usn_read_sound; eassumption|auto].
Qed.

Lemma usn_blocks_sound utf16 content inner : is_bytes content -> forall fuel pos off r, In r (fst (usn_blocks fuel inner utf16 content pos off)) -> usn_found utf16 content r.
Proof.
  intros Hb. induction fuel as [|fuel IH]; intros pos off r; cbn [usn_blocks]; [intros []|]. destruct (_ <=? off); [intros []|].
  pose proof (usn_block_sound utf16 content Hb inner (mkust pos off (Z.min 4096 (len content))) r) as B. destruct (usn_block inner _ _ _) as [rs [[s|e]|]]; cbn [fst] in *; auto.
  pose proof (IH (ust_pos s) (ust_offset s + ust_block s) r) as I. destruct (usn_blocks fuel _ _ _ _ _) as [rs' end_]. cbn [fst] in *. rewrite in_app_iff. tauto.
Qed.

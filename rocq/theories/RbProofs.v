(** Proofs about the Recycle.Bin and Recycler readers. *)

From Verif Require Import Base BaseFacts CoreModel CoreProofs StrModel VarModel VarFacts SeqModel SeqSpec SeqFacts DictModel Utf16Model Utf16Spec Utf16Facts RbModel RbSpec.

(** ** UTF-16 strings in files *)

Lemma unit_end_grow d r t : unit_end d = Some t -> unit_end (d ++ r) = Some t.
Proof.
  assert (H : forall n d t, (length d <= n)%nat -> unit_end d = Some t -> unit_end (d ++ r) = Some t).
  2:{ intros E. eapply H; eauto. }
  clear d t. induction n as [|n IH]; intros d t Hn E; (destruct d as [|a [|b d]]; [discriminate|discriminate|]); cbn [length] in Hn; [lia|].
  cbn [app unit_end] in *. destruct (_ && _); [exact E|]. destruct (unit_end d) as [t'|] eqn:Ed; [|discriminate]. rewrite (IH d t') by (lia || exact Ed). exact E.
Qed.

Lemma unit_end_odd d x k : unit_end d = None -> len d = 2 * k -> unit_end (d ++ [x]) = None.
Proof.
  assert (H : forall n d k, (length d <= n)%nat -> unit_end d = None -> len d = 2 * k -> unit_end (d ++ [x]) = None).
  2:{ intros. eapply H; eauto. }
  clear d k. induction n as [|n IH]; intros d k Hn E L; (destruct d as [|a [|b d]]; [reflexivity|exfalso; unfold len in L; cbn [length] in L; lia|]); cbn [length] in Hn; [lia|].
  cbn [app unit_end] in *. destruct (_ && _); [discriminate|]. destruct (unit_end d) eqn:Ed; [discriminate|]. rewrite (IH d (k - 1)); [reflexivity|lia|exact Ed|]. rewrite !len_cons in L. lia.
Qed.

(** The general structure read with the map of a string finds the first terminator. *)
Lemma read_wide_string content pos off : 0 <= off -> forall fuel, (length content < fuel)%nat ->
  exists n, read_structure fuel wide_map (mkfile content pos) off =
  Done (match utf16_cstr (zskipn off content) with
        | Ok (s, _) => Ok (s, n, mkfile content (off + n))
        | Err e => Err e
        end).
Proof.
  intros Ho fuel Hf. unfold read_structure. change (m_hint0 wide_map) with 2. set (w := zskipn off content).
  assert (G : forall fuel (seen rest : bytes) p, w = seen ++ rest -> (length rest < fuel)%nat -> unit_end seen = None -> (exists k, len seen = 2 * k) ->
    exists n, read_structure_loop fuel wide_map (mkfile content p) off seen (len seen) (len seen + 2) =
    Done (match utf16_cstr w with Ok (s, _) => Ok (s, n, mkfile content (off + n)) | Err e => Err e end)).
  { clear Hf fuel pos. induction fuel as [|fuel IH]; intros seen rest p Ew Hf Hu Hk; [lia|]. cbn [read_structure_loop].
    pose proof (len_nonneg seen). destruct (Z.eqb_spec (len seen + 2) (len seen)); [lia|].
    replace (len seen + 2 - len seen) with 2 by lia. unfold read_data, f_seek. destruct (Z.ltb_spec (off + len seen) 0); [lia|].
    cbn [bind]. unfold f_try_read. change (2 <? -1) with false. cbn iota. unfold f_read. cbn [bind fpos fdata]. change (2 <? 0) with false. cbn iota.
    assert (Es : zskipn (off + len seen) content = rest).
    { rewrite <- zskipn_zskipn by lia. fold w. rewrite Ew. apply zskipn_app_len. reflexivity. }
    rewrite Es. destruct rest as [|a [|b rest]].
    - change (zfirstn 2 []) with (@nil Z). change (len (@nil Z)) with 0. change (0 =? 2) with false. cbn [negb]. exists 0.
      rewrite app_nil_r in Ew. unfold utf16_cstr. rewrite Ew, Hu. reflexivity.
    - change (zfirstn 2 [a]) with [a]. change (len [a]) with 1. change (1 =? 2) with false. cbn [negb]. exists 0.
      assert (Hn : unit_end w = None).
      { rewrite Ew. destruct Hk as [k Hk]. apply unit_end_odd with (k := k). exact Hu. exact Hk. }
      unfold utf16_cstr. rewrite Hn. reflexivity.
    - replace (zfirstn 2 (a :: b :: rest)) with [a; b] by (symmetry; apply (zfirstn_app_len [a; b] rest); reflexivity). change (len [a; b]) with 2. change (2 =? 2) with true. cbn [negb].
      assert (Ew' : w = (seen ++ [a; b]) ++ rest) by (rewrite Ew, <- app_assoc; reflexivity).
      change (m_map wide_map (seen ++ [a; b])) with (match unit_end (seen ++ [a; b]) with None => MTooSmall | Some t => match utf16_decode t with None => MError | Some s => MOk s end end).
      destruct (unit_end (seen ++ [a; b])) as [t|] eqn:Eu.
      + exists (len seen + 2). unfold utf16_cstr. rewrite Ew', (unit_end_grow _ rest _ Eu). destruct (utf16_decode t); [|reflexivity].
        rewrite Z.add_assoc. reflexivity.
      + change (m_hint wide_map (seen ++ [a; b])) with (len (seen ++ [a; b]) + 2).
        replace (len seen + 2) with (len (seen ++ [a; b])) by (rewrite len_app; reflexivity).
        apply (IH _ rest); [exact Ew'|cbn [length] in Hf; lia|exact Eu|]. destruct Hk as [k Hk]. exists (k + 1). rewrite len_app, Hk. change (len [a; b]) with 2. lia. }
  destruct (G fuel [] w pos) as [n E]; [reflexivity| |reflexivity|exists 0; reflexivity|].
  - unfold w. rewrite zskipn_skipn, skipn_length. lia.
  - exists n. exact E.
Qed.

(** ** $I files *)

Lemma rstrip_iff name s : rstrip 0 s = name <-> unpadded name s.
Proof.
  split.
  - intros <-. induction s as [|x s ([n IH1] & IH2)]; [split; [exists 0%nat; reflexivity|intros [|? r] E; discriminate]|]. cbn [rstrip].
    destruct (rstrip 0 s) as [|y r] eqn:E.
    + destruct (Z.eqb_spec x 0) as [->|Hx].
      * split; [exists (Datatypes.S n); cbn [repeat app]; rewrite IH1; reflexivity|intros [|? r] E2; discriminate].
      * split; [exists n; rewrite IH1; reflexivity|]. intros [|z r] E2; [injection E2 as E2; contradiction|]. destruct r; discriminate.
    + split; [exists n; rewrite IH1; reflexivity|]. intros [|z r'] E2; [discriminate|]. injection E2 as _ E2. exact (IH2 _ E2).
  - intros ([n ->] & H). induction name as [|x name IH].
    + cbn [app]. induction n as [|n IHn]; [reflexivity|]. cbn [repeat rstrip]. rewrite IHn. reflexivity.
    + cbn [app rstrip]. rewrite IH by (intros r E; apply (H (x :: r)); rewrite E; reflexivity).
      destruct name as [|y name]; [|reflexivity]. destruct (Z.eqb_spec x 0) as [->|]; [|reflexivity]. exfalso. apply (H []). reflexivity.
Qed.

Lemma no_nul_unpadded s : ~ In 0 s -> unpadded s s.
Proof.
  intros H. split; [exists 0%nat; cbn; rewrite app_nil_r; reflexivity|]. intros r ->. apply H, in_or_app. right. left. reflexivity.
Qed.

Lemma le8_ok v : 0 <= v < 2 ^ 64 <-> fval_ok (FU LE 8) (VI v).
Proof. cbn [fval_ok]. change (256 ^ Z.of_nat 8) with (2 ^ 64). lia. Qed.

Lemma le4_ok v : 0 <= v < 2 ^ 32 <-> fval_ok (FU LE 4) (VI v).
Proof. cbn [fval_ok]. change (256 ^ Z.of_nat 4) with (2 ^ 32). lia. Qed.

Lemma head_enc v size time : metadata_head v size time = enc_struct [FU LE 8; FU LE 8; FU LE 8] [VI v; VI size; VI time].
Proof. unfold metadata_head. cbn [enc_struct enc_field enc_int]. rewrite app_nil_r. reflexivity. Qed.

Lemma len_metadata_head v size time : len (metadata_head v size time) = 24.
Proof. unfold metadata_head. rewrite !len_app, !len_le_enc. reflexivity. Qed.

Lemma stored_at_0 content d : stored_at content 0 d -> exists rest, content = d ++ rest.
Proof. intros (pre & post & -> & L). destruct pre; [exists post; reflexivity|]. pose proof (len_nonneg pre). rewrite len_cons in L. lia. Qed.

Lemma rb_complete m content : metadata m content -> read_rb content = Ok m.
Proof.
  intros (Hs & Ht & D). unfold read_rb.
  assert (R : forall v rest, 0 <= v < 2 ^ 64 -> content = metadata_head v (rb_size m) (rb_deletion_time m) ++ rest ->
    read_struct content [FU LE 8; FU LE 8; FU LE 8] 0 = Ok [VI v; VI (rb_size m); VI (rb_deletion_time m)] /\ zskipn 24 content = rest).
  { intros v rest Hv E. split.
    - rewrite E, head_enc. apply (read_struct_enc [] _ _ rest); [|reflexivity]. repeat (apply Forall2_cons; [apply le8_ok; assumption|]). constructor.
    - rewrite E. apply zskipn_app_len. rewrite len_metadata_head. reflexivity. }
  destruct D as [(Ev & t & rest & Z & E)|(Ev & n & s & t & rest & Hn & U & L & P & E)].
  - destruct (R 1 (t ++ rest)) as [-> Sk]; [lia|exact E|]. cbn [bind]. change (existsb (Z.eqb 1) [1; 2]) with true. cbn [guard bind].
    unfold rb_filename. change (1 =? 1) with true. cbn iota. rewrite Sk, (utf16_cstr_ok _ _ _ Z). cbn [bind]. destruct Z as [Nn _].
    assert (Er : rstrip 0 (rb_name m) = rb_name m) by (apply rstrip_iff, no_nul_unpadded, Nn). rewrite Er. destruct m; cbn in *. subst. reflexivity.
  - destruct (R 2 (le_enc 4 n ++ t ++ rest)) as [-> Sk]; [lia|exact E|]. cbn [bind]. change (existsb (Z.eqb 2) [1; 2]) with true. cbn [guard bind].
    unfold rb_filename. change (2 =? 1) with false. cbn iota.
    replace content with (metadata_head 2 (rb_size m) (rb_deletion_time m) ++ enc_struct [FU LE 4] [VI n] ++ t ++ rest) by (rewrite E; cbn [enc_struct enc_field enc_int]; rewrite app_nil_r; reflexivity).
    rewrite read_var_enc; [|constructor; [apply le4_ok, Hn|constructor]|rewrite len_metadata_head; reflexivity|symmetry; exact L]. cbn [bind].
    rewrite (utf16_decode_complete _ _ U). apply rstrip_iff in P. rewrite P. destruct m; cbn in *. subst. reflexivity.
Qed.

Lemma rb_sound m content : is_bytes content -> read_rb content = Ok m -> metadata m content.
Proof.
  intros Hb. unfold read_rb. destruct (read_struct content _ 0) as [vs|] eqn:E; cbn [bind]; [|discriminate].
  apply read_struct_iff in E; [|exact Hb|kinds_wf|cbn; lia]. destruct E as [St F]. vals F.
  match type of St with stored_at _ _ (enc_struct _ [VI ?a; VI ?b; VI ?c]) => rename a into v; rename b into size; rename c into time end.
  apply stored_at_0 in St as [rest Ec]. rewrite <- head_enc in Ec.
  assert (Sk : zskipn 24 content = rest) by (rewrite Ec; apply zskipn_app_len; rewrite len_metadata_head; reflexivity).
  assert (Hr : is_bytes rest) by (rewrite <- Sk; apply is_bytes_zskipn, Hb).
  change (256 ^ Z.of_nat 8) with (2 ^ 64) in *.
  destruct (existsb (Z.eqb v) [1; 2]) eqn:Ev; cbn [guard bind]; [|discriminate].
  destruct (rb_filename content v) as [name|] eqn:Fn; cbn [bind]; [|discriminate]. intros Em. assert (m = mkrb v time size name) by congruence. subst m. clear Em.
  split; [cbn; lia|]. split; [cbn; lia|]. unfold rb_filename in Fn. cbn [rb_version rb_name rb_size rb_deletion_time]. destruct (Z.eqb_spec v 1) as [->|N1].
  - left. split; [reflexivity|]. rewrite Sk in Fn. destruct (utf16_cstr rest) as [[s n]|] eqn:U; cbn [bind] in Fn; [|discriminate].
    apply (utf16_cstr_iff _ _ _ Hr) in U as (t & rest' & -> & Z & _). exists t, rest'. split; [|exact Ec].
    assert (En : name = s) by (destruct Z as [Nn _]; apply no_nul_unpadded, rstrip_iff in Nn; congruence). rewrite En. exact Z.
  - right. assert (v = 2) by (cbn [existsb] in Ev; apply orb_true_iff in Ev as [Ev|Ev]; [apply Z.eqb_eq in Ev; lia|]; apply orb_true_iff in Ev as [Ev|Ev]; [apply Z.eqb_eq in Ev; lia|discriminate]). subst v.
    split; [reflexivity|]. destruct (read_var _ _ _ _) as [[[vs d] n]|] eqn:R; cbn [bind] in Fn; [|discriminate].
    assert (W : Forall fkind_wf [FU LE 4]) by kinds_wf. pose proof (read_var_fval _ _ _ _ _ _ _ Hb W R) as [F Hd]. vals F.
    apply read_var_ok in R as (R & H0 & L & Ed & _). change (Z.of_nat (struct_size [FU LE 4])) with 4 in Ed.
    apply read_struct_iff in R; [|exact Hb|kinds_wf|cbn; lia]. destruct R as [Sn _].
    destruct (utf16_decode d) as [s|] eqn:U; [|discriminate]. apply (utf16_decode_sound _ _ Hd) in U.
    match type of H0 with 0 <= 2 * ?z => rename z into cnt end.
    exists cnt, s, d, (zskipn (2 * cnt) (zskipn 28 content)). split; [change (256 ^ Z.of_nat 4) with (2 ^ 32) in *; lia|]. split; [exact U|]. split; [exact L|]. split; [apply rstrip_iff; congruence|].
    rewrite Ec at 1. f_equal. cbn [enc_struct enc_field enc_int] in Sn. rewrite app_nil_r in Sn.
    assert (E2 : zskipn 24 content = le_enc 4 cnt ++ zskipn 28 content).
    { destruct Sn as (pre & post & E & Lp). rewrite E. rewrite zskipn_app_len by (symmetry; exact Lp). f_equal.
      replace (zskipn 28 (pre ++ le_enc 4 cnt ++ post)) with (zskipn 28 ((pre ++ le_enc 4 cnt) ++ post)) by (rewrite <- app_assoc; reflexivity).
      symmetry. apply zskipn_app_len. rewrite len_app, len_le_enc, Lp. reflexivity. }
    rewrite Sk in E2. rewrite E2. f_equal. rewrite Ed. change (24 + 4) with 28. symmetry. apply zfirstn_zskipn.
Qed.

Lemma rb_err content e : is_bytes content -> read_rb content = Err e -> e = ParseError.
Proof.
  intros Hb. unfold read_rb. destruct (read_struct content _ 0) as [vs|x] eqn:E; cbn [bind].
  2:{ intros H. apply read_struct_err in E; [congruence|lia]. }
  apply read_struct_fval in E; [|exact Hb|kinds_wf]. vals E.
  unfold guard. destruct (existsb _ _); cbn [bind]; [|congruence].
  destruct (rb_filename _ _) as [|x] eqn:R; cbn [bind]; [discriminate|]. intros H. assert (x = e) by congruence. subst x. clear H. unfold rb_filename in R.
  destruct (_ =? 1).
  - destruct (utf16_cstr _) as [[? ?]|x] eqn:U; cbn [bind] in R; [discriminate|]. apply utf16_cstr_err in U. congruence.
  - destruct (read_var _ _ _ _) as [[[? ?] ?]|x] eqn:U; cbn [bind] in R; [destruct (utf16_decode _); congruence|]. apply read_var_err in U; [congruence|lia].
Qed.

(** ** INFO2 files *)

Lemma utf16_app_inv a b d : utf16 (a ++ b) d -> exists da db, d = da ++ db /\ utf16 a da /\ utf16 b db.
Proof.
  revert d. induction a as [|c a IH]; intros d U; [exists [], d; repeat split; [constructor|exact U]|].
  cbn [app] in U. inversion U as [|c' s' d' Hc U' E1 E2|c' s' d' Hc U' E1 E2]; subst.
  - destruct (IH _ U') as (da & db & -> & Ua & Ub). exists (le_enc 2 c ++ da), db. split; [rewrite <- app_assoc; reflexivity|]. split; [constructor; assumption|exact Ub].
  - destruct (IH _ U') as (da & db & -> & Ua & Ub). eexists _, db. split; [|split; [apply u_two; eassumption|exact Ub]]. rewrite <- !app_assoc. reflexivity.
Qed.

Lemma first_nul (s : str) : In 0 s -> exists a b, s = a ++ 0 :: b /\ ~ In 0 a.
Proof.
  induction s as [|x s IH]; [intros []|]. intros H. destruct (Z.eq_dec x 0) as [->|Hx]; [exists [], s; split; [reflexivity|intros []]|].
  destruct IH as (a & b & -> & Ha); [destruct H; [contradiction|assumption]|]. exists (x :: a), b. split; [reflexivity|]. intros [|]; [contradiction|auto].
Qed.

Lemma unit_end_none s d : utf16 s d -> (unit_end d = None <-> ~ In 0 s).
Proof.
  intros U. split.
  - intros E H. apply first_nul in H as (a & b & -> & Ha). apply utf16_app_inv in U as (da & db & -> & Ua & Ub).
    inversion Ub as [|c' s' d' Hc U' E1 E2|c' s' d' Hc U' E1 E2]; subst; [|lia]. change (le_enc 2 0 ++ d') with (0 :: 0 :: d') in E. rewrite (unit_end_app _ _ _ Ua Ha) in E. discriminate.
  - intros H. destruct (unit_end d) as [t|] eqn:E; [|reflexivity]. exfalso. pose proof (unit_end_app s d [] U H) as E2. rewrite (unit_end_grow _ _ _ E) in E2.
    assert (t = d) by congruence. subst t. apply unit_end_spec in E as [r E]. apply (f_equal (@length Z)) in E. rewrite app_length in E. cbn [length] in E. lia.
Qed.

Lemma wide_fixed_iff d s : is_bytes d -> (wide_fixed d = Ok s <-> name_field s d).
Proof.
  intros Hb. unfold wide_fixed, name_field. split.
  - destruct (unit_end d) as [t|] eqn:E.
    + destruct (unit_end_spec _ _ E) as [r Er]. destruct (utf16_decode t) as [x|] eqn:D; [|discriminate]. intros H. assert (x = s) by congruence. subst x.
      apply utf16_decode_sound in D; [|rewrite Er in Hb; apply Forall_app in Hb; apply Hb]. left. exists (t ++ [0; 0]), r. split; [|rewrite Er, <- app_assoc; reflexivity].
      split; [eapply unit_end_no_nul; eauto|]. exists t. split; [exact D|reflexivity].
    + destruct (utf16_decode d) as [x|] eqn:D; [|discriminate]. intros H. assert (x = s) by congruence. subst x. apply (utf16_decode_sound _ _ Hb) in D.
      right. split; [exact D|]. apply (unit_end_none _ _ D), E.
  - intros [(t & r & (N & t' & U & ->) & ->)|[U N]].
    + rewrite <- app_assoc. cbn [app]. rewrite (unit_end_app _ _ _ U N), (utf16_decode_complete _ _ U). reflexivity.
    + apply (unit_end_none _ _ U) in N. rewrite N, (utf16_decode_complete _ _ U). reflexivity.
Qed.

Definition i2_kinds : list fkind := [FB 260; FU LE 4; FU LE 4; FU LE 8; FU LE 4].

Definition shown (ansi : bytes -> option str) (debug : bool) (e : info2_entry) : Prop := debug = true -> exists s, ansi (i2_name e) = Some s.

Lemma i2_guard (ansi : bytes -> option str) (debug : bool) name : (if debug then match ansi name with Some _ => true | None => false end else true) = true <-> (debug = true -> exists s : str, ansi name = Some s).
Proof.
  destruct debug; [|split; [discriminate|reflexivity]]. destruct (ansi name) as [s|]; split; try discriminate; eauto. intros H. destruct (H eq_refl). discriminate.
Qed.

Lemma read_data_iff content pos size d : 0 <= pos -> 0 < size -> ((exists f, read_data (Some (mkfile content pos)) pos size = Ok (d, f)) <-> stored_at content pos d /\ len d = size).
Proof.
  intros Hp Hs. split.
  - intros [f E]. pose proof (read_data_total (mkfile content pos) pos size) as T. rewrite E in T. cbn [fdata] in T. destruct T as (_ & _ & I & Ed & L & _).
    split; [|exact L]. apply stored_at_iff. split; [exact Hp|]. split; [lia|]. rewrite L. symmetry. exact Ed.
  - intros [S L]. apply stored_at_iff in S as (_ & I & E). unfold read_data, f_seek. destruct (Z.ltb_spec pos 0); [lia|]. cbn [bind]. unfold f_try_read. destruct (Z.ltb_spec size (-1)); [lia|].
    unfold f_read. cbn [bind fpos fdata]. destruct (Z.ltb_spec size 0); [lia|]. rewrite L in E. rewrite E, L, Z.eqb_refl. cbn [negb]. eexists. reflexivity.
Qed.

Lemma i2_vals e : enc_struct i2_kinds [VB (i2_name e); VI (i2_index e); VI (i2_drive e); VI (i2_time e); VI (i2_size e)] =
  i2_name e ++ le_enc 4 (i2_index e) ++ le_enc 4 (i2_drive e) ++ le_enc 8 (i2_time e) ++ le_enc 4 (i2_size e).
Proof. unfold i2_kinds. cbn [enc_struct enc_field enc_int]. rewrite app_nil_r. reflexivity. Qed.

Lemma i2_len e : len (i2_name e) = 260 -> len (i2_name e ++ le_enc 4 (i2_index e) ++ le_enc 4 (i2_drive e) ++ le_enc 8 (i2_time e) ++ le_enc 4 (i2_size e)) = 280.
Proof. intros H. rewrite !len_app, !len_le_enc, H. reflexivity. Qed.

Lemma i2_bytes_len size e d : info2_entry_bytes size e d -> len d = size /\ (size = 280 \/ size = 800).
Proof.
  intros (L & _ & _ & _ & _ & w & -> & D). pose proof (i2_len e L) as L2.
  replace (i2_name e ++ le_enc 4 (i2_index e) ++ le_enc 4 (i2_drive e) ++ le_enc 8 (i2_time e) ++ le_enc 4 (i2_size e) ++ w)
    with ((i2_name e ++ le_enc 4 (i2_index e) ++ le_enc 4 (i2_drive e) ++ le_enc 8 (i2_time e) ++ le_enc 4 (i2_size e)) ++ w) by (rewrite <- !app_assoc; reflexivity).
  rewrite len_app, L2. destruct D as [(-> & _ & ->)|(-> & Lw & _)]; [split; [reflexivity|auto]|]. lia.
Qed.

Lemma i2_entry_iff ansi debug content pos size e : is_bytes content -> 0 <= pos -> In size [280; 800] ->
  (i2_entry ansi debug content pos size = Ok e <-> (exists d, stored_at content pos d /\ info2_entry_bytes size e d) /\ shown ansi debug e).
Proof.
  intros Hb Hp Hs. assert (Hs' : size = 280 \/ size = 800) by (destruct Hs as [|[|[]]]; auto).
  assert (Hs0 : 0 < size) by lia. unfold i2_entry. split.
  - destruct (read_data _ _ _) as [[data f]|] eqn:R; cbn [bind]; [|discriminate].
    assert (S : stored_at content pos data /\ len data = size) by (apply read_data_iff; [lia|lia|eauto]). destruct S as [S L]. pose proof (is_bytes_stored _ _ _ Hb S) as Hd.
    destruct (as_parse_error _) as [vs|] eqn:E; cbn [bind]; [|discriminate]. rewrite as_parse_error_ok in E. change [FB 260; FU LE 4; FU LE 4; FU LE 8; FU LE 4] with i2_kinds in E.
    apply struct_bs_iff in E; [|exact Hd|unfold i2_kinds; kinds_wf|cbn; lia]. destruct E as (w & Ed & F). unfold i2_kinds in F.
    inv2 F. repeat match goal with H : fval_ok (FU _ _) ?v |- _ => is_var v; destruct v as [|]; [|contradiction] | H : fval_ok (FB _) ?v |- _ => is_var v; destruct v as [|]; [contradiction|] end.
    match type of Ed with _ = enc_struct _ [VB ?a; VI ?b; VI ?c; VI ?t; VI ?z] ++ _ => rename a into name; rename b into idx; rename c into drv; rename t into tm; rename z into fs end.
    destruct (if debug then _ else true) eqn:G; cbn [guard bind]; [|discriminate]. pose proof (proj1 (i2_guard ansi debug name) G) as G1.
    match goal with |- bind ?x _ = _ -> _ => destruct x as [wd|] eqn:W end; cbn [bind]; [|discriminate]. intros Ee. assert (e = mkinfo2 name idx drv tm fs wd) by congruence. subst e. clear Ee.
    split; [|exact G1]. exists data. split; [exact S|]. cbn [fval_ok] in *. change (256 ^ Z.of_nat 4) with (2 ^ 32) in *. change (256 ^ Z.of_nat 8) with (2 ^ 64) in *.
    change (enc_struct i2_kinds [VB name; VI idx; VI drv; VI tm; VI fs]) with (enc_struct i2_kinds [VB (i2_name (mkinfo2 name idx drv tm fs wd)); VI (i2_index (mkinfo2 name idx drv tm fs wd)); VI (i2_drive (mkinfo2 name idx drv tm fs wd)); VI (i2_time (mkinfo2 name idx drv tm fs wd)); VI (i2_size (mkinfo2 name idx drv tm fs wd))]) in Ed.
    rewrite i2_vals in Ed. assert (Ln : len (i2_name (mkinfo2 name idx drv tm fs wd)) = 260) by (cbn [i2_name]; unfold len; lia).
    pose proof (i2_len _ Ln) as L280. rewrite Ed, len_app, L280 in L.
    unfold info2_entry_bytes. split; [exact Ln|]. cbn [i2_index i2_drive i2_time i2_size]. repeat (split; [lia|]). exists w. split; [rewrite Ed, <- !app_assoc; reflexivity|].
    cbn [i2_wide]. destruct Hs' as [-> | ->].
    + left. change (280 <? 280) with false in W. cbn iota in W. split; [reflexivity|]. split; [congruence|]. apply len_zero. lia.
    + right. split; [reflexivity|]. split; [lia|]. change (280 <? 800) with true in W. cbn iota in W.
      assert (Sk : zskipn 280 data = w) by (rewrite Ed; apply zskipn_app_len; symmetry; exact L280). rewrite Sk in W. cbv zeta in W.
      destruct (Z.leb_spec 520 (len w)); cbn [guard bind] in W; [|discriminate]. rewrite zfirstn_all in W by lia.
      destruct (wide_fixed w) as [s|] eqn:Ws; cbn [bind] in W; [|discriminate]. exists s. split; [congruence|]. apply wide_fixed_iff; [|exact Ws]. rewrite <- Sk. apply is_bytes_zskipn, Hd.
  - intros ((d & S & B) & G). pose proof (i2_bytes_len _ _ _ B) as [L _].
    assert (R : exists f, read_data (Some (mkfile content pos)) pos size = Ok (d, f)) by (apply read_data_iff; [lia|lia|auto]). destruct R as [f R]. rewrite R. cbn [bind].
    pose proof (is_bytes_stored _ _ _ Hb S) as Hd.
    destruct B as (Ln & H1 & H2 & H3 & H4 & w & Ed & D). pose proof (i2_len _ Ln) as L280.
    assert (Ed2 : d = enc_struct i2_kinds [VB (i2_name e); VI (i2_index e); VI (i2_drive e); VI (i2_time e); VI (i2_size e)] ++ w) by (rewrite i2_vals, Ed, <- !app_assoc; reflexivity).
    assert (Hn : is_bytes (i2_name e)) by (rewrite Ed in Hd; apply Forall_app in Hd; apply Hd).
    rewrite Ed2 at 1. change [FB 260; FU LE 4; FU LE 4; FU LE 8; FU LE 4] with i2_kinds. rewrite struct_bs_enc; [|unfold i2_kinds|cbn; lia].
    2:{ apply Forall2_cons; [cbn [fval_ok]; split; [unfold len in Ln; lia|exact Hn]|]. repeat (apply Forall2_cons; [first [apply le4_ok; assumption|apply le8_ok; assumption]|]). constructor. }
    cbn [as_parse_error bind]. pose proof (proj2 (i2_guard ansi debug (i2_name e)) G) as G1. rewrite G1. cbn [guard bind].
    destruct D as [(-> & En & _)|(-> & Lw & s & Es & Nf)].
    + change (280 <? 280) with false. cbn [bind]. destruct e. cbn in *. subst. reflexivity.
    + change (280 <? 800) with true. cbn iota. cbv zeta. assert (Sk : zskipn 280 d = w) by (rewrite Ed2, i2_vals; apply zskipn_app_len; symmetry; exact L280). rewrite Sk.
      destruct (Z.leb_spec 520 (len w)); [|lia]. cbn [guard bind]. rewrite zfirstn_all by lia.
      assert (Hw : is_bytes w) by (rewrite <- Sk; apply is_bytes_zskipn, Hd). apply (wide_fixed_iff _ _ Hw) in Nf. rewrite Nf. cbn [bind]. destruct e. cbn in *. subst. reflexivity.
Qed.

Lemma i2_entry_err ansi debug content pos size e : is_bytes content -> 0 <= pos -> 0 <= size -> i2_entry ansi debug content pos size = Err e -> e = ParseError.
Proof.
  intros Hb Hp Hs. unfold i2_entry. pose proof (read_data_total (mkfile content pos) pos size) as T. destruct (read_data _ _ _) as [[data f]|x]; cbn [bind].
  2:{ intros E. assert (x = e) by congruence. subst x. destruct e; try contradiction; try reflexivity; lia. }
  destruct T as (_ & _ & _ & Ed & _). assert (Hd : is_bytes data) by (rewrite Ed; apply is_bytes_zfirstn, is_bytes_zskipn, Hb).
  destruct (as_parse_error _) as [vs|x] eqn:E; cbn [bind].
  2:{ intros Ex. destruct (struct_bs _ _) as [|y] eqn:Y; [discriminate|]. apply struct_bs_errors in Y as [-> | [-> _]]; cbn in E; congruence. }
  rewrite as_parse_error_ok in E. apply struct_bs_fval in E; [|exact Hd|kinds_wf].
  inv2 E. repeat match goal with H : fval_ok (FU _ _) ?v |- _ => is_var v; destruct v as [|]; [|contradiction] | H : fval_ok (FB _) ?v |- _ => is_var v; destruct v as [|]; [contradiction|] end.
  destruct (if debug then _ else true); cbn [guard bind]; [|congruence].
  match goal with |- bind ?x _ = _ -> _ => destruct x as [wd|y] eqn:W end; cbn [bind]; [discriminate|]. intros Ex. assert (y = e) by congruence. subst y. clear Ex.
  destruct (280 <? size); [|discriminate]. cbv zeta in W. destruct (520 <=? _); cbn [guard bind] in W; [|congruence].
  unfold wide_fixed in W. destruct (utf16_decode _); cbn [bind] in W; congruence.
Qed.

Lemma i2_entries_iff ansi debug content size : is_bytes content -> In size [280; 800] -> forall fuel pos l, 0 <= pos <= len content -> len content - pos < Z.of_nat fuel ->
  (i2_entries fuel ansi debug content pos size = Done (Ok l) <-> (exists ds, Forall2 (info2_entry_bytes size) l ds /\ zskipn pos content = concat ds) /\ Forall (shown ansi debug) l).
Proof.
  intros Hb Hs. assert (Hs' : size = 280 \/ size = 800) by (destruct Hs as [|[|[]]]; auto).
  induction fuel as [|fuel IH]; intros pos l Hp Hf; [lia|]. cbn [i2_entries]. destruct (Z.ltb_spec pos (len content)) as [Lt|Ge].
  - split.
    + destruct (i2_entry _ _ _ _ _) as [e|] eqn:E; [|discriminate]. apply i2_entry_iff in E; [|exact Hb|lia|exact Hs]. destruct E as ((d & S & B) & G).
      pose proof (i2_bytes_len _ _ _ B) as [Ld _]. pose proof (stored_at_inside _ _ _ S) as [_ I].
      destruct (i2_entries fuel _ _ _ _ _) as [[l'|]|] eqn:R; cbn [rbind]; [|discriminate|discriminate]. intros El. assert (l = e :: l') by congruence. subst l. clear El.
      apply IH in R; [|lia|lia]. destruct R as ((ds & F & C) & Fs). split; [|constructor; assumption]. exists (d :: ds). split; [constructor; assumption|]. cbn [concat].
      apply stored_at_from in S; [|lia]. destruct S as [rest Er]. rewrite Er. f_equal. rewrite <- C. replace (pos + size) with (pos + len d) by lia. rewrite <- zskipn_zskipn by lia. rewrite Er. symmetry. apply zskipn_app_len. reflexivity.
    + intros ((ds & F & C) & Fs). destruct F as [|e d l ds B F].
      { exfalso. cbn [concat] in C. apply (f_equal len) in C. rewrite len_zskipn in C. change (len (@nil Z)) with 0 in C. lia. }
      pose proof (i2_bytes_len _ _ _ B) as [Ld _]. cbn [concat] in C. inversion Fs as [|? ? G Fs']; subst.
      assert (S : stored_at content pos d) by (apply stored_at_from; [lia|exists (concat ds); exact C]). pose proof (stored_at_inside _ _ _ S) as [_ I].
      assert (E : i2_entry ansi debug content pos (len d) = Ok e) by (apply i2_entry_iff; [exact Hb|lia|exact Hs|split; [eauto|exact G]]).
      rewrite E. assert (R : i2_entries fuel ansi debug content (pos + len d) (len d) = Done (Ok l)).
      { apply IH; [lia|lia|]. split; [|exact Fs']. exists ds. split; [exact F|]. rewrite <- zskipn_zskipn by lia. rewrite C. apply zskipn_app_len. reflexivity. }
      rewrite R. reflexivity.
  - rewrite zskipn_all by lia. split.
    + intros E. injection E as <-. split; [exists []; split; [constructor|reflexivity]|constructor].
    + intros ((ds & F & C) & _). destruct F as [|e d l ds B F]; [reflexivity|]. exfalso. pose proof (i2_bytes_len _ _ _ B) as [Ld _]. cbn [concat] in C. apply (f_equal len) in C. rewrite len_app in C. pose proof (len_nonneg (concat ds)). change (len (@nil Z)) with 0 in C. lia.
Qed.

Lemma i2_entries_ends ansi debug content size : is_bytes content -> In size [280; 800] -> forall fuel pos, 0 <= pos -> len content - pos < Z.of_nat fuel ->
  exists r, i2_entries fuel ansi debug content pos size = Done r /\ (forall e, r = Err e -> e = ParseError).
Proof.
  intros Hb Hs. assert (Hs' : size = 280 \/ size = 800) by (destruct Hs as [|[|[]]]; auto).
  induction fuel as [|fuel IH]; intros pos Hp Hf; cbn [i2_entries]; destruct (Z.ltb_spec pos (len content)).
  - lia.
  - eexists. split; [reflexivity|discriminate].
  - destruct (i2_entry _ _ _ _ _) as [e|x] eqn:E.
    + destruct (IH (pos + size)) as (r & -> & Hr); [lia|lia|]. destruct r; cbn [rbind]; eexists; (split; [reflexivity|]); [discriminate|]. intros y Hy. apply Hr. congruence.
    + eexists. split; [reflexivity|]. intros y Hy. apply i2_entry_err in E; [congruence|exact Hb|lia|lia].
  - eexists. split; [reflexivity|discriminate].
Qed.

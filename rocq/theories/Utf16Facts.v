(** Facts about UTF-16 strings. *)

From Verif Require Import Base BaseFacts CoreModel Utf16Model Utf16Spec.

Lemma le_enc2 v : 0 <= v < 65536 -> le_enc 2 v = [v mod 256; v / 256].
Proof. intros H. cbn [le_enc]. rewrite (Z.mod_small (v / 256)); [reflexivity|]. split; [apply Z.div_pos; lia|apply Z.div_lt_upper_bound; lia]. Qed.

Lemma unit_value v : v mod 256 + 256 * (v / 256) = v.
Proof. pose proof (Z.div_mod v 256 ltac:(lia)). lia. Qed.

Lemma unit_bytes a b : is_byte a -> is_byte b -> le_enc 2 (a + 256 * b) = [a; b] /\ 0 <= a + 256 * b < 65536.
Proof.
  unfold is_byte. intros Ha Hb. assert (H : 0 <= a + 256 * b < 65536) by lia. split; [|exact H]. rewrite le_enc2 by exact H.
  replace (a + 256 * b) with (b * 256 + a) by lia. rewrite Z.div_add_l by lia. rewrite (Z.div_small a 256) by lia.
  rewrite Z.add_comm, Z.mod_add by lia. rewrite Z.mod_small by lia. rewrite Z.add_0_r. reflexivity.
Qed.

Lemma pair_high c : 65536 <= c < 1114112 -> 55296 <= 55296 + (c - 65536) / 1024 < 56320.
Proof. intros H. assert (0 <= (c - 65536) / 1024 < 1024) by (split; [apply Z.div_pos; lia|apply Z.div_lt_upper_bound; lia]). lia. Qed.

Lemma pair_low c : 56320 <= 56320 + (c - 65536) mod 1024 < 57344.
Proof. pose proof (Z.mod_pos_bound (c - 65536) 1024 ltac:(lia)). lia. Qed.

Lemma utf16_decode_complete s d : utf16 s d -> utf16_decode d = Some s.
Proof.
  induction 1 as [|c s d H U IH|c s d H U IH]; [reflexivity| |].
  - rewrite le_enc2 by lia. cbn [app utf16_decode]. rewrite unit_value, IH.
    replace ((c <? 55296) || (57344 <=? c)) with true by (symmetry; apply orb_true_iff; destruct H; [left; apply Z.ltb_lt; lia|right; apply Z.leb_le; lia]).
    reflexivity.
  - pose proof (pair_high c H) as P1. pose proof (pair_low c) as P2. rewrite !le_enc2 by lia.
    remember (55296 + (c - 65536) / 1024) as h eqn:Eh. remember (56320 + (c - 65536) mod 1024) as l eqn:El.
    cbn [app utf16_decode]. rewrite !unit_value, IH.
    destruct (Z.ltb_spec h 55296); [lia|]. destruct (Z.leb_spec 57344 h); [lia|]. cbn [orb].
    destruct (Z.ltb_spec h 56320); [|lia]. destruct (Z.leb_spec 56320 l); [|lia]. destruct (Z.ltb_spec l 57344); [|lia]. cbn [andb option_map].
    do 2 f_equal. pose proof (Z.div_mod (c - 65536) 1024 ltac:(lia)). lia.
Qed.

Lemma utf16_decode_sound s d : is_bytes d -> utf16_decode d = Some s -> utf16 s d.
Proof.
  assert (H : forall n d s, (length d <= n)%nat -> is_bytes d -> utf16_decode d = Some s -> utf16 s d).
  2:{ intros Hb E. eapply H; eauto. }
  clear s d. induction n as [|n IH]; intros d s Hn Hb E.
  - destruct d; [|cbn in Hn; lia]. injection E as <-. constructor.
  - destruct d as [|a [|b r]]; [injection E as <-; constructor|discriminate|]. cbn [utf16_decode] in E. cbn [length] in Hn.
    inversion Hb as [|? ? Ha Hb1]; subst. inversion Hb1 as [|? ? Hb2 Hb3]; subst. destruct (unit_bytes a b Ha Hb2) as [Eu Bu].
    remember (a + 256 * b) as u eqn:Hu. destruct ((u <? 55296) || (57344 <=? u)) eqn:C.
    + destruct (utf16_decode r) as [t|] eqn:Er; [|discriminate]. injection E as <-. replace (a :: b :: r) with (le_enc 2 u ++ r) by (rewrite Eu; reflexivity).
      apply u_one; [|apply IH; [lia|exact Hb3|exact Er]]. apply orb_true_iff in C. rewrite Z.ltb_lt, Z.leb_le in C. lia.
    + apply orb_false_iff in C. rewrite Z.ltb_ge, Z.leb_gt in C. destruct (Z.ltb_spec u 56320); [|discriminate].
      destruct r as [|c [|e r2]]; [discriminate|discriminate|]. inversion Hb3 as [|? ? Hc Hb4]; subst. inversion Hb4 as [|? ? He Hb5]; subst.
      destruct (unit_bytes c e Hc He) as [Ev Bv]. remember (a + 256 * b) as u eqn:Hu. remember (c + 256 * e) as v eqn:Hv. clear Hu Hv.
      destruct ((56320 <=? v) && (v <? 57344)) eqn:C2; [|discriminate]. apply andb_true_iff in C2. rewrite Z.leb_le, Z.ltb_lt in C2.
      destruct (utf16_decode r2) as [t|] eqn:Er; [|discriminate]. cbn [option_map] in E. remember (65536 + (u - 55296) * 1024 + (v - 56320)) as w eqn:Hw. injection E as <-.
      assert (D : (w - 65536) / 1024 = u - 55296 /\ (w - 65536) mod 1024 = v - 56320).
      { replace (w - 65536) with ((u - 55296) * 1024 + (v - 56320)) by lia. split.
        - rewrite Z.div_add_l by lia. rewrite Z.div_small by lia. lia.
        - rewrite Z.add_comm, Z.mod_add by lia. apply Z.mod_small. lia. }
      destruct D as [D1 D2]. replace (a :: b :: c :: e :: r2) with (le_enc 2 (55296 + (w - 65536) / 1024) ++ le_enc 2 (56320 + (w - 65536) mod 1024) ++ r2).
      * apply u_two; [lia|]. apply IH; [cbn [length] in Hn; lia|exact Hb5|exact Er].
      * rewrite D1, D2. replace (55296 + (u - 55296)) with u by lia. replace (56320 + (v - 56320)) with v by lia. rewrite Eu, Ev. reflexivity.
Qed.

(** Decoding and encoding are inverse. *)
Lemma utf16_decode_iff s d : is_bytes d -> (utf16_decode d = Some s <-> utf16 s d).
Proof. intros Hb. split; [apply utf16_decode_sound, Hb|apply utf16_decode_complete]. Qed.

Lemma utf16_fun s d d' : utf16 s d -> utf16 s d' -> d = d'.
Proof.
  intros H. revert d'. induction H as [|c s d H U IH|c s d H U IH]; intros d' H'; inversion H'; subst; try lia; try reflexivity.
  - rewrite (IH d0) by assumption. reflexivity.
  - rewrite (IH d0) by assumption. reflexivity.
Qed.

Lemma utf16_inj s s' d : utf16 s d -> utf16 s' d -> s = s'.
Proof. intros H H'. apply utf16_decode_complete in H, H'. congruence. Qed.

Lemma utf16_bytes s d : utf16 s d -> is_bytes d.
Proof. induction 1; [constructor| |]; repeat (apply Forall_app; split); try apply le_enc_bytes; assumption. Qed.

Lemma utf16_even s d : utf16 s d -> exists n, len d = 2 * n.
Proof.
  induction 1 as [|c s d H U [n IH]|c s d H U [n IH]]; [exists 0; reflexivity| |]; rewrite !len_app, !len_le_enc.
  - exists (1 + n). lia.
  - exists (2 + n). lia.
Qed.

(** The units of a string without NUL are not 0. *)
Lemma unit_end_app s t rest : utf16 s t -> ~ In 0 s -> unit_end (t ++ 0 :: 0 :: rest) = Some t.
Proof.
  assert (N : forall v x, 0 < v < 65536 -> unit_end (v mod 256 :: v / 256 :: x) = option_map (fun s => v mod 256 :: v / 256 :: s) (unit_end x)).
  { intros v x H. cbn [unit_end]. destruct (Z.eqb_spec (v mod 256) 0) as [E1|]; [|reflexivity]. destruct (Z.eqb_spec (v / 256) 0) as [E2|]; [|reflexivity].
    pose proof (unit_value v). lia. }
  induction 1 as [|c s d H U IH|c s d H U IH]; intros Hn; [reflexivity| |]; rewrite not_in_cons in Hn; destruct Hn as [Hc Hn].
  - rewrite le_enc2 by lia. cbn [app]. rewrite N by lia. rewrite IH by exact Hn. reflexivity.
  - pose proof (pair_high c H) as P1. pose proof (pair_low c) as P2. rewrite !le_enc2 by lia.
    remember (55296 + (c - 65536) / 1024) as h eqn:Eh. remember (56320 + (c - 65536) mod 1024) as l eqn:El.
    cbn [app]. rewrite N by lia. rewrite N by lia. rewrite IH by exact Hn. reflexivity.
Qed.

Lemma utf16_cstr_ok s d rest : utf16_z s d -> utf16_cstr (d ++ rest) = Ok (s, len d).
Proof.
  intros (N & t & U & ->). unfold utf16_cstr. rewrite <- app_assoc. cbn [app]. rewrite (unit_end_app s t rest U N).
  rewrite (utf16_decode_complete s t U). rewrite len_app. reflexivity.
Qed.

(** Every data with a terminator is that of a string or refused. *)
Lemma unit_end_spec d t : unit_end d = Some t -> exists rest, d = t ++ 0 :: 0 :: rest.
Proof.
  assert (H : forall n d t, (length d <= n)%nat -> unit_end d = Some t -> exists rest, d = t ++ 0 :: 0 :: rest).
  2:{ intros E. eapply H; eauto. }
  clear d t. induction n as [|n IH]; intros d t Hn E.
  - destruct d; [discriminate|cbn in Hn; lia].
  - destruct d as [|a [|b r]]; try discriminate. cbn [unit_end] in E. destruct ((a =? 0) && (b =? 0)) eqn:C.
    + injection E as <-. apply andb_true_iff in C as [C1 C2]. apply Z.eqb_eq in C1, C2. subst. exists r. reflexivity.
    + destruct (unit_end r) as [t'|] eqn:Er; [|discriminate]. injection E as <-. cbn [length] in Hn. apply IH in Er as [rest ->]; [|lia]. exists rest. reflexivity.
Qed.

Lemma unit_end_no_nul d t s : unit_end d = Some t -> utf16 s t -> ~ In 0 s.
Proof.
  intros E U. revert d E. induction U as [|c s t H U IH|c s t H U IH]; intros d E; [intros []| |].
  - rewrite le_enc2 in E by lia. destruct d as [|a [|b r]]; try discriminate. cbn [unit_end] in E.
    destruct ((a =? 0) && (b =? 0)) eqn:C; [discriminate|]. destruct (unit_end r) as [t'|] eqn:Er; [|discriminate]. cbn [option_map app] in E.
    intros [Hc|I].
    + subst c. change (0 mod 256) with 0 in E. change (0 / 256) with 0 in E. assert (a = 0 /\ b = 0) as [-> ->] by (split; congruence). discriminate.
    + assert (Et : t' = t) by congruence. subst t'. exact (IH _ Er I).
  - pose proof (pair_high c H) as P1. pose proof (pair_low c) as P2. rewrite !le_enc2 in E by lia.
    destruct d as [|a [|b [|a2 [|b2 r]]]]; try discriminate; cbn [unit_end] in E.
    + destruct (_ && _); discriminate.
    + destruct (_ && _); discriminate.
    + destruct ((a =? 0) && (b =? 0)); [discriminate|]. destruct ((a2 =? 0) && (b2 =? 0)); [discriminate|].
      destruct (unit_end r) as [t'|] eqn:Er; [|discriminate]. cbn [option_map app] in E. assert (Et : t' = t) by congruence. subst t'.
      intros [Hc|I]; [lia|exact (IH _ Er I)].
Qed.

Lemma utf16_cstr_iff data s n : is_bytes data ->
  (utf16_cstr data = Ok (s, n) <-> exists d rest, data = d ++ rest /\ utf16_z s d /\ n = len d).
Proof.
  intros Hb. split.
  - unfold utf16_cstr. destruct (unit_end data) as [t|] eqn:E; [|discriminate]. destruct (utf16_decode t) as [x|] eqn:D; [|discriminate].
    intros H. assert (x = s) by congruence. subst x. assert (n = len t + 2) by congruence. subst n. pose proof (unit_end_spec _ _ E) as [rest ->].
    apply Forall_app in Hb as [Hb _]. apply (utf16_decode_sound _ _ Hb) in D. exists (t ++ [0; 0]), rest. split; [rewrite <- app_assoc; reflexivity|].
    split; [|rewrite len_app; reflexivity]. split; [eapply unit_end_no_nul; eauto|]. exists t. split; [exact D|reflexivity].
  - intros (d & rest & -> & Z & ->). apply utf16_cstr_ok, Z.
Qed.

Lemma utf16_cstr_err d e : utf16_cstr d = Err e -> e = ParseError.
Proof. unfold utf16_cstr. destruct (unit_end d); [|congruence]. destruct (utf16_decode _); congruence. Qed.

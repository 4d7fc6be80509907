From Verif Require Import Base BaseFacts CoreModel CoreProofs SeqModel SeqSpec SeqFacts MemFacts DictModel Utf16Model Utf16Spec Utf16Facts RdModel RdSpec RdFacts RbProofs RpProofs AliasModel AliasSpec.

Lemma reads_b16 : reads (rd_int (FU BE 2)) (fun v d => w16 v /\ d = be_enc 2 v).
Proof. apply reads_int. cbn; lia. Qed.
Lemma reads_b32 : reads (rd_int (FU BE 4)) (fun v d => w32 v /\ d = be_enc 4 v).
Proof. apply reads_int. cbn; lia. Qed.
Lemma reads_b64 : reads (rd_int (FU BE 8)) (fun v d => w64 v /\ d = be_enc 8 v).
Proof. apply reads_int. cbn; lia. Qed.

Ltac be_reads := match goal with
  | |- reads (rd_bind _ _) _ => eapply reads_bind; [be_reads|intros ?; be_reads]
  | |- reads (rd_int (FU BE 2)) _ => apply reads_b16
  | |- reads (rd_int (FU BE 4)) _ => apply reads_b32
  | |- reads (rd_int (FU BE 8)) _ => apply reads_b64
  | |- _ => reads_tac eauto
  end.

Lemma v2_reads : reads rd_alias_v2 alias_v2_bytes.
Proof.
  eapply reads_iff; [unfold rd_alias_v2; be_reads|]. intros r d _. unfold alias_v2_bytes. split.
  - intros H. rel_out. cbn [a2_type a2_volume a2_volume_time a2_file_system a2_disk a2_parent a2_target a2_target_id a2_target_time].
    rewrite app_nil_r. repeat (split; [assumption|]). reflexivity.
  - destruct r as [f1 f2 f3 f4 f5 f6 f7 f8 f9]. cbn [a2_type a2_volume a2_volume_time a2_file_system a2_disk a2_parent a2_target a2_target_id a2_target_time].
    intros H. rel_out. rel_in. all: try reflexivity. all: rewrite ?app_nil_r; try reflexivity; assumption.
Qed.

Lemma v3_reads : reads rd_alias_v3 alias_v3_bytes.
Proof.
  eapply reads_iff; [unfold rd_alias_v3; be_reads|]. intros r d _. unfold alias_v3_bytes. split.
  - intros H. rel_out. cbn [a3_type a3_volume_time a3_file_system a3_disk a3_parent a3_target_id a3_target_time a3_flags a3_unknown].
    rewrite app_nil_r. repeat (split; [assumption|]). reflexivity.
  - destruct r as [f1 f2 f3 f4 f5 f6 f7 f8 f9]. cbn [a3_type a3_volume_time a3_file_system a3_disk a3_parent a3_target_id a3_target_time a3_flags a3_unknown].
    intros H. rel_out. rel_in. all: try reflexivity. all: rewrite ?app_nil_r; try reflexivity; assumption.
Qed.

Lemma header_reads : reads rd_alias_header (fun sv d => w16 (fst sv) /\ (snd sv = 2 \/ snd sv = 3) /\ d = alias_header (fst sv) (snd sv)).
Proof.
  eapply reads_iff; [unfold rd_alias_header; be_reads|]. intros [size version] d _. cbn [fst snd]. split.
  - intros (info & x1 & r1 & [L ->] & (s & x2 & r2 & [Hs ->] & (v & x3 & r3 & [Hv ->] & ([] & x4 & r4 & [G1 ->] & ([] & x5 & r5 & [G2 ->] & [E ->] & ->) & ->) & ->) & ->) & ->).
    assert (size = s /\ version = v) as [-> ->] by (split; congruence). apply list_eqb_eq in G2. subst info. apply orb_true_iff in G1. rewrite !Z.eqb_eq in G1.
    split; [exact Hs|]. split; [exact G1|]. reflexivity.
  - intros (Hs & Hv & ->). exists [0; 0; 0; 0], [0; 0; 0; 0]. eexists. split; [split; reflexivity|]. split; [|reflexivity].
    exists size, (be_enc 2 size). eexists. split; [auto|]. split; [|reflexivity]. exists version, (be_enc 2 version), []. split; [split; [unfold w16; lia|reflexivity]|].
    split; [|rewrite app_nil_r; reflexivity]. exists tt, [], []. split; [split; [|reflexivity]|].
    + apply orb_true_iff. rewrite !Z.eqb_eq. exact Hv.
    + split; [|reflexivity]. exists tt, [], []. repeat split.
Qed.

Lemma be_ints4_enc l r : ints_ok (FU BE 4) l -> len r < 4 -> be_ints4 (enc_ints (FU BE 4) l ++ r) = l.
Proof.
  intros O Lr. induction O as [|v l Hv O IH].
  - unfold enc_ints. cbn [map concat app]. destruct r as [|? [|? [|? [|? ?]]]]; try reflexivity. unfold len in Lr. cbn [length] in Lr. lia.
  - change (enc_ints (FU BE 4) (v :: l)) with (be_enc 4 v ++ enc_ints (FU BE 4) l). rewrite <- app_assoc.
    pose proof (be_int_enc 4 v Hv) as E. pose proof (len_be_enc 4 v) as L. destruct (be_enc 4 v) as [|a [|b [|c [|e [|]]]]]; try (unfold len in L; cbn [length] in L; lia).
    cbn [app be_ints4]. rewrite E. f_equal. exact IH.
Qed.

Lemma be_ints4_dec d : is_bytes d -> ints_ok (FU BE 4) (be_ints4 d) /\ exists r, len r < 4 /\ d = enc_ints (FU BE 4) (be_ints4 d) ++ r.
Proof.
  assert (H : forall n d, (length d <= n)%nat -> is_bytes d -> ints_ok (FU BE 4) (be_ints4 d) /\ exists r, len r < 4 /\ d = enc_ints (FU BE 4) (be_ints4 d) ++ r).
  2:{ intros Hd. eapply H; eauto. }
  clear d. induction n as [|n IH]; intros d L Hd.
  - destruct d; [|cbn [length] in L; lia]. split; [constructor|]. exists []. split; [unfold len; cbn; lia|reflexivity].
  - destruct d as [|a [|b [|c [|e r]]]]; try (split; [constructor|]; eexists; split; [|reflexivity]; unfold len; cbn [length]; lia).
    cbn [be_ints4]. assert (Hr : is_bytes r) by (do 4 apply Forall_inv_tail in Hd; exact Hd).
    assert (Hh : is_bytes [a; b; c; e]) by (change (a :: b :: c :: e :: r) with ([a; b; c; e] ++ r) in Hd; apply Forall_app in Hd as [Hd _]; exact Hd).
    destruct (IH r ltac:(cbn [length] in L; lia) Hr) as [IH1 (x & Lx & E)]. split.
    + constructor; [|exact IH1]. exact (be_int_bounds _ Hh).
    + exists x. split; [exact Lx|]. change (enc_ints (FU BE 4) (be_int [a; b; c; e] :: be_ints4 r)) with (be_enc 4 (be_int [a; b; c; e]) ++ enc_ints (FU BE 4) (be_ints4 r)).
      pose proof (be_enc_int _ Hh) as Q. cbn [length] in Q. rewrite Q, <- app_assoc, <- E. reflexivity.
Qed.

Lemma swapped_swap d : (exists n, len d = 2 * n) -> swapped (swap16 d) d.
Proof.
  assert (H : forall n d, (length d <= n)%nat -> (exists n, len d = 2 * n) -> swapped (swap16 d) d).
  2:{ intros E. eapply H; eauto. }
  clear d. induction n as [|n IH]; intros d L [k E].
  - destruct d; [constructor|cbn [length] in L; lia].
  - destruct d as [|a [|b r]]; [constructor|unfold len in E; cbn [length] in E; lia|]. cbn [swap16]. constructor. apply IH; [cbn [length] in L; lia|]. exists (k - 1). rewrite !len_cons in E. lia.
Qed.

Lemma swapped_eq x y : swapped x y -> swap16 y = x.
Proof. induction 1 as [|a b x y S IH]; [reflexivity|]. cbn [swap16]. rewrite IH. reflexivity. Qed.

Lemma swapped_bytes x y : swapped x y -> is_bytes y -> is_bytes x.
Proof. induction 1 as [|a b x y S IH]; intros H; [constructor|]. inversion H as [|? ? Hb H']; subst. inversion H' as [|? ? Ha H2]; subst. constructor; [exact Ha|]. constructor; [exact Hb|]. apply IH. exact H2. Qed.

Lemma utf16be_iff s d n : is_bytes d -> len d = 2 * n -> (utf16be_decode d = Some s <-> utf16be s d).
Proof.
  intros Hd L. unfold utf16be_decode, utf16be. assert (Sw : swapped (swap16 d) d) by (apply swapped_swap; eauto).
  rewrite (utf16_decode_iff s (swap16 d)) by (eapply swapped_bytes; eassumption). split.
  - intros U. exists (swap16 d). auto.
  - intros (d' & U & S). rewrite (swapped_eq _ _ S). exact U.
Qed.

Lemma be2 n a b : is_bytes [a; b] -> be_int [a; b] = n -> be_enc 2 n = [a; b] /\ w16 n.
Proof. intros H <-. split; [exact (be_enc_int _ H)|exact (be_int_bounds _ H)]. Qed.

Lemma decode_iff utf8 tag data pad v : is_bytes (data ++ pad) -> (alias_decode utf8 tag data pad = Some v <-> alias_data_value utf8 data pad tag v).
Proof.
  intros Hb. unfold alias_decode. destruct (Z.eqb_spec tag 1) as [->|N1].
  { apply Forall_app in Hb as [Hd _]. split.
    - intros E. assert (v = AInts (be_ints4 data)) as -> by congruence. destruct (be_ints4_dec data Hd) as [O (r & L & E2)]. eapply adv_ints; eassumption.
    - intros H. inversion H as [l r O L E| tag s I U E1 E2 | tag s n w r I _ _ _ _ E1 E2|tag I E1 E2]; subst; [|cbn [In] in I; lia|cbn [In] in I; lia|cbn [In] in I; lia].
      f_equal. f_equal. apply be_ints4_enc; assumption. }
  destruct (existsb (Z.eqb tag) [0; 2; 6; 0x12; 0x13]) eqn:E1.
  { apply existsb_exists in E1 as (x & I & Ex). apply Z.eqb_eq in Ex. subst x. split.
    - destruct (utf8 data) as [s|] eqn:U; [|discriminate]. cbn [option_map]. intros E. assert (v = AText s) as -> by congruence. apply adv_text; assumption.
    - intros H. inversion H as [l r O L E E2| tag' s I' U E2 E3 | tag' s n w r I' _ _ _ _ E2 E3|tag' I' E2 E3]; subst; [lia|rewrite U; reflexivity| |].
      + exfalso. cbn [In] in I, I'. lia.
      + exfalso. cbn [In] in I, I'. lia. }
  assert (NI : ~ In tag [0; 2; 6; 0x12; 0x13]) by (intros I; rewrite <- not_true_iff_false in E1; apply E1; apply existsb_exists; exists tag; split; [exact I|apply Z.eqb_refl]).
  destruct (existsb (Z.eqb tag) [0xe; 0xf]) eqn:E2.
  { apply existsb_exists in E2 as (x & I & Ex). apply Z.eqb_eq in Ex. subst x. split.
    - destruct (data ++ pad) as [|a [|b r]] eqn:Ed; try discriminate. destruct (Z.leb_spec (2 * be_int [a; b]) (len r)) as [L|L]; [|discriminate].
      destruct (utf16be_decode _) as [s|] eqn:U; [|discriminate]. cbn [option_map]. intros E. assert (v = AText s) as -> by congruence.
      assert (Hh : is_bytes [a; b]) by (change (a :: b :: r) with ([a; b] ++ r) in Hb; apply Forall_app in Hb as [Hb _]; exact Hb).
      assert (Hr : is_bytes r) by (do 2 apply Forall_inv_tail in Hb; exact Hb).
      destruct (be2 _ a b Hh eq_refl) as [Q W]. pose proof W as W'. unfold w16 in W'.
      assert (Lw : len (zfirstn (2 * be_int [a; b]) r) = 2 * be_int [a; b]) by (rewrite len_zfirstn; lia).
      eapply (adv_wide _ _ _ _ s (be_int [a; b]) (zfirstn (2 * be_int [a; b]) r) (zskipn (2 * be_int [a; b]) r)); [exact I|exact W|exact Lw| |].
      + apply (utf16be_iff _ _ (be_int [a; b])); [|exact Lw|exact U]. rewrite <- (zfirstn_zskipn r (2 * be_int [a; b])) in Hr. apply Forall_app in Hr as [Hr _]. exact Hr.
      + rewrite Q, zfirstn_zskipn, Ed. reflexivity.
    - intros H. inversion H as [l r O L E E2| tag' s I' U E2 E3 | tag' s n w r I' Wn Lw U Ed E2 E3|tag' I' E2 E3]; subst; [lia|contradiction| |exfalso; cbn [In] in I, I'; lia].
      rewrite Ed in *. pose proof (be_int_enc 2 n Wn) as Bn. pose proof (len_be_enc 2 n) as L2.
      destruct (be_enc 2 n) as [|a [|b [|]]]; try (unfold len in L2; cbn [length] in L2; lia). cbn [app]. rewrite Bn. pose proof (len_nonneg r).
      rewrite len_app, Lw. destruct (Z.leb_spec (2 * n) (2 * n + len r)); [|lia]. rewrite zfirstn_app_len by lia.
      rewrite (proj2 (utf16be_iff s w n ltac:(cbn [app] in Hb; do 2 apply Forall_inv_tail in Hb; apply Forall_app in Hb as [Hb _]; exact Hb) Lw) U). reflexivity. }
  assert (NJ : ~ In tag [0xe; 0xf]) by (intros I; rewrite <- not_true_iff_false in E2; apply E2; apply existsb_exists; exists tag; split; [exact I|apply Z.eqb_refl]).
  split.
  - intros E. assert (v = AData data) as -> by congruence. apply adv_data. cbn [In] in *. lia.
  - intros H. inversion H as [l r O L E E3| tag' s I' U E3 E4 | tag' s n w r I' Wn Lw U Ed E3 E4|tag' I' E3 E4]; subst; [lia|contradiction|contradiction|reflexivity].
Qed.

Lemma tagged_reads utf8 : reads (rd_alias_tagged utf8) (alias_tagged utf8).
Proof.
  eapply reads_iff; [unfold rd_alias_tagged; be_reads|]. intros [tag v] d Hd. unfold alias_tagged. cbn [fst snd]. split.
  - intros (t & x1 & r1 & [Ht ->] & (n & x2 & r2 & [Hn ->] & (data & x3 & r3 & [Ld ->] & (pad & x4 & r4 & [Lp ->] & (v' & x5 & r5 & [D ->] & [E ->] & ->) & ->) & ->) & ->) & ->).
    assert (tag = t /\ v = v') as [-> ->] by (split; congruence). subst n. exists data, pad. repeat (split; [assumption|]). cbn [app] in *. rewrite !app_nil_r in *. split; [reflexivity|].
    apply decode_iff; [|exact D]. apply Forall_app in Hd as [_ Hd]. apply Forall_app in Hd as [_ Hd]. exact Hd.
  - intros (data & pad & Ht & Hn & Lp & -> & V). exists tag, (be_enc 2 tag). eexists. split; [auto|]. split; [|reflexivity].
    exists (len data), (be_enc 2 (len data)). eexists. split; [auto|]. split; [|reflexivity]. exists data, data. eexists. split; [auto|]. split; [|reflexivity].
    exists pad, pad, []. split; [auto|]. split; [|rewrite app_nil_r; reflexivity]. exists v, [], []. split; [split; [|reflexivity]|].
    + apply decode_iff; [|exact V]. apply Forall_app in Hd as [_ Hd]. apply Forall_app in Hd as [_ Hd]. exact Hd.
    + split; [split; reflexivity|reflexivity].
Qed.

Lemma tagged_pos utf8 tv d : alias_tagged utf8 tv d -> 0 < len d.
Proof.
  intros (data & pad & _ & _ & _ & -> & _). rewrite !len_app, !len_be_enc. pose proof (len_nonneg data). pose proof (len_nonneg pad). lia.
Qed.

Lemma v2_len r d : alias_v2_bytes r d -> len d = 114.
Proof. intros (_ & L1 & _ & L2 & L3 & _ & L4 & _ & _ & ->). rewrite !len_app, !len_be_enc. lia. Qed.
Lemma v3_len r d : alias_v3_bytes r d -> len d = 50.
Proof. intros (_ & _ & L1 & _ & _ & _ & _ & _ & L2 & ->). rewrite !len_app, !len_be_enc. lia. Qed.
Lemma header_len s v : len (alias_header s v) = 8.
Proof. unfold alias_header. rewrite !len_app, !len_be_enc. reflexivity. Qed.

Lemma at_start content d : (exists t, content = d ++ t) -> stored_at content 0 d.
Proof. intros (t & ->). exists [], t. split; reflexivity. Qed.

Lemma at_head content h d rest : content = h ++ d ++ rest -> stored_at content (len h) d.
Proof. intros ->. exists h, rest. split; reflexivity. Qed.

Lemma alias_iff fuel utf8 content r l : is_bytes content -> len content < Z.of_nat fuel ->
  (read_alias fuel utf8 content = Done (Ok (r, l)) <-> alias_file utf8 r l content \/ alias_cut r l content).
Proof.
  intros Hb Hf. pose proof (len_nonneg content) as Ln. unfold read_alias.
  destruct (header_reads content 0 Hb ltac:(lia)) as [H1 _]. split.
  - destruct (rd_alias_header content 0) as [[[size version] p]|] eqn:Eh; [|discriminate]. destruct (proj1 (H1 _ _) eq_refl) as (dh & (Ws & Hv & ->) & St & _). cbn [fst snd] in *.
    apply stored_at_0 in St as (t & Ec). destruct (Z.eqb_spec size (len content)) as [->|]; [|discriminate]. cbn [negb].
    destruct Hv as [-> | ->]; cbn [Z.eqb Pos.eqb].
    + destruct (v2_reads content 8 Hb ltac:(rewrite Ec, len_app, header_len; pose proof (len_nonneg t); lia)) as [V1 _].
      destruct (rd_alias_v2 content 8) as [[r2 p2]|] eqn:Ev; cbn [bind rbind]; [|discriminate]. destruct (proj1 (V1 _ _) eq_refl) as (d & Hd & St & _).
      destruct (rd_until _ _ _ _ _) as [[l'|]|] eqn:Eu; cbn [rbind]; try discriminate. intros E. assert (r = AliasV2 r2 /\ l = l') as [-> ->] by (split; congruence).
      apply (rd_until_iff _ _ _ (tagged_reads utf8) (tagged_pos utf8) Hb) in Eu; try lia. destruct Eu as (ds & F & Es).
      destruct St as (h & t' & Ec' & Lh). pose proof (v2_len _ _ Hd) as Ld.
      assert (h = alias_header (len content) 2 /\ d ++ t' = t) as [-> <-] by (apply app_split; [apply Nat2Z.inj; fold (len h); fold (len (alias_header (len content) 2)); rewrite header_len; lia|exact (eq_trans (eq_sym Ec') Ec)]).
      destruct (Z.leb_spec 28 (len t')) as [Lt|Lt].
      * left. split; [exact Ws|]. exists d, ds. split; [exact F|]. exists (zfirstn 28 t'). split; [rewrite len_zfirstn; lia|]. split; [exact Hd|].
        rewrite Ec at 1. f_equal. f_equal. rewrite <- (zfirstn_zskipn t' 28) at 1. f_equal. rewrite <- Es, Ec, app_assoc.
        replace 150 with (122 + 28) by reflexivity. rewrite <- zskipn_zskipn by lia. rewrite zskipn_app_len by (rewrite len_app, header_len; lia). reflexivity.
      * right. split; [exact Ws|]. rewrite zskipn_all in Es by (rewrite Ec, !len_app, header_len; lia). split.
        -- destruct F as [|tv x l ds T F]; [reflexivity|]. apply tagged_pos in T. cbn [concat] in Es. symmetry in Es. apply app_eq_nil in Es as [-> _]. change (len (@nil Z)) with 0 in T. lia.
        -- exists d, t'. auto.
    + destruct (v3_reads content 8 Hb ltac:(rewrite Ec, len_app, header_len; pose proof (len_nonneg t); lia)) as [V1 _].
      destruct (rd_alias_v3 content 8) as [[r2 p2]|] eqn:Ev; cbn [bind rbind]; [|discriminate]. destruct (proj1 (V1 _ _) eq_refl) as (d & Hd & St & _).
      destruct (rd_until _ _ _ _ _) as [[l'|]|] eqn:Eu; cbn [rbind]; try discriminate. intros E. assert (r = AliasV3 r2 /\ l = l') as [-> ->] by (split; congruence).
      apply (rd_until_iff _ _ _ (tagged_reads utf8) (tagged_pos utf8) Hb) in Eu; try lia. destruct Eu as (ds & F & Es).
      destruct St as (h & t' & Ec' & Lh). pose proof (v3_len _ _ Hd) as Ld.
      assert (h = alias_header (len content) 3 /\ d ++ t' = t) as [-> <-] by (apply app_split; [apply Nat2Z.inj; fold (len h); fold (len (alias_header (len content) 3)); rewrite header_len; lia|exact (eq_trans (eq_sym Ec') Ec)]).
      left. split; [exact Ws|]. exists d, ds. split; [exact F|]. split; [exact Hd|]. rewrite Ec at 1. f_equal. f_equal. rewrite <- Es, Ec, app_assoc, zskipn_app_len by (rewrite len_app, header_len; lia). reflexivity.
  - intros [(Ws & d & ds & F & H) | (Ws & -> & H)].
    + destruct r as [r|r].
      * destruct H as (unknown & Lu & Hd & Ec). pose proof (v2_len _ _ Hd) as Ld.
        rewrite (proj2 (H1 (len content, 2) 8)).
        2:{ exists (alias_header (len content) 2). cbn [fst snd]. split; [auto|]. split; [apply at_start; eauto|rewrite header_len; reflexivity]. }
        rewrite Z.eqb_refl. cbn [negb Z.eqb Pos.eqb].
        destruct (v2_reads content 8 Hb ltac:(rewrite Ec, !len_app, header_len; pose proof (len_nonneg (concat ds)); lia)) as [V1 _].
        rewrite (proj2 (V1 r (8 + len d))).
        2:{ exists d. split; [exact Hd|]. split; [|reflexivity]. apply (at_head _ _ _ _ Ec). }
        cbn [bind rbind]. rewrite (proj2 (rd_until_iff _ _ _ (tagged_reads utf8) (tagged_pos utf8) Hb fuel 150 l ltac:(lia) ltac:(lia))); [reflexivity|].
        exists ds. split; [exact F|]. rewrite Ec, !app_assoc, zskipn_app_len by (rewrite !len_app, header_len; lia). reflexivity.
      * destruct H as (Hd & Ec). pose proof (v3_len _ _ Hd) as Ld.
        rewrite (proj2 (H1 (len content, 3) 8)).
        2:{ exists (alias_header (len content) 3). cbn [fst snd]. split; [auto|]. split; [apply at_start; eauto|rewrite header_len; reflexivity]. }
        rewrite Z.eqb_refl. cbn [negb Z.eqb Pos.eqb].
        destruct (v3_reads content 8 Hb ltac:(rewrite Ec, !len_app, header_len; pose proof (len_nonneg (concat ds)); lia)) as [V1 _].
        rewrite (proj2 (V1 r (8 + len d))).
        2:{ exists d. split; [exact Hd|]. split; [|reflexivity]. apply (at_head _ _ _ _ Ec). }
        cbn [bind rbind]. rewrite (proj2 (rd_until_iff _ _ _ (tagged_reads utf8) (tagged_pos utf8) Hb fuel 58 l ltac:(lia) ltac:(lia))); [reflexivity|].
        exists ds. split; [exact F|]. rewrite Ec, !app_assoc, zskipn_app_len by (rewrite !len_app, header_len; lia). reflexivity.
    + destruct r as [r|r]; [|contradiction]. destruct H as (d & unknown & Lu & Hd & Ec). pose proof (v2_len _ _ Hd) as Ld.
      rewrite (proj2 (H1 (len content, 2) 8)).
      2:{ exists (alias_header (len content) 2). cbn [fst snd]. split; [auto|]. split; [apply at_start; eauto|rewrite header_len; reflexivity]. }
      rewrite Z.eqb_refl. cbn [negb Z.eqb Pos.eqb].
      destruct (v2_reads content 8 Hb ltac:(rewrite Ec, !len_app, header_len; pose proof (len_nonneg unknown); lia)) as [V1 _].
      rewrite (proj2 (V1 r (8 + len d))).
      2:{ exists d. split; [exact Hd|]. split; [|reflexivity]. apply (at_head _ _ _ _ Ec). }
      cbn [bind rbind]. rewrite (proj2 (rd_until_iff _ _ _ (tagged_reads utf8) (tagged_pos utf8) Hb fuel 150 [] ltac:(lia) ltac:(lia))); [reflexivity|].
      exists []. split; [constructor|]. apply zskipn_all. rewrite Ec, !len_app, header_len. lia.
Qed.

Lemma alias_ends fuel utf8 content : is_bytes content -> len content < Z.of_nat fuel ->
  exists x, read_alias fuel utf8 content = Done x /\ (forall y, x = Err y -> y = ParseError).
Proof.
  intros Hb Hf. pose proof (len_nonneg content) as Ln. unfold read_alias.
  destruct (header_reads content 0 Hb ltac:(lia)) as [H1 H2]. destruct (rd_alias_header content 0) as [[[size version] p]|x] eqn:Eh.
  2:{ eexists. split; [reflexivity|]. intros y [= <-]. apply H2. reflexivity. }
  destruct (proj1 (H1 _ _) eq_refl) as (dh & (_ & _ & ->) & St & _). apply stored_at_inside in St. rewrite header_len in St.
  destruct (Z.eqb_spec size (len content)) as [->|]; cbn [negb]; [|eexists; split; [reflexivity|congruence]].
  destruct (version =? 2).
  - destruct (v2_reads content 8 Hb ltac:(lia)) as [_ V2]. destruct (rd_alias_v2 content 8) as [[r2 p2]|x]; cbn [bind rbind].
    + destruct (rd_until_ends _ _ _ (tagged_reads utf8) (tagged_pos utf8) Hb fuel 150 ltac:(lia) ltac:(lia)) as ([l|y] & -> & Hy); cbn [rbind]; eexists; (split; [reflexivity|]); [discriminate|intros z [= <-]; apply Hy; reflexivity].
    + eexists. split; [reflexivity|]. intros y [= <-]. apply V2. reflexivity.
  - destruct (v3_reads content 8 Hb ltac:(lia)) as [_ V2]. destruct (rd_alias_v3 content 8) as [[r2 p2]|x]; cbn [bind rbind].
    + destruct (rd_until_ends _ _ _ (tagged_reads utf8) (tagged_pos utf8) Hb fuel 58 ltac:(lia) ltac:(lia)) as ([l|y] & -> & Hy); cbn [rbind]; eexists; (split; [reflexivity|]); [discriminate|intros z [= <-]; apply Hy; reflexivity].
    + eexists. split; [reflexivity|]. intros y [= <-]. apply V2. reflexivity.
Qed.

Lemma alias_many fuel utf8 r1 r2 : is_bytes (r1 ++ r2) -> r2 <> [] ->
  forall rec l, alias_file utf8 rec l r1 -> read_alias fuel utf8 (r1 ++ r2) = Done (Err ParseError).
Proof.
  intros Hb N rec l H. assert (Hh : exists v t, (v = 2 \/ v = 3) /\ w16 (len r1) /\ r1 = alias_header (len r1) v ++ t).
  { destruct H as (W & d & ds & _ & H). destruct rec as [rec|rec]; [destruct H as (u & _ & _ & E)|destruct H as (_ & E)]; eauto 10. }
  destruct Hh as (v & t & Hv & W & E). unfold read_alias. pose proof (len_nonneg (r1 ++ r2)).
  destruct (header_reads (r1 ++ r2) 0 Hb ltac:(lia)) as [H1 _]. rewrite (proj2 (H1 (len r1, v) 8)).
  2:{ exists (alias_header (len r1) v). cbn [fst snd]. split; [auto|]. split; [apply at_start; exists (t ++ r2); rewrite E at 1; rewrite <- app_assoc; reflexivity|rewrite header_len; reflexivity]. }
  rewrite len_app. destruct (Z.eqb_spec (len r1) (len r1 + len r2)) as [Q|]; [|reflexivity]. destruct r2; [congruence|]. rewrite len_cons in Q. pose proof (len_nonneg r2). lia.
Qed.

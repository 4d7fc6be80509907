From Verif Require Import Base BaseFacts CoreModel CoreProofs VarModel VarFacts SeqModel SeqSpec SeqFacts GzipModel GzipProofs SafariModel SafariSpec.

Lemma ck_string_iff page off s : is_bytes page -> 0 <= off ->
  (ck_string page off = Ok s <-> Forall (fun c => 0 < c < 128) s /\ stored_at page off (s ++ [0])).
Proof.
  intros Hb Ho. unfold ck_string. rewrite as_parse_error_ok.
  set (d := zskipn off page).
  assert (Hd : is_bytes d) by (apply is_bytes_zskipn; exact Hb).
  transitivity (cstring_end d = Some s /\ Forall (fun c => c < 128) s).
  { destruct d as [|x r] eqn:E; [split; [discriminate|intros [H _]; discriminate H]|]. rewrite <- E. clear E.
    destruct (cstring_end d) as [s'|]; [|split; [discriminate|intros [H _]; discriminate H]].
    destruct (forallb (fun c => c <? 128) s') eqn:F.
    - rewrite forallb_forall in F. split.
      + injection 1 as <-. split; [reflexivity|]. apply Forall_forall. intros c Hc. specialize (F c Hc). lia.
      + intros [H _]. injection H as ->. reflexivity.
    - split; [discriminate|]. intros [H G]. injection H as ->. exfalso.
      assert (forallb (fun c => c <? 128) s = true); [|congruence]. apply forallb_forall. intros c Hc.
      rewrite Forall_forall in G. specialize (G c Hc). lia. }
  rewrite cstring_end_spec. split.
  - intros [(rest & E & Hn) H]. split.
    + rewrite E in Hd. apply is_bytes_app in Hd. destruct Hd as [Hd _]. apply Forall_forall. intros c Hc.
      rewrite Forall_forall in H. specialize (H c Hc). unfold is_bytes in Hd. rewrite Forall_forall in Hd. specialize (Hd c Hc).
      unfold is_byte in Hd. destruct (Z.eq_dec c 0); [subst c; contradiction|lia].
    + assert (L : off <= len page).
      { destruct (Z.le_gt_cases off (len page)); [assumption|]. unfold d in E. rewrite zskipn_all in E by lia. destruct s; discriminate E. }
      apply stored_at_from; [lia|]. exists rest. fold d. rewrite E, <- app_assoc. reflexivity.
  - intros [H St]. pose proof (stored_at_inside _ _ _ St) as [_ I]. rewrite len_app in I. cbn [len] in I. pose proof (len_nonneg s).
    change (len [0]) with 1 in I. apply stored_at_from in St; [|lia]. destruct St as [rest E]. split.
    + exists rest. fold d in E. rewrite E, <- app_assoc. split; [reflexivity|]. intros Hc. rewrite Forall_forall in H. specialize (H 0 Hc). lia.
    + eapply Forall_impl; [|exact H]. cbv beta. intros c Hc. lia.
Qed.

Lemma ck_value_string_iff page ro off s : is_bytes page -> 0 <= ro -> 0 <= off ->
  (ck_value_string page ro off = Ok s <-> ck_string_at page ro off s).
Proof.
  intros Hb Hr Ho. unfold ck_value_string. destruct (Z.eqb_spec off 0) as [->|N].
  - split; [injection 1 as <-; constructor|]. inversion 1; [reflexivity|contradiction].
  - rewrite ck_string_iff by (assumption || lia). split.
    + intros [H1 H2]. constructor; assumption.
    + inversion 1; [congruence|]. split; assumption.
Qed.

Lemma ck_layout_wf : Forall fkind_wf ck_record_layout.
Proof. unfold ck_record_layout. cbn. repeat (apply Forall_cons; [exact I|]). apply Forall_nil. Qed.

Lemma ck_record_vals vs : Forall2 fval_ok ck_record_layout vs ->
  exists a b c d e f g h i j k, vs = [VI a; VI b; VI c; VI d; VI e; VI f; VI g; VI h; VI i; VB j; VB k] /\
    Forall (fun z => 0 <= z < 2 ^ 32) [a; b; c; d; e; f; g; h] /\ 0 <= i < 2 ^ 64 /\ length j = 8%nat /\ length k = 8%nat.
Proof.
  intros H. unfold ck_record_layout in H. cbn [repeat app] in H. inv2 H.
  repeat match goal with v : fval |- _ => destruct v; cbn [fval_ok] in *; try contradiction end.
  do 11 eexists. split; [reflexivity|]. 
  split; [repeat (apply Forall_cons; [assumption|]); apply Forall_nil|]. tauto.
Qed.

Lemma ck_record_ok a b c d e f g h i j k : Forall (fun z => 0 <= z < 2 ^ 32) [a; b; c; d; e; f; g; h] -> 0 <= i < 2 ^ 64 ->
  length j = 8%nat -> length k = 8%nat -> is_bytes j -> is_bytes k ->
  Forall2 fval_ok ck_record_layout [VI a; VI b; VI c; VI d; VI e; VI f; VI g; VI h; VI i; VB j; VB k].
Proof.
  intros H Hi Hj Hk Bj Bk. unfold ck_record_layout. cbn [repeat app].
  repeat match goal with H : Forall _ (_ :: _) |- _ => let X := fresh in pose proof (Forall_inv H) as X; apply Forall_inv_tail in H; cbv beta in X end.
  repeat (apply Forall2_cons; [cbn [fval_ok]; assumption || (split; assumption)|]). apply Forall2_nil.
Qed.

Lemma enc_record a b c d e f g h i j k :
  enc_struct ck_record_layout [VI a; VI b; VI c; VI d; VI e; VI f; VI g; VI h; VI i; VB j; VB k] =
  le_enc 4 a ++ le_enc 4 b ++ le_enc 4 c ++ le_enc 4 d ++ le_enc 4 e ++ le_enc 4 f ++ le_enc 4 g ++ le_enc 4 h ++ le_enc 8 i ++ j ++ k.
Proof. unfold ck_record_layout. cbn [repeat app enc_struct enc_field enc_int]. rewrite app_nil_r. reflexivity. Qed.

Lemma ck_read_record_iff page off c : is_bytes page -> 0 <= off ->
  (ck_read_record page off = Ok c <-> ck_record_at page off c).
Proof.
  intros Hb Ho. unfold ck_read_record. split.
  - destruct (as_parse_error (struct_bs ck_record_layout (zskipn off page))) as [vs|] eqn:E; [|discriminate]. cbn [bind].
    rewrite as_parse_error_ok in E. apply struct_bs_at in E; [|assumption|apply ck_layout_wf|cbn; lia|assumption].
    destruct E as [St F]. destruct (ck_record_vals vs F) as (a & b & c' & d & e & f & g & h & i & j & k & -> & B & Bi & Lj & Lk).
    assert (B' := B). rewrite Forall_forall in B'.
    destruct (ck_value_string page off e) as [u|] eqn:Eu; [|discriminate]. cbn [bind].
    destruct (ck_value_string page off f) as [n|] eqn:En; [|discriminate]. cbn [bind].
    destruct (ck_value_string page off g) as [p|] eqn:Ep; [|discriminate]. cbn [bind].
    destruct (ck_value_string page off h) as [v|] eqn:Ev; [|discriminate]. cbn [bind]. injection 1 as <-.
    rewrite ck_value_string_iff in Eu, En, Ep, Ev by (try assumption; apply B'; cbn [In]; tauto).
    exists a, b, c', d, e, f, g, h, i, j, k. rewrite enc_record in St. cbn [ck_url ck_name ck_path ck_value].
    repeat (split; [assumption|]). assumption.
  - intros (a & b & c' & d & e & f & g & h & i & j & k & St & B & Bi & Lj & Lk & Eu & En & Ep & Ev).
    assert (Bjk : is_bytes j /\ is_bytes k).
    { destruct St as (pre & post & E & _). rewrite E in Hb. rewrite !is_bytes_app in Hb. tauto. }
    rewrite <- enc_record in St. assert (F := ck_record_ok a b c' d e f g h i j k B Bi Lj Lk (proj1 Bjk) (proj2 Bjk)).
    assert (S1 : struct_bs ck_record_layout (zskipn off page) = Ok [VI a; VI b; VI c'; VI d; VI e; VI f; VI g; VI h; VI i; VB j; VB k]).
    { apply struct_bs_at; [assumption|apply ck_layout_wf|cbn; lia|assumption|]. split; assumption. }
    rewrite S1. cbn [as_parse_error bind]. assert (B' := B). rewrite Forall_forall in B'.
    rewrite <- ck_value_string_iff in Eu, En, Ep, Ev by (try assumption; apply B'; cbn [In]; tauto).
    rewrite Eu. cbn [bind]. rewrite En. cbn [bind]. rewrite Ep. cbn [bind]. rewrite Ev. cbn [bind]. destruct c; reflexivity.
Qed.

Lemma enc_ints_le4 l : enc_ints (FU LE 4) l = concat (map (le_enc 4) l).
Proof. reflexivity. Qed.

Lemma uint32_iff l : ints_ok (FU LE 4) l <-> Forall (fun z => 0 <= z < 2 ^ 32) l.
Proof. reflexivity. Qed.

Definition ck_count (vs : list fval) : Z := match vs with [_; VI n] => n | _ => 0 end.

Lemma ck_page_iff page l : is_bytes page ->
  ((exists vs offsets, struct_seq_bs [FU LE 4; FU LE 4] (FU LE 4) ck_count page = Ok (vs, offsets) /\
     mapr (ck_read_record page) offsets = Ok l) <-> ck_page page l).
Proof.
  intros Hb. assert (Wf : Forall fkind_wf [FU LE 4; FU LE 4]) by (repeat (apply Forall_cons; [exact I|]); apply Forall_nil).
  split.
  - intros (vs & offsets & E & M).
    assert (Cn : 0 <= ck_count vs).
    { unfold struct_seq_bs in E. destruct (struct_bs _ page) as [vs'|] eqn:E2; [|discriminate]. cbn [bind] in E.
      apply struct_bs_iff in E2; [|assumption..|cbn; lia]. destruct E2 as (r & _ & F).
      destruct (map_struct _ _) in E; [|discriminate]. assert (vs' = vs) by congruence. subst vs'. inv2 F.
      destruct v0; cbn [fval_ok ck_count] in *; [lia|contradiction]. }
    apply struct_seq_bs_iff in E; [|assumption..|cbn; lia|exact I|discriminate|exact Cn].
    destruct E as (rest & Ep & F & G & L). inv2 F. destruct v; [|contradiction]. destruct v0; [|contradiction].
    cbn [fval_ok] in *. cbn [ck_count] in L. exists z, offsets, rest. cbn [enc_struct enc_field enc_int] in Ep. rewrite app_nil_r, <- app_assoc in Ep.
    rewrite L. split; [exact Ep|]. split; [assumption|]. split; [change (2 ^ 32) with (256 ^ Z.of_nat 4); lia|]. split; [exact G|].
    eapply mapr_iff; [|exact M]. intros x y Hx. apply ck_read_record_iff; [assumption|].
    unfold ints_ok in G. rewrite Forall_forall in G. specialize (G x Hx). cbn [fval_ok] in G. lia.
  - intros (sig & offsets & rest & Ep & Bs & Bl & Bo & M). exists [VI sig; VI (len offsets)], offsets. split.
    + apply struct_seq_bs_iff; [assumption..|cbn; lia|exact I|discriminate|cbn [ck_count]; apply len_nonneg|].
      exists rest. cbn [enc_struct enc_field enc_int]. rewrite app_nil_r, <- app_assoc. split; [exact Ep|].
      pose proof (len_nonneg offsets). change (2 ^ 32) with (256 ^ Z.of_nat 4) in Bs, Bl.
      split; [repeat (apply Forall2_cons; [cbn [fval_ok]; lia|]); apply Forall2_nil|]. split; [exact Bo|reflexivity].
    + eapply mapr_iff; [|exact M]. intros x y Hx. apply ck_read_record_iff; [assumption|].
      rewrite Forall_forall in Bo. specialize (Bo x Hx). lia.
Qed.

Lemma ck_read_page_iff content pos n l p : is_bytes content -> 0 <= pos <= len content -> 0 <= n ->
  (ck_read_page content pos n = Ok (l, p) <->
   exists page, stored_at content pos page /\ len page = n /\ p = pos + n /\ ck_page page l).
Proof.
  intros Hb Hp Hn. unfold ck_read_page. change (fun vs => match vs with [_; VI n] => n | _ => 0 end) with ck_count. split.
  - destruct (read_next content pos n) as [[page p']|] eqn:E; [|discriminate]. cbn [bind].
    apply read_next_iff in E; [|assumption..]. destruct E as (St & L & ->).
    destruct (as_parse_error _) as [[vs offsets]|] eqn:E2; [|discriminate]. cbn [bind]. rewrite as_parse_error_ok in E2.
    destruct (mapr _ offsets) as [l'|] eqn:E3; [|discriminate]. cbn [bind]. intros H.
    assert (l' = l) by congruence. assert (p = pos + n) by congruence. subst l' p.
    exists page. repeat (split; [assumption || reflexivity|]). apply ck_page_iff; [eapply is_bytes_stored; eassumption|]. eauto.
  - intros (page & St & L & -> & Pg). 
    assert (E : read_next content pos n = Ok (page, pos + n)) by (apply read_next_iff; auto). rewrite E. cbn [bind].
    apply ck_page_iff in Pg; [|eapply is_bytes_stored; eassumption]. destruct Pg as (vs & offsets & E2 & M). rewrite E2. cbn [as_parse_error bind].
    rewrite M. reflexivity.
Qed.

Lemma ck_read_pages_iff content sizes : is_bytes content -> Forall (fun n => 0 <= n) sizes -> forall pos ls p, 0 <= pos <= len content ->
  (ck_read_pages content pos sizes = Ok (ls, p) <->
   exists data, map len data = sizes /\ stored_at content pos (concat data) /\ p = pos + len (concat data) /\ Forall2 ck_page data ls).
Proof.
  intros Hb. induction sizes as [|n sizes IH]; intros Hs pos ls p Hp.
  - cbn [ck_read_pages]. split.
    + intros E. assert (ls = []) by congruence. assert (p = pos) by congruence. subst. exists []. cbn [map concat]. rewrite len_nil.
      split; [reflexivity|]. split; [|split; [lia|constructor]].
      exists (zfirstn pos content), (zskipn pos content). split; [cbn; symmetry; apply zfirstn_zskipn|rewrite len_zfirstn; lia].
    + intros (data & E & _ & -> & F). destruct data; [|discriminate]. inversion F. cbn [concat]. rewrite len_nil, Z.add_0_r. reflexivity.
  - cbn [ck_read_pages]. pose proof (Forall_inv Hs) as Hn. cbv beta in Hn. apply Forall_inv_tail in Hs. split.
    + destruct (ck_read_page content pos n) as [[l p1]|] eqn:E; [|discriminate]. cbn [bind].
      apply ck_read_page_iff in E; [|assumption..]. destruct E as (page & St & L & -> & Pg). pose proof (stored_at_inside _ _ _ St) as [_ I].
      destruct (ck_read_pages content (pos + n) sizes) as [[ls' p2]|] eqn:E2; [|discriminate]. cbn [bind]. intros H.
      assert (l :: ls' = ls) by congruence. assert (p2 = p) by congruence. subst ls p2.
      apply IH in E2; [|assumption|lia]. destruct E2 as (data & E2 & St2 & -> & F). exists (page :: data). cbn [map concat].
      rewrite E2, L. split; [reflexivity|]. split; [apply stored_at_app; rewrite L; split; assumption|]. rewrite len_app, L.
      split; [lia|constructor; assumption].
    + intros (data & E & St & -> & F). destruct data as [|page data]; [discriminate|]. cbn [map concat] in *. 
      assert (Ln : len page = n) by congruence. assert (Es : map len data = sizes) by congruence.
      inversion F as [|? l ? ls' Fl Fls]; subst ls. 
      apply stored_at_app in St. destruct St as [St1 St2]. rewrite Ln in St2. pose proof (stored_at_inside _ _ _ St1) as [_ I].
      assert (E1 : ck_read_page content pos n = Ok (l, pos + n)) by (apply ck_read_page_iff; [assumption..|]; exists page; auto).
      rewrite E1. cbn [bind].
      assert (E2 : ck_read_pages content (pos + n) sizes = Ok (ls', pos + n + len (concat data))) by (apply IH; [assumption|lia|]; exists data; auto).
      rewrite E2. cbn [bind]. rewrite len_app, Ln.
      match goal with |- Ok (_, ?a) = Ok (_, ?b) => replace a with b by lia; reflexivity end.
Qed.

Lemma cook_iff content sizes p : is_bytes content ->
  (ck_read_header content = Ok (sizes, p) <->
   sizes <> [] /\ len sizes < 2 ^ 32 /\ Forall (fun z => 0 <= z < 2 ^ 32) sizes /\
   stored_at content 0 (s2z "cook" ++ be_enc 4 (len sizes) ++ concat (map (be_enc 4) sizes)) /\ p = 8 + 4 * len sizes).
Proof.
  intros Hb. unfold ck_read_header.
  assert (Wf : Forall fkind_wf [FB 4; FU BE 4]) by (repeat (apply Forall_cons; [exact I|]); apply Forall_nil).
  split.
  - destruct (read_struct content [FB 4; FU BE 4] 0) as [vs|] eqn:E; [|discriminate]. cbn [bind].
    apply read_struct_iff in E; [|assumption..|cbn; lia]. destruct E as [St F]. inv2 F.
    destruct v; [contradiction|]. destruct v0; [|contradiction]. cbn [fval_ok] in *. rename b into sig. rename z into n.
    destruct (list_eqb sig (s2z "cook")) eqn:Es; [|discriminate]. apply list_eqb_eq in Es. subst sig. cbn [guard bind].
    destruct (as_parse_error _) as [sizes'|] eqn:E2; [|discriminate]. cbn [bind]. rewrite as_parse_error_ok in E2. intros H.
    assert (sizes' = sizes) by congruence. subst sizes'.
    assert (Ep : p = 8 + len (zfirstn (n * 4) (zskipn 8 content))) by congruence. clear H.
    apply seq_bs_iff in E2; [|apply is_bytes_zfirstn, is_bytes_zskipn, Hb|exact I|cbn; lia|discriminate|lia].
    destruct E2 as (Hd & rest & Ed & G & L). pose proof (len_enc_ints _ _ G) as Le. cbn [fsize] in Le.
    cbn [enc_struct enc_field enc_int] in St. rewrite app_nil_r in St.
    assert (Ln : sizes <> []).
    { intros ->. change (len (@nil Z)) with 0 in L. apply Hd. rewrite <- L. apply zfirstn_0. lia. }
    split; [exact Ln|]. split; [change (2 ^ 32) with (256 ^ Z.of_nat 4); lia|]. split; [exact G|].
    pose proof (stored_at_inside _ _ _ St) as [_ I1]. rewrite len_app, len_be_enc in I1. change (len (s2z "cook")) with 4 in I1.
    assert (Er : rest = []).
    { apply len_zero. apply (f_equal len) in Ed. rewrite len_app, len_zfirstn, Le in Ed. pose proof (len_nonneg rest). lia. }
    subst rest. rewrite app_nil_r in Ed. split.
    + rewrite app_assoc. apply stored_at_app. rewrite L. split; [exact St|]. rewrite len_app, len_be_enc. change (len (s2z "cook")) with 4.
      apply stored_at_from; [lia|]. exists (zskipn (n * 4) (zskipn 8 content)). change (0 + (4 + Z.of_nat 4)) with 8.
      change (concat (map (be_enc 4) sizes)) with (enc_ints (FU BE 4) sizes). rewrite <- Ed. symmetry. apply zfirstn_zskipn.
    + rewrite Ep, Ed, Le. lia.
  - intros (Ln & Ll & G & St & ->). pose proof (len_nonneg sizes).
    assert (St1 : stored_at content 0 (enc_struct [FB 4; FU BE 4] [VB (s2z "cook"); VI (len sizes)])).
    { cbn [enc_struct enc_field enc_int]. rewrite app_nil_r. rewrite app_assoc in St. apply stored_at_app in St. tauto. }
    assert (E : read_struct content [FB 4; FU BE 4] 0 = Ok [VB (s2z "cook"); VI (len sizes)]).
    { apply read_struct_iff; [assumption..|cbn; lia|]. split; [exact St1|]. apply Forall2_cons; [split; [reflexivity|]|apply Forall2_cons; [|apply Forall2_nil]].
      - repeat (apply Forall_cons; [cbv; split; congruence|]). apply Forall_nil.
      - cbn [fval_ok]. change (2 ^ 32) with (256 ^ Z.of_nat 4) in Ll. lia. }
    rewrite E. cbn [bind]. rewrite list_eqb_refl. cbn [guard bind].
    rewrite app_assoc in St. apply stored_at_app in St. destruct St as [_ St2]. rewrite len_app, len_be_enc in St2. change (0 + (len (s2z "cook") + Z.of_nat 4)) with 8 in St2.
    change (concat (map (be_enc 4) sizes)) with (enc_ints (FU BE 4) sizes) in St2.
    assert (Gk : ints_ok (FU BE 4) sizes) by exact G.
    pose proof (len_enc_ints _ _ Gk) as Le. cbn [fsize] in Le. apply stored_at_iff in St2. destruct St2 as (_ & _ & St2). rewrite Le in St2.
    change (Z.of_nat 4) with 4 in St2. rewrite St2.
    assert (E2 : seq_bs (FU BE 4) (len sizes) (enc_ints (FU BE 4) sizes) = Ok sizes).
    { pose proof (seq_bs_enc (FU BE 4) sizes [] ltac:(cbn; lia) Ln Gk) as E2. rewrite app_nil_r in E2. exact E2. }
    rewrite E2. cbn [as_parse_error bind]. rewrite Le. match goal with |- Ok (_, ?a) = Ok (_, ?b) => replace a with b by lia; reflexivity end.
Qed.

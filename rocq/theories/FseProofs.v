From Verif Require Import Base BaseFacts CoreModel CoreProofs VarModel VarFacts SeqModel SeqSpec SeqFacts DictModel MemModel MemSpec MemFacts FseModel FseSpec.

Lemma dls_record_wf utf8 v : Forall mem_wf (dls_record utf8 v).
Proof. unfold dls_record. destruct (v =? 1); cbn [app]; repeat (apply Forall_cons; [cbn; try exact I; lia|]); apply Forall_nil. Qed.

Lemma event_iff utf8 v vs d : v = 1 \/ v = 2 ->
  (mems_enc [] (dls_record utf8 v) vs d <-> exists e, vs = event_values e /\ d = event_data e /\ event_ok utf8 v e).
Proof.
  intros Hv. unfold dls_record. split.
  - intros M. destruct Hv as [->| ->]; cbn [Z.eqb Pos.eqb app] in M;
    repeat match goal with
    | E : mems_enc _ (_ :: _) _ _ |- _ => inversion E; clear E; subst
    | E : mems_enc _ [] _ _ |- _ => inversion E; clear E; subst
    | E : mem_enc _ (MInt _) _ _ |- _ => inversion E; clear E; subst
    | E : mem_enc _ (MCText _) _ _ |- _ => inversion E; clear E; subst
    end; cbn [fval_ok] in *.
    + exists (mkevent s z0 z None). unfold event_values, event_data, event_ok. cbn [e_path e_id e_flags e_node app]. rewrite <- !app_assoc.
      split; [reflexivity|]. split; [reflexivity|]. repeat split; try assumption; lia.
    + exists (mkevent s z1 z0 (Some z)). unfold event_values, event_data, event_ok. cbn [e_path e_id e_flags e_node app]. rewrite <- !app_assoc.
      cbn [enc_field]. rewrite app_nil_r. split; [reflexivity|]. split; [reflexivity|]. repeat split; try assumption; lia.
  - intros ([path id flags node] & -> & -> & N & U & I & F & O). unfold event_values, event_data. cbn [e_path e_id e_flags e_node] in *.
    destruct node as [node|]; [destruct O as [-> O]|subst v]; cbn [Z.eqb Pos.eqb app].
    + replace (path ++ 0 :: le_enc 8 id ++ le_enc 4 flags ++ le_enc 8 node) with ((path ++ [0]) ++ enc_field (FU LE 8) (VI id) ++ enc_field (FU LE 4) (VI flags) ++ enc_field (FU LE 8) (VI node) ++ []) by (rewrite <- app_assoc, app_nil_r; reflexivity).
      repeat (apply mse_cons; [constructor; assumption || (cbn; lia)|]). constructor.
    + replace (path ++ 0 :: le_enc 8 id ++ le_enc 4 flags ++ []) with ((path ++ [0]) ++ enc_field (FU LE 8) (VI id) ++ enc_field (FU LE 4) (VI flags) ++ []) by (rewrite <- app_assoc; reflexivity).
      repeat (apply mse_cons; [constructor; assumption || (cbn; lia)|]). constructor.
Qed.

Lemma event_values_inj a b : event_values a = event_values b -> a = b.
Proof.
  destruct a as [p i f n], b as [p' i' f' n']. unfold event_values. cbn. destruct n, n'; cbn; intros E; try discriminate; congruence.
Qed.

Lemma len_event e : 13 <= len (event_data e).
Proof.
  destruct e as [p i f n]. unfold event_data. cbn [e_path e_id e_flags e_node]. rewrite !len_app, !len_le_enc. change (len [0]) with 1.
  pose proof (len_nonneg p). match goal with |- context [len (match n with _ => _ end)] => pose proof (len_nonneg (match n with None => [] | Some node => le_enc 8 node end)) end. lia.
Qed.

Lemma read_event_iff utf8 content v off vs p : is_bytes content -> v = 1 \/ v = 2 -> 0 <= off <= len content ->
  (read_mems content off [] (dls_record utf8 v) = Ok (vs, p) <->
   exists e, vs = event_values e /\ event_ok utf8 v e /\ stored_at content off (event_data e) /\ p = off + len (event_data e)).
Proof.
  intros Hb Hv Ho. rewrite (read_mems_iff content Hb _ off [] vs p (dls_record_wf utf8 v) Ho). cbn [app]. split.
  - intros (vs' & d & -> & M & S & ->). apply (event_iff _ _ _ _ Hv) in M as (e & -> & -> & O). eauto.
  - intros (e & -> & O & S & ->). exists (event_values e), (event_data e). split; [reflexivity|]. split; [apply (event_iff _ _ _ _ Hv); eauto|auto].
Qed.

(** The events from [off] on reach the end of the page with the last one. *)
Definition reach (off page_end : Z) (l : list event) : Prop :=
  page_end <= off + len (events_data l) /\ forall l' e, l = l' ++ [e] -> off + len (events_data l') < page_end.

Lemma reach_nil off page_end : reach off page_end [] <-> page_end <= off.
Proof. unfold reach, events_data. cbn [map concat]. change (len (@nil Z)) with 0. split; [intros [H _]; lia|]. intros H. split; [lia|]. intros l' e E. destruct l'; discriminate. Qed.

Lemma reach_cons off page_end e l : reach off page_end (e :: l) <-> off < page_end /\ reach (off + len (event_data e)) page_end l.
Proof.
  assert (P := len_event e). unfold reach, events_data. cbn [map concat]. rewrite len_app. split.
  - intros [A B]. split; [|split; [lia|]].
    + assert (DL : l = [] \/ exists l0 x, l = l0 ++ [x]) by (destruct l as [|y l1]; [auto|right; destruct (exists_last (l := y :: l1)) as (l0 & x & Ex); [discriminate|eauto]]). destruct DL as [->|(l0 & x & ->)].
      * specialize (B [] e eq_refl). cbn [map concat] in B. change (len (@nil Z)) with 0 in B. lia.
      * specialize (B (e :: l0) x eq_refl). cbn [map concat] in B. rewrite len_app in B. pose proof (len_nonneg (concat (map event_data l0))). lia.
    + intros l' x ->. specialize (B (e :: l') x eq_refl). cbn [map concat] in B. rewrite len_app in B. lia.
  - intros [A [B C]]. split; [lia|]. intros l' x E. destruct l' as [|y l'].
    + cbn [map concat]. change (len (@nil Z)) with 0. lia.
    + injection E as -> ->. specialize (C l' x eq_refl). cbn [map concat]. rewrite len_app. lia.
Qed.

Lemma page_records_iff utf8 content v page_end : is_bytes content -> v = 1 \/ v = 2 -> forall fuel off rs p, 0 <= off <= len content -> len content - off < Z.of_nat fuel ->
  (read_page_records utf8 fuel content v off page_end = Done (Ok (rs, p)) <->
   exists l, rs = map event_values l /\ Forall (event_ok utf8 v) l /\ stored_at content off (events_data l) /\ p = off + len (events_data l) /\ reach off page_end l).
Proof.
  intros Hb Hv. induction fuel as [|fuel IH]; intros off rs p Ho Hf; [lia|]. cbn [read_page_records]. destruct (Z.ltb_spec off page_end) as [Hlt|Hge].
  - destruct (Z.ltb_spec (len content) off) as [|_]; [lia|]. split.
    + destruct (read_mems content off [] (dls_record utf8 v)) as [[vs p1]|] eqn:E; [|discriminate].
      apply (read_event_iff _ _ _ _ _ _ Hb Hv Ho) in E as (e & -> & O & S & ->). assert (Le := len_event e). pose proof (stored_at_inside _ _ _ S) as I.
      destruct (read_page_records utf8 fuel content v (off + len (event_data e)) page_end) as [[[l p2]|]|] eqn:E2; [|discriminate|discriminate]. cbn [rbind].
      apply IH in E2 as (l0 & -> & F & S2 & -> & R); [|lia|lia]. intros H. assert (rs = map event_values (e :: l0)) by (cbn [map]; congruence). subst rs.
      exists (e :: l0). split; [reflexivity|]. split; [constructor; assumption|]. unfold events_data in *. cbn [map concat].
      split; [apply stored_at_app; auto|]. rewrite len_app. split; [assert (p = off + len (event_data e) + len (concat (map event_data l0))) by congruence; lia|]. apply reach_cons. auto.
    + intros (l & -> & F & S & -> & R). destruct l as [|e l]; [apply reach_nil in R; lia|]. inversion F as [|? ? O F']. subst. apply reach_cons in R as [_ R].
      unfold events_data in *. cbn [map concat] in *. apply stored_at_app in S as [S1 S2]. assert (Le := len_event e). pose proof (stored_at_inside _ _ _ S1) as I.
      assert (E : read_mems content off [] (dls_record utf8 v) = Ok (event_values e, off + len (event_data e))) by (apply (read_event_iff _ _ _ _ _ _ Hb Hv Ho); eauto). rewrite E.
      rewrite (proj2 (IH (off + len (event_data e)) (map event_values l) (off + len (event_data e) + len (concat (map event_data l))) ltac:(lia) ltac:(lia))) by eauto 7.
      cbn [rbind]. rewrite len_app. match goal with |- Done (Ok (_, ?a)) = Done (Ok (_, ?b)) => replace a with b by lia; reflexivity end.
  - split.
    + intros H. assert (rs = []) by congruence. assert (p = off) by congruence. subst rs p. exists []. split; [reflexivity|]. split; [constructor|].
      change (events_data []) with (@nil Z). change (len (@nil Z)) with 0. split; [apply stored_at_from; [exact Ho|]; exists (zskipn off content); reflexivity|]. split; [lia|]. apply reach_nil. lia.
    + intros (l & -> & F & S & -> & R). destruct l as [|e l]; [|apply reach_cons in R; lia]. change (events_data []) with (@nil Z). change (len (@nil Z)) with 0. rewrite Z.add_0_r. reflexivity.
Qed.

Lemma page_records_end utf8 content v page_end : is_bytes content -> v = 1 \/ v = 2 -> forall fuel off, 0 <= off <= len content -> len content - off < Z.of_nat fuel ->
  (exists rs p, read_page_records utf8 fuel content v off page_end = Done (Ok (rs, p))) \/ read_page_records utf8 fuel content v off page_end = Done (Err ParseError).
Proof.
  intros Hb Hv. induction fuel as [|fuel IH]; intros off Ho Hf; [lia|]. cbn [read_page_records]. destruct (Z.ltb_spec off page_end) as [Hlt|Hge]; [|eauto].
  destruct (Z.ltb_spec (len content) off) as [|_]; [lia|]. destruct (read_mems content off [] (dls_record utf8 v)) as [[vs p1]|e] eqn:E.
  - apply (read_event_iff _ _ _ _ _ _ Hb Hv Ho) in E as (e & -> & O & S & ->). assert (Le := len_event e). pose proof (stored_at_inside _ _ _ S) as I.
    destruct (IH (off + len (event_data e)) ltac:(lia) ltac:(lia)) as [(rs & p & ->)| ->]; cbn [rbind]; eauto.
  - right. apply (read_mems_err _ Hb) in E; [|apply dls_record_wf|exact Ho]. subst e. reflexivity.
Qed.

Lemma header_iff content off v size : is_bytes content ->
  (read_page_header content off = Ok (v, size) <-> (v = 1 \/ v = 2) /\ 0 <= size < 2 ^ 32 /\ exists u, len u = 4 /\ stored_at content off ([48 + v; 83; 76; 68] ++ u ++ le_enc 4 size)).
Proof.
  intros Hb. unfold read_page_header. assert (W : Forall fkind_wf dls_header_kinds) by (unfold dls_header_kinds; kinds_wf). split.
  - destruct (read_struct content dls_header_kinds off) as [vs|] eqn:E; [|discriminate]. apply (read_struct_iff _ _ _ _ Hb W ltac:(cbn; lia)) in E as [S F]. cbn [bind].
    unfold dls_header_kinds in F. apply F2_cons in F as (v1 & vs1 & -> & H1 & F). apply F2_cons in F as (v2 & vs2 & -> & H2 & F). apply F2_cons in F as (v3 & vs3 & -> & H3 & F). apply F2_nil in F as ->.
    destruct v1 as [|sig]; [contradiction|]. destruct v2 as [|u]; [contradiction|]. destruct v3 as [z|]; [|contradiction].
    cbn [enc_struct dls_header_kinds enc_field enc_int] in S. rewrite app_nil_r in S. cbn in H1, H2, H3.
    assert (Lu : len u = 4) by (destruct H2 as [H2 _]; unfold len; rewrite H2; reflexivity).
    destruct (list_eqb sig dls_v1_signature) eqn:E1; [|destruct (list_eqb sig dls_v2_signature) eqn:E2; [|discriminate]].
    + apply list_eqb_eq in E1. subst sig. intros H. assert (v = 1) by congruence. assert (size = z) by congruence. subst v size. split; [auto|]. split; [lia|]. exists u. auto.
    + apply list_eqb_eq in E2. subst sig. intros H. assert (v = 2) by congruence. assert (size = z) by congruence. subst v size. split; [auto|]. split; [lia|]. exists u. auto.
  - intros (Hv & Hs & u & Lu & S). assert (Bu : is_bytes u) by (assert (B := is_bytes_stored _ _ _ Hb S); apply Forall_app in B as [_ B]; apply Forall_app in B as [B _]; exact B).
    assert (E : read_struct content dls_header_kinds off = Ok [VB [48 + v; 83; 76; 68]; VB u; VI size]).
    { apply (read_struct_iff _ _ _ _ Hb W ltac:(cbn; lia)). split; [cbn [enc_struct dls_header_kinds enc_field enc_int]; rewrite app_nil_r; exact S|].
      unfold dls_header_kinds. constructor; [split; [reflexivity|destruct Hv as [->| ->]; apply is_bytes_forallb; reflexivity]|].
      constructor; [split; [unfold len in Lu; lia|exact Bu]|]. constructor; [cbn; lia|constructor]. }
    rewrite E. cbn [bind]. destruct Hv as [->| ->]; reflexivity.
Qed.

Lemma header_err content off e : is_bytes content -> 0 <= off -> read_page_header content off = Err e -> e = ParseError.
Proof.
  intros Hb Ho. unfold read_page_header. destruct (read_struct content dls_header_kinds off) as [vs|x] eqn:E; cbn [bind].
  - apply read_struct_fval in E; [|exact Hb|unfold dls_header_kinds; kinds_wf]. unfold dls_header_kinds in E.
    apply F2_cons in E as (v1 & vs1 & -> & H1 & F). apply F2_cons in F as (v2 & vs2 & -> & H2 & F). apply F2_cons in F as (v3 & vs3 & -> & H3 & F). apply F2_nil in F as ->.
    destruct v1 as [|sig]; [contradiction|]. destruct v3 as [z|]; [|contradiction]. destruct (list_eqb _ _); [discriminate|]. destruct (list_eqb _ _); congruence.
  - intros H. apply read_struct_err in E; [congruence|exact Ho].
Qed.

Lemma len_page p : len (p_unknown p) = 4 -> len (page_data p) = 12 + len (events_data (p_events p)).
Proof. intros L. unfold page_data. rewrite !len_app, L, len_le_enc. change (len [48 + p_version p; 83; 76; 68]) with 4. lia. Qed.

Lemma reach_page utf8 p off : page_ok utf8 p -> reach (off + 12) (off + p_size p) (p_events p).
Proof. intros (_ & L & _ & _ & S & R). rewrite len_page in S by exact L. split; [lia|]. intros l e E. specialize (R l e E). lia. Qed.

Lemma pages_iff utf8 content : is_bytes content -> forall fuel off l, 0 <= off <= len content -> len content - off < Z.of_nat fuel ->
  (read_pages utf8 fuel content off = Done (Ok l) <-> exists ps, l = file_values ps /\ Forall (page_ok utf8) ps /\ zskipn off content = concat (map page_data ps)).
Proof.
  intros Hb. induction fuel as [|fuel IH]; intros off l Ho Hf; [lia|]. cbn [read_pages]. destruct (Z.ltb_spec off (len content)) as [Hlt|Hge].
  - split.
    + destruct (read_page_header content off) as [[v size]|] eqn:E; [|discriminate]. apply (header_iff _ _ _ _ Hb) in E as (Hv & Hs & u & Lu & S).
      pose proof (stored_at_inside _ _ _ S) as I. rewrite !len_app, Lu, len_le_enc in I. change (len [48 + v; 83; 76; 68]) with 4 in I.
      destruct (read_page_records _ _ content v _ _) as [[[rs p]|]|] eqn:E2; [|discriminate|discriminate]. cbn [rbind].
      apply (page_records_iff _ _ _ _ Hb Hv) in E2 as (es & -> & F & S2 & -> & R); [|lia|lia]. pose proof (stored_at_inside _ _ _ S2) as I2. pose proof (len_nonneg (events_data es)).
      destruct (read_pages utf8 fuel content _) as [[l0|]|] eqn:E3; [|discriminate|discriminate]. cbn [rbind].
      apply IH in E3 as (ps & -> & G & Z3); [|lia|lia]. intros H'. assert (El : l = map (pair v) (map event_values es) ++ file_values ps) by congruence. clear H'.
      exists (mkpage v u size es :: ps). split; [rewrite El, map_map; reflexivity|].
      assert (Lp : len (page_data (mkpage v u size es)) = 12 + len (events_data es)) by (apply len_page; exact Lu).
      split.
      * constructor; [|exact G]. unfold page_ok. rewrite Lp. cbn [p_version p_unknown p_size p_events]. destruct R as [R1 R2]. repeat (split; [assumption || lia|]). intros l' e E. specialize (R2 l' e E). lia.
      * cbn [map concat]. assert (SP : stored_at content off (page_data (mkpage v u size es))).
        { unfold page_data. cbn [p_version p_unknown p_size p_events]. replace ([48 + v; 83; 76; 68] ++ u ++ le_enc 4 size ++ events_data es) with (([48 + v; 83; 76; 68] ++ u ++ le_enc 4 size) ++ events_data es) by (rewrite <- !app_assoc; reflexivity).
          apply stored_at_app. split; [exact S|]. rewrite !len_app, Lu, len_le_enc. change (len [48 + v; 83; 76; 68]) with 4. replace (off + (4 + (4 + Z.of_nat 4))) with (off + 12) by lia. exact S2. }
        apply stored_at_from in SP as (rest & Er); [|exact Ho]. rewrite Er. f_equal. rewrite <- Z3. replace (off + 12 + len (events_data es)) with (off + len (page_data (mkpage v u size es))) by lia.
        rewrite <- zskipn_zskipn by (try exact (proj1 Ho); apply len_nonneg). rewrite Er. rewrite zskipn_app_len by reflexivity. reflexivity.
    + intros (ps & -> & F & E). destruct ps as [|p ps].
      { cbn [map concat] in E. apply (f_equal (@len Z)) in E. rewrite len_zskipn in E by exact Ho. change (len (@nil Z)) with 0 in E. lia. }
      inversion F as [|? ? P F']. subst. cbn [map concat] in E. assert (P' := P). destruct P' as (Hv & Lu & Hs & Fe & Sz & _).
      assert (SP : stored_at content off (page_data p)) by (apply stored_at_from; eauto). assert (Lp := len_page p Lu). pose proof (stored_at_inside _ _ _ SP) as I.
      assert (SP' := SP). unfold page_data in SP'. replace ([48 + p_version p; 83; 76; 68] ++ p_unknown p ++ le_enc 4 (p_size p) ++ events_data (p_events p)) with (([48 + p_version p; 83; 76; 68] ++ p_unknown p ++ le_enc 4 (p_size p)) ++ events_data (p_events p)) in SP' by (rewrite <- !app_assoc; reflexivity).
      apply stored_at_app in SP' as [S1 S2]. rewrite !len_app, Lu, len_le_enc in S2. change (len [48 + p_version p; 83; 76; 68]) with 4 in S2. replace (off + (4 + (4 + Z.of_nat 4))) with (off + 12) in S2 by lia.
      rewrite (proj2 (header_iff content off (p_version p) (p_size p) Hb)) by eauto 6. pose proof (len_nonneg (events_data (p_events p))).
      assert (E2 : read_page_records utf8 (S fuel) content (p_version p) (off + 12) (off + p_size p) = Done (Ok (map event_values (p_events p), off + 12 + len (events_data (p_events p))))).
      { apply (page_records_iff _ _ _ _ Hb Hv); [lia|lia|]. exists (p_events p). repeat (split; [assumption || reflexivity|]). eapply reach_page; eassumption. }
      rewrite E2. cbn [rbind]. replace (off + 12 + len (events_data (p_events p))) with (off + len (page_data p)) by lia.
      rewrite (proj2 (IH (off + len (page_data p)) (file_values ps) ltac:(lia) ltac:(lia))); [cbn [rbind]; rewrite map_map; reflexivity|].
      exists ps. split; [reflexivity|]. split; [exact F'|]. rewrite <- zskipn_zskipn by (try exact (proj1 Ho); apply len_nonneg). rewrite E. apply zskipn_app_len. reflexivity.
  - assert (Z0 : zskipn off content = []) by (apply zskipn_all; lia). split.
    + intros H. assert (l = []) by congruence. subst l. exists []. split; [reflexivity|]. split; [constructor|]. exact Z0.
    + intros (ps & -> & F & E). destruct ps as [|p ps]; [reflexivity|]. exfalso. rewrite Z0 in E. cbn [map concat] in E. unfold page_data in E. discriminate.
Qed.

Lemma pages_end utf8 content : is_bytes content -> forall fuel off, 0 <= off <= len content -> len content - off < Z.of_nat fuel ->
  (exists l, read_pages utf8 fuel content off = Done (Ok l)) \/ read_pages utf8 fuel content off = Done (Err ParseError).
Proof.
  intros Hb. induction fuel as [|fuel IH]; intros off Ho Hf; [lia|]. cbn [read_pages]. destruct (Z.ltb_spec off (len content)) as [Hlt|Hge]; [|eauto].
  destruct (read_page_header content off) as [[v size]|] eqn:E; [|right; apply (header_err _ _ _ Hb (proj1 Ho)) in E; subst; reflexivity].
  apply (header_iff _ _ _ _ Hb) in E as (Hv & Hs & u & Lu & S).
  pose proof (stored_at_inside _ _ _ S) as I. rewrite !len_app, Lu, len_le_enc in I. change (len [48 + v; 83; 76; 68]) with 4 in I.
  destruct (page_records_end utf8 content v (off + size) Hb Hv (Datatypes.S fuel) (off + 12) ltac:(lia) ltac:(lia)) as [(rs & p & E2)|E2]; rewrite E2; cbn [rbind]; [|auto].
  apply (page_records_iff _ _ _ _ Hb Hv) in E2 as (es & -> & F & S2 & -> & R); [|lia|lia]. pose proof (stored_at_inside _ _ _ S2) as I2. pose proof (len_nonneg (events_data es)).
  destruct (IH (off + 12 + len (events_data es)) ltac:(lia) ltac:(lia)) as [[l ->]| ->]; cbn [rbind]; eauto.
Qed.

From Verif Require Import Base BaseFacts CoreModel CoreProofs VarModel VarFacts SeqModel SeqSpec SeqFacts CpioModel DictModel IppModel IppSpec.

Lemma zin_iff z l : zin z l = true <-> In z l.
Proof.
  unfold zin. rewrite existsb_exists. split.
  - intros (x & I & E). apply Z.eqb_eq in E. subst x. exact I.
  - intros I. exists z. split; [exact I|apply Z.eqb_refl].
Qed.

Lemma ipp_int_iff d z : is_bytes d ->
  (ipp_int d = Ok z <-> exists rest, d = be_enc 4 (z mod 2 ^ 32) ++ rest /\ - 2 ^ 31 <= z < 2 ^ 31).
Proof.
  intros Hb. unfold ipp_int.
  assert (W : Forall fkind_wf [FS BE 4]) by (apply Forall_cons; [cbn; lia|apply Forall_nil]).
  split.
  - destruct (as_parse_error (struct_bs [FS BE 4] d)) as [vs|] eqn:E; [|discriminate]. cbn [bind]. rewrite as_parse_error_ok in E.
    apply (struct_bs_iff [FS BE 4] d vs Hb W ltac:(cbn; lia)) in E as (rest & E & F). vals F. intros H. assert (z0 = z) by congruence. subst z0.
    exists rest. cbn [enc_struct enc_field] in E. rewrite app_nil_r in E. split; [exact E|]. lia.
  - intros (rest & E & Hz). replace (as_parse_error (struct_bs [FS BE 4] d)) with (@Ok (list fval) [VI z]); [reflexivity|].
    symmetry. apply as_parse_error_ok. apply (struct_bs_iff [FS BE 4] d _ Hb W ltac:(cbn; lia)). exists rest.
    split; [cbn [enc_struct enc_field]; rewrite app_nil_r; exact E|]. constructor; [|constructor]. cbn [fval_ok]. change (2 ^ (8 * Z.of_nat 4 - 1)) with (2 ^ 31). lia.
Qed.

Lemma ipp_date_vals vs : Forall2 fval_ok (FU BE 2 :: repeat (FU BE 1) 9) vs ->
  exists year fields, vs = VI year :: map VI fields /\ 0 <= year < 2 ^ 16 /\ is_bytes fields /\ length fields = 9%nat.
Proof.
  intros F. apply F2_cons in F as (v & vs' & -> & Hv & F). destruct v as [year|]; [|contradiction].
  apply ints_fval_ok in F as (E & O & L); [|discriminate]. exists year, (ints vs'). rewrite <- E. split; [reflexivity|]. split; [exact Hv|].
  split; [|exact L]. unfold ints_ok in O. eapply Forall_impl; [|exact O]. intros z Hz. exact Hz.
Qed.

Lemma enc_bytes fields : is_bytes fields -> enc_struct (repeat (FU BE 1) (length fields)) (map VI fields) = fields.
Proof.
  intros H. induction H as [|z l Hz H IH]; [reflexivity|]. cbn [length repeat map enc_struct enc_field]. rewrite IH. 
  unfold enc_int, be_enc. cbn [le_enc rev app]. rewrite Z.mod_small by exact Hz. reflexivity.
Qed.

Lemma ipp_date_iff rfc2579 d l : is_bytes d ->
  (ipp_date rfc2579 d = Ok l <-> exists year fields rest, l = year :: fields /\ d = be_enc 2 year ++ fields ++ rest /\
     0 <= year < 2 ^ 16 /\ is_bytes fields /\ length fields = 9%nat /\ rfc2579 l = Ok tt).
Proof.
  intros Hb. unfold ipp_date.
  assert (W : Forall fkind_wf (FU BE 2 :: repeat (FU BE 1) 9)) by (cbn [repeat]; kinds_wf).
  split.
  - destruct (as_parse_error (struct_bs _ d)) as [vs|] eqn:E; [|discriminate]. cbn [bind]. rewrite as_parse_error_ok in E.
    apply (struct_bs_iff _ d vs Hb W ltac:(cbn; lia)) in E as (rest & E & F). apply ipp_date_vals in F as (year & fields & -> & Hy & Hf & Lf).
    assert (Ei : ints (VI year :: map VI fields) = year :: fields) by (change (ints (VI year :: map VI fields)) with (year :: ints (map VI fields)); rewrite ints_VI; reflexivity).
    rewrite Ei in *. destruct (rfc2579 _) as [[]|] eqn:R; [|discriminate]. cbn [bind]. intros H. assert (l = year :: fields) by congruence. subst l. exists year, fields, rest. split; [reflexivity|]. split; [|tauto].
    rewrite E. cbn [enc_struct enc_field]. rewrite <- Lf, enc_bytes by exact Hf. rewrite <- app_assoc. reflexivity.
  - intros (year & fields & rest & -> & E & Hy & Hf & Lf & R).
    assert (Ei : ints (VI year :: map VI fields) = year :: fields) by (change (ints (VI year :: map VI fields)) with (year :: ints (map VI fields)); rewrite ints_VI; reflexivity).
    replace (as_parse_error (struct_bs _ d)) with (@Ok (list fval) (VI year :: map VI fields)).
    + cbn [bind]. rewrite Ei, R. reflexivity.
    + symmetry. apply as_parse_error_ok. apply (struct_bs_iff _ d _ Hb W ltac:(cbn; lia)). exists rest. split.
      * cbn [enc_struct enc_field]. rewrite <- Lf, enc_bytes by exact Hf. rewrite <- app_assoc. exact E.
      * constructor; [exact Hy|]. rewrite <- Lf. apply repeat_ok. eapply Forall_impl; [|exact Hf]. intros z Hz. exact Hz.
Qed.

Lemma decode_ascii_iff d s : is_bytes d -> (decode_ascii d = Ok s <-> s = d /\ Forall (fun c => c < 128) d).
Proof.
  intros Hb. unfold decode_ascii. destruct (forallb _ d) eqn:E.
  - rewrite forallb_forall in E. split.
    + injection 1 as <-. split; [reflexivity|]. apply Forall_forall. intros c Hc. specialize (E c Hc). lia.
    + intros [-> _]. reflexivity.
  - split; [discriminate|]. intros [-> F]. exfalso. assert (forallb (fun c => (0 <=? c) && (c <? 128)) d = true); [|congruence].
    apply forallb_forall. intros c Hc. rewrite Forall_forall in F. specialize (F c Hc). unfold is_bytes in Hb. rewrite Forall_forall in Hb.
    specialize (Hb c Hc). unfold is_byte in Hb. lia.
Qed.

Ltac notin := let H := fresh in intros H; cbn [In] in H; repeat (destruct H as [H|H]; [lia|]); exact H.

Lemma ipp_value_iff decode rfc2579 cs t d v cs' : is_bytes d ->
  (ipp_read_value decode rfc2579 cs t d = Ok (v, cs') <-> ipp_value_of decode rfc2579 cs t d v cs').
Proof.
  intros Hb. unfold ipp_read_value.
  destruct (zin t [33; 35]) eqn:T1; [apply zin_iff in T1|].
  { split.
    - destruct (ipp_int d) as [z|] eqn:E; [|discriminate]. apply (ipp_int_iff _ _ Hb) in E as (rest & E & Hz). cbn [bind].
      intros H. injection H as <- <-. rewrite E. apply ipv_int; assumption.
    - intros H. destruct H as [t z rest Ht Hz| | |year fields rest|t d s Ht|t d Ht|d|t d Ht]; cbn [In] in *; try lia.
      replace (ipp_int _) with (@Ok Z z); [reflexivity|]. symmetry. apply (ipp_int_iff _ _ Hb). exists rest. split; [reflexivity|exact Hz]. }
  assert (N1 : ~ In t [33; 35]) by (intros I; apply zin_iff in I; congruence). clear T1.
  destruct (Z.eqb_spec t 34) as [->|N2].
  { split.
    - unfold ipp_bool. destruct (list_eqb d [0]) eqn:E0; [|destruct (list_eqb d [1]) eqn:E1; [|discriminate]]; cbn [bind]; intros H; injection H as <- <-.
      + apply list_eqb_eq in E0 as ->. apply ipv_false.
      + apply list_eqb_eq in E1 as ->. apply ipv_true.
    - intros H. remember 34 as t eqn:Et. destruct H as [t z rest Ht Hz| | |year fields rest|t d s Ht|t d Ht|d|t d Ht]; subst; cbn [In] in *; try lia; reflexivity. }
  destruct (Z.eqb_spec t 49) as [->|N3].
  { split.
    - destruct (ipp_date rfc2579 d) as [l|] eqn:E; [|discriminate]. apply (ipp_date_iff _ _ _ Hb) in E as (year & fields & rest & -> & -> & Hy & Hf & Lf & R).
      cbn [bind]. intros H. injection H as <- <-. apply ipv_date; assumption.
    - intros H. remember 49 as t eqn:Et. destruct H as [t z rest Ht Hz| | |year fields rest Hy Hf Lf R|t d s Ht|t d Ht|d|t d Ht]; subst; cbn [In] in *; try lia.
      replace (ipp_date _ _) with (@Ok (list Z) (year :: fields)); [reflexivity|]. symmetry. apply (ipp_date_iff _ _ _ Hb). exists year, fields, rest. tauto. }
  destruct (Z.eqb_spec t 50) as [->|N4].
  { split.
    - intros H. injection H as <- <-. apply ipv_other. notin.
    - intros H. remember 50 as t eqn:Et. destruct H as [t z rest Ht Hz| | |year fields rest|t d s Ht|t d Ht|d|t d Ht]; subst; cbn [In] in *; try lia; reflexivity. }
  destruct (zin t [65; 66]) eqn:T5; [apply zin_iff in T5|].
  { split.
    - destruct (decode cs d) as [s|] eqn:E; [|discriminate]. cbn [bind]. intros H. injection H as <- <-. apply ipv_text; assumption.
    - intros H. destruct H as [t z rest Ht Hz| | |year fields rest|t d s Ht D|t d Ht|d|t d Ht]; cbn [In] in *; try lia. rewrite D. reflexivity. }
  assert (N5 : ~ In t [65; 66]) by (intros I; apply zin_iff in I; congruence). clear T5.
  destruct (zin t [68; 69; 70; 71; 72; 73]) eqn:T6; [apply zin_iff in T6|].
  { split.
    - destruct (decode_ascii d) as [s|] eqn:E; [|discriminate]. apply (decode_ascii_iff _ _ Hb) in E as [-> A]. cbn [bind].
      destruct (Z.eqb_spec t 71) as [->|]; intros H; injection H as <- <-; [apply ipv_charset; exact A|apply ipv_ascii; [cbn [In] in *; lia|exact A]].
    - intros H. destruct H as [t z rest Ht Hz| | |year fields rest|t d s Ht D|t d Ht A|d A|t d Ht]; cbn [In] in *; try lia.
      + rewrite (proj2 (decode_ascii_iff d d Hb) (conj eq_refl A)). cbn [bind]. destruct (Z.eqb_spec t 71); [lia|]. reflexivity.
      + rewrite (proj2 (decode_ascii_iff d d Hb) (conj eq_refl A)). reflexivity. }
  assert (N6 : ~ In t [68; 69; 70; 71; 72; 73]) by (intros I; apply zin_iff in I; congruence). clear T6.
  split.
  - intros H. injection H as <- <-. apply ipv_other. cbn [In] in *. lia.
  - intros H. destruct H as [t z rest Ht Hz| | |year fields rest|t d s Ht D|t d Ht A|d A|t d Ht]; cbn [In] in *; try lia; try reflexivity; exfalso; tauto.
Qed.

Lemma fs1 t : - 128 <= t < 128 -> fval_ok (FS BE 1) (VI t).
Proof. intros H. cbn [fval_ok]. change (2 ^ (8 * Z.of_nat 1 - 1)) with 128. lia. Qed.
Lemma fs2 t : - 2 ^ 15 <= t < 2 ^ 15 -> fval_ok (FS BE 2) (VI t).
Proof. intros H. cbn [fval_ok]. change (2 ^ (8 * Z.of_nat 2 - 1)) with (2 ^ 15). lia. Qed.

Lemma fs_wf l : Forall (fun k => k = FS BE 1 \/ k = FS BE 2 \/ k = FS BE 4) l -> Forall fkind_wf l.
Proof. apply Forall_impl. intros k [->|[->| ->]]; cbn; lia. Qed.

Lemma enc_tag t : 0 <= t < 128 -> enc_field (FS BE 1) (VI t) = [t].
Proof. intros H. cbn [enc_field enc_int]. unfold be_enc. cbn [le_enc rev app]. change (256 ^ Z.of_nat 1) with 256. rewrite !Z.mod_small by lia. reflexivity. Qed.

Lemma enc_size n : 0 <= n < 2 ^ 15 -> enc_field (FS BE 2) (VI n) = be_enc 2 n.
Proof. intros H. cbn [enc_field enc_int]. rewrite Z.mod_small; [reflexivity|]. change (256 ^ Z.of_nat 2) with 65536. lia. Qed.

(** An attribute, both directions. *)
Lemma ipp_attribute_iff utf8 decode rfc2579 content cs pos a cs' p : is_bytes content -> 0 <= pos ->
  (forall tag, read_struct content [FS BE 1] pos = Ok [VI tag] -> 16 <= tag) ->
  (ipp_attribute utf8 decode rfc2579 content cs pos = Ok (a, cs', p) <->
   exists t nb name vb v, a = IppAttribute t name v /\ 16 <= t < 128 /\ len nb < 2 ^ 15 /\ len vb < 2 ^ 15 /\ utf8 nb = Some name /\
     ipp_value_of decode rfc2579 cs t vb v cs' /\
     stored_at content pos (t :: be_enc 2 (len nb) ++ nb ++ be_enc 2 (len vb) ++ vb) /\ p = pos + 5 + len nb + len vb).
Proof.
  intros Hb Hp Htag. unfold ipp_attribute.
  assert (W1 : Forall fkind_wf [FS BE 1; FS BE 2]) by (apply fs_wf; repeat constructor; tauto).
  assert (W2 : Forall fkind_wf [FS BE 2]) by (apply fs_wf; repeat constructor; tauto).
  assert (W3 : Forall fkind_wf [FS BE 1]) by (apply fs_wf; repeat constructor; tauto).
  split.
  - destruct (read_struct content [FS BE 1; FS BE 2] pos) as [vs|] eqn:E1; [|discriminate]. cbn [bind].
    apply (read_struct_iff _ _ _ _ Hb W1 ltac:(cbn; lia)) in E1 as [S1 F]. vals F. rename z into n, z0 into t.
    change (2 ^ (8 * Z.of_nat 1 - 1)) with 128 in *. change (2 ^ (8 * Z.of_nat 2 - 1)) with (2 ^ 15) in *.
    assert (Ht : 16 <= t).
    { apply Htag. apply (read_struct_iff _ _ _ _ Hb W3 ltac:(cbn; lia)). split; [|constructor; [apply fs1; lia|constructor]].
      cbn [enc_struct] in S1 |- *. rewrite app_nil_r. apply stored_at_app in S1 as [S1 _]. exact S1. }
    destruct (Z.leb_spec 0 n) as [Hn|]; cbn [guard bind]; [|discriminate].
    destruct (read_next content (pos + 3) n) as [[nb p1]|] eqn:E2; [|discriminate]. cbn [bind].
    pose proof (stored_at_inside _ _ _ S1) as [_ I1]. assert (L1 : len (enc_struct [FS BE 1; FS BE 2] [VI t; VI n]) = 3) by reflexivity. rewrite L1 in I1.
    apply read_next_iff in E2 as (S2 & L2 & ->); [|lia|exact Hn]. pose proof (stored_at_inside _ _ _ S2) as [_ I2]. pose proof (len_nonneg nb).
    destruct (read_struct content [FS BE 2] (pos + 3 + n)) as [vs2|] eqn:E3; [|discriminate]. cbn [bind].
    apply (read_struct_iff _ _ _ _ Hb W2 ltac:(cbn; lia)) in E3 as [S3 F]. vals F. rename z into m.
    change (2 ^ (8 * Z.of_nat 2 - 1)) with (2 ^ 15) in *.
    destruct (Z.leb_spec 0 m) as [Hm|]; cbn [guard bind]; [|discriminate].
    pose proof (stored_at_inside _ _ _ S3) as [_ I3]. assert (L3 : len (enc_struct [FS BE 2] [VI m]) = 2) by reflexivity. rewrite L3 in I3.
    destruct (read_next content (pos + 3 + n + 2) m) as [[vb p2]|] eqn:E4; [|discriminate]. cbn [bind].
    apply read_next_iff in E4 as (S4 & L4 & ->); [|lia|exact Hm].
    destruct (utf8 nb) as [name|] eqn:U; [|discriminate].
    destruct (ipp_read_value decode rfc2579 cs t vb) as [[v cs1]|] eqn:E5; [|discriminate]. cbn [bind].
    apply ipp_value_iff in E5; [|eapply is_bytes_stored; eassumption]. intros H'.
    assert (a = IppAttribute t name v) by congruence. assert (cs' = cs1) by congruence. assert (p = pos + 3 + n + 2 + m) by congruence. subst a cs' p. clear H'.
    exists t, nb, name, vb, v. rewrite L2, L4. repeat split; try lia; try assumption.
    cbn [enc_struct] in S1, S3. rewrite app_nil_r in S1, S3. rewrite enc_tag, enc_size in S1 by lia. rewrite enc_size in S3 by lia.
    assert (G : stored_at content pos (([t] ++ be_enc 2 n) ++ nb)).
    { apply stored_at_app. split; [exact S1|]. rewrite len_app, len_be_enc. change (len [t] + Z.of_nat 2) with 3. exact S2. }
    assert (G2 : stored_at content pos ((([t] ++ be_enc 2 n) ++ nb) ++ be_enc 2 m)).
    { apply stored_at_app. split; [exact G|]. rewrite !len_app, len_be_enc. change (len [t] + Z.of_nat 2) with 3. rewrite L2, Z.add_assoc. exact S3. }
    assert (G3 : stored_at content pos (((([t] ++ be_enc 2 n) ++ nb) ++ be_enc 2 m) ++ vb)).
    { apply stored_at_app. split; [exact G2|]. rewrite !len_app, !len_be_enc. change (len [t] + Z.of_nat 2) with 3. rewrite L2, !Z.add_assoc. exact S4. }
    rewrite <- !app_assoc in G3. exact G3.
  - intros (t & nb & name & vb & v & -> & Ht & Ln & Lv & U & V & St & ->). pose proof (len_nonneg nb). pose proof (len_nonneg vb).
    change (t :: be_enc 2 (len nb) ++ nb ++ be_enc 2 (len vb) ++ vb) with ([t] ++ be_enc 2 (len nb) ++ nb ++ be_enc 2 (len vb) ++ vb) in St.
    assert (S1 : stored_at content pos ([t] ++ be_enc 2 (len nb))).
    { rewrite app_assoc in St. apply stored_at_app in St as [St _]. exact St. }
    rewrite app_assoc in St. apply stored_at_app in St as [_ St]. rewrite len_app, len_be_enc in St. change (len [t] + Z.of_nat 2) with 3 in St.
    apply stored_at_app in St as [S2 St]. apply stored_at_app in St as [S3 S4]. rewrite len_be_enc in S4. change (Z.of_nat 2) with 2 in S4.
    pose proof (stored_at_inside _ _ _ S2). pose proof (stored_at_inside _ _ _ S4).
    replace (read_struct content [FS BE 1; FS BE 2] pos) with (@Ok (list fval) [VI t; VI (len nb)]).
    2:{ symmetry. apply (read_struct_iff _ _ _ _ Hb W1 ltac:(cbn; lia)). cbn [enc_struct]. rewrite app_nil_r, enc_tag, enc_size by lia.
        split; [exact S1|]. constructor; [apply fs1; lia|]. constructor; [apply fs2; lia|constructor]. }
    cbn [bind]. destruct (Z.leb_spec 0 (len nb)); [|lia]. cbn [guard bind].
    replace (read_next content (pos + 3) (len nb)) with (@Ok (bytes * Z) (nb, pos + 3 + len nb)).
    2:{ symmetry. apply read_next_iff; [lia|lia|]. split; [exact S2|]. split; reflexivity. }
    cbn [bind]. replace (read_struct content [FS BE 2] (pos + 3 + len nb)) with (@Ok (list fval) [VI (len vb)]).
    2:{ symmetry. apply (read_struct_iff _ _ _ _ Hb W2 ltac:(cbn; lia)). cbn [enc_struct]. rewrite app_nil_r, enc_size by lia.
        split; [exact S3|]. constructor; [apply fs2; lia|constructor]. }
    cbn [bind]. destruct (Z.leb_spec 0 (len vb)); [|lia]. cbn [guard bind].
    replace (read_next content (pos + 3 + len nb + 2) (len vb)) with (@Ok (bytes * Z) (vb, pos + 3 + len nb + 2 + len vb)).
    2:{ symmetry. apply read_next_iff; [lia|lia|]. split; [exact S4|]. split; reflexivity. }
    cbn [bind]. rewrite U. apply ipp_value_iff in V; [|eapply is_bytes_stored; eassumption]. rewrite V. cbn [bind].
    match goal with |- Ok (_, ?a) = Ok (_, ?b) => replace a with b by lia; reflexivity end.
Qed.

Lemma tag_iff content pos t : is_bytes content -> (read_struct content [FS BE 1] pos = Ok [VI t] <-> stored_at content pos [t mod 256] /\ - 128 <= t < 128).
Proof.
  intros Hb. assert (W3 : Forall fkind_wf [FS BE 1]) by (apply fs_wf; repeat constructor; tauto).
  rewrite (read_struct_iff _ _ _ _ Hb W3 ltac:(cbn; lia)).
  assert (E : enc_struct [FS BE 1] [VI t] = [t mod 256]).
  { cbn [enc_struct enc_field enc_int]. unfold be_enc. cbn [le_enc rev app]. change (256 ^ Z.of_nat 1) with 256. rewrite Z.mod_mod by lia. reflexivity. }
  rewrite E. split.
  - intros [S F]. split; [exact S|]. apply F2_cons in F as (v & vs & Ev & F & _). injection Ev as <- <-. cbn [fval_ok] in F.
    change (2 ^ (8 * Z.of_nat 1 - 1)) with 128 in F. lia.
  - intros [S H]. split; [exact S|]. constructor; [apply fs1; exact H|constructor].
Qed.

Lemma tag_shape content pos vs : is_bytes content -> read_struct content [FS BE 1] pos = Ok vs -> exists t, vs = [VI t].
Proof.
  intros Hb E. apply read_struct_fval in E; [|exact Hb|apply fs_wf; repeat constructor; tauto]. vals E. eauto.
Qed.

Lemma group_sound utf8 decode rfc2579 content fuel : is_bytes content -> forall cs pos l cs', 0 <= pos ->
  ipp_group fuel utf8 decode rfc2579 content cs pos = Done (Ok (l, cs')) ->
  exists d, stored_at content pos d /\ ipp_items utf8 decode rfc2579 cs l cs' d.
Proof.
  intros Hb. induction fuel as [|fuel IH]; intros cs pos l cs' Hp; cbn [ipp_group]; [discriminate|].
  destruct (read_struct content [FS BE 1] pos) as [vs|] eqn:E; [|discriminate]. destruct (tag_shape _ _ _ Hb E) as [t ->].
  assert (E' := E). apply (tag_iff _ _ _ Hb) in E as [St Ht].
  destruct (Z.leb_spec 16 t) as [H16|H16].
  - destruct (ipp_attribute utf8 decode rfc2579 content cs pos) as [[[a cs1] p]|] eqn:A; [|discriminate].
    apply (ipp_attribute_iff utf8 decode rfc2579 content cs pos a cs1 p Hb Hp) in A;
      [|intros tag Et; assert (t = tag) by congruence; subst tag; exact H16].
    destruct A as (t' & nb & name & vb & v & -> & Ht' & Ln & Lv & U & V & S2 & ->). pose proof (len_nonneg nb). pose proof (len_nonneg vb).
    destruct (ipp_group fuel utf8 decode rfc2579 content cs1 (pos + 5 + len nb + len vb)) as [[[l1 cs2]|]|] eqn:G; [|discriminate|discriminate]. cbn [rbind].
    intros H'. injection H' as <- <-. apply IH in G as (d & Sd & Id); [|lia].
    exists (t' :: be_enc 2 (len nb) ++ nb ++ be_enc 2 (len vb) ++ vb ++ d). split; [|eapply ipi_attribute; eassumption].
    replace (t' :: be_enc 2 (len nb) ++ nb ++ be_enc 2 (len vb) ++ vb ++ d) with ((t' :: be_enc 2 (len nb) ++ nb ++ be_enc 2 (len vb) ++ vb) ++ d)
      by (cbn [app]; rewrite <- !app_assoc; reflexivity).
    apply stored_at_app. split; [exact S2|]. rewrite len_cons, !len_app, !len_be_enc. 
    replace (pos + (1 + (Z.of_nat 2 + (len nb + (Z.of_nat 2 + len vb))))) with (pos + 5 + len nb + len vb) by lia. exact Sd.
  - destruct (Z.eqb_spec t 3) as [->|N3].
    + intros H'. injection H' as <- <-. exists [3]. split; [exact St|apply ipi_end].
    + destruct (zin t [1; 2; 4; 5]) eqn:Z1; [|discriminate]. apply zin_iff in Z1.
      destruct (ipp_group fuel utf8 decode rfc2579 content cs (pos + 1)) as [[[l1 cs2]|]|] eqn:G; [|discriminate|discriminate]. cbn [rbind].
      intros H'. injection H' as <- <-. apply IH in G as (d & Sd & Id); [|lia]. exists (t :: d). split; [|apply ipi_delimiter; assumption].
      change (t :: d) with ([t] ++ d). apply stored_at_app. split; [|exact Sd].
      rewrite Z.mod_small in St by (cbn [In] in Z1; lia). exact St.
Qed.

Lemma group_complete utf8 decode rfc2579 content cs l cs' d : is_bytes content -> ipp_items utf8 decode rfc2579 cs l cs' d -> forall fuel pos,
  stored_at content pos d -> (length d <= fuel)%nat -> ipp_group fuel utf8 decode rfc2579 content cs pos = Done (Ok (l, cs')).
Proof.
  intros Hb H. induction H as [cs|cs t l cs' d Ht H IH|cs t nb name vb v cs1 l cs' d Ht Ln Lv U V H IH]; intros fuel pos St Hf.
  - destruct fuel as [|fuel]; [cbn [length] in Hf; lia|]. cbn [ipp_group].
    rewrite (proj2 (tag_iff content pos 3 Hb)) by (split; [exact St|lia]). reflexivity.
  - destruct fuel as [|fuel]; [cbn [length] in Hf; lia|]. cbn [ipp_group].
    change (t :: d) with ([t] ++ d) in St. apply stored_at_app in St as [S1 S2]. change (len [t]) with 1 in S2.
    rewrite (proj2 (tag_iff content pos t Hb)) by (split; [rewrite Z.mod_small by (cbn [In] in Ht; lia); exact S1|cbn [In] in Ht; lia]).
    destruct (Z.leb_spec 16 t); [cbn [In] in Ht; lia|]. destruct (Z.eqb_spec t 3); [cbn [In] in Ht; lia|].
    rewrite (proj2 (zin_iff _ _) Ht). rewrite IH; [reflexivity|exact S2|cbn [length] in Hf; lia].
  - destruct fuel as [|fuel]; [cbn [length] in Hf; lia|]. cbn [ipp_group].
    replace (t :: be_enc 2 (len nb) ++ nb ++ be_enc 2 (len vb) ++ vb ++ d) with ((t :: be_enc 2 (len nb) ++ nb ++ be_enc 2 (len vb) ++ vb) ++ d) in St
      by (cbn [app]; rewrite <- !app_assoc; reflexivity).
    apply stored_at_app in St as [S1 S2]. pose proof (stored_at_inside _ _ _ S1) as [P0 _].
    assert (St : stored_at content pos [t]).
    { change (t :: be_enc 2 (len nb) ++ nb ++ be_enc 2 (len vb) ++ vb) with ([t] ++ be_enc 2 (len nb) ++ nb ++ be_enc 2 (len vb) ++ vb) in S1.
      apply stored_at_app in S1 as [S1 _]. exact S1. }
    assert (Et : read_struct content [FS BE 1] pos = Ok [VI t]).
    { apply (tag_iff content pos t Hb). split; [rewrite Z.mod_small by lia; exact St|lia]. }
    rewrite Et. destruct (Z.leb_spec 16 t); [|lia].
    rewrite (proj2 (ipp_attribute_iff utf8 decode rfc2579 content cs pos (IppAttribute t name v) cs1 (pos + 5 + len nb + len vb) Hb P0
      ltac:(intros tag E2; assert (t = tag) by congruence; subst tag; lia))).
    + rewrite IH; [reflexivity| |].
      * rewrite len_cons, !len_app, !len_be_enc in S2. replace (pos + (1 + (Z.of_nat 2 + (len nb + (Z.of_nat 2 + len vb))))) with (pos + 5 + len nb + len vb) in S2 by lia. exact S2.
      * cbn [length] in Hf. rewrite !app_length, !be_enc_length in Hf. lia.
    + exists t, nb, name, vb, v. repeat split; try assumption; lia.
Qed.

(** Every step moves on, so that reading ends. *)
Lemma group_ends utf8 decode rfc2579 content : is_bytes content -> forall fuel cs pos, 0 <= pos <= len content -> len content < pos + Z.of_nat fuel ->
  ipp_group fuel utf8 decode rfc2579 content cs pos <> OutOfFuel.
Proof.
  intros Hb. induction fuel as [|fuel IH]; intros cs pos Hp Hl; cbn [ipp_group].
  - lia.
  - destruct (read_struct content [FS BE 1] pos) as [vs|] eqn:E; [|discriminate]. destruct (tag_shape _ _ _ Hb E) as [t ->].
    assert (I : pos + 1 <= len content). { apply (tag_iff _ _ _ Hb) in E as [E _]. apply stored_at_inside in E. change (len [t mod 256]) with 1 in E. lia. }
    destruct (Z.leb_spec 16 t) as [H16|H16].
    + destruct (ipp_attribute utf8 decode rfc2579 content cs pos) as [[[a cs1] p]|] eqn:A; [|discriminate].
      apply (ipp_attribute_iff utf8 decode rfc2579 content cs pos a cs1 p Hb (proj1 Hp)) in A;
        [|intros tag Et; assert (t = tag) by congruence; subst tag; exact H16].
      destruct A as (t' & nb & name & vb & v & -> & Ht' & Ln & Lv & U & V & S2 & ->). pose proof (len_nonneg nb). pose proof (len_nonneg vb).
      apply stored_at_inside in S2. rewrite len_cons, !len_app, !len_be_enc in S2.
      specialize (IH cs1 (pos + 5 + len nb + len vb) ltac:(lia) ltac:(lia)).
      destruct (ipp_group fuel utf8 decode rfc2579 content cs1 (pos + 5 + len nb + len vb)) as [[[]|]|]; [discriminate|discriminate|contradiction].
    + destruct (t =? 3); [discriminate|]. destruct (zin t [1; 2; 4; 5]); [|discriminate].
      specialize (IH cs (pos + 1) ltac:(lia) ltac:(lia)).
      destruct (ipp_group fuel utf8 decode rfc2579 content cs (pos + 1)) as [[[]|]|]; [discriminate|discriminate|contradiction].
Qed.

(** Errors: ParseError, UnicodeDecodeError, or what the external functions raise. *)
Definition ipp_err (decode : str -> bytes -> result str) (rfc2579 : list Z -> result unit) (e : exn) : Prop :=
  e = ParseError \/ e = UnicodeDecodeError \/ (exists cs d, decode cs d = Err e) \/ (exists l, rfc2579 l = Err e).

Lemma errs_as_parse_error {A} (P : exn -> Prop) (r : result A) : P ParseError -> errs P r -> errs P (as_parse_error r).
Proof. intros HP H e E. destruct r as [x|e']; [discriminate|]. destruct e'; injection E as <-; try exact HP; apply H; reflexivity. Qed.

Lemma struct_errs (P : exn -> Prop) ks d : P ParseError -> errs P (as_parse_error (struct_bs ks d)).
Proof.
  intros HP e E. destruct (struct_bs ks d) as [x|e'] eqn:S; [discriminate|]. apply struct_bs_errors in S as [->|[-> _]]; injection E as <-; exact HP.
Qed.

Lemma ipp_value_errs decode rfc2579 cs t d : is_bytes d -> errs (ipp_err decode rfc2579) (ipp_read_value decode rfc2579 cs t d).
Proof.
  intros Hb. assert (PE : ipp_err decode rfc2579 ParseError) by (left; reflexivity).
  assert (UE : ipp_err decode rfc2579 UnicodeDecodeError) by (right; left; reflexivity).
  unfold ipp_read_value. destruct (zin t [33; 35]).
  { apply errs_bind; [|intros; apply errs_ok]. unfold ipp_int. apply errs_bind; [apply struct_errs; exact PE|].
    intros vs E. rewrite as_parse_error_ok in E. apply struct_bs_fval in E; [|exact Hb|apply fs_wf; repeat constructor; tauto]. vals E. apply errs_ok. }
  destruct (t =? 34).
  { apply errs_bind; [|intros; apply errs_ok]. unfold ipp_bool. destruct (list_eqb d [0]); [apply errs_ok|]. destruct (list_eqb d [1]); [apply errs_ok|apply errs_err; exact PE]. }
  destruct (t =? 49).
  { apply errs_bind; [|intros; apply errs_ok]. unfold ipp_date. apply errs_bind; [apply struct_errs; exact PE|]. intros vs E.
    apply errs_bind; [|intros; apply errs_ok]. intros e R. right; right; right. eauto. }
  destruct (t =? 50); [apply errs_ok|]. destruct (zin t [65; 66]).
  { apply errs_bind; [|intros; apply errs_ok]. intros e R. right; right; left. eauto. }
  destruct (zin t [68; 69; 70; 71; 72; 73]); [|apply errs_ok].
  apply errs_bind; [|intros; apply errs_ok]. unfold decode_ascii. destruct (forallb _ d); [apply errs_ok|apply errs_err; exact UE].
Qed.

Lemma errs_read_next (P : exn -> Prop) content pos n : P ParseError -> errs P (read_next content pos n).
Proof. intros HP e E. apply read_next_errors in E as ->. exact HP. Qed.

Lemma ipp_attribute_errs utf8 decode rfc2579 content cs pos : is_bytes content -> 0 <= pos ->
  errs (ipp_err decode rfc2579) (ipp_attribute utf8 decode rfc2579 content cs pos).
Proof.
  intros Hb Hp. assert (PE : ipp_err decode rfc2579 ParseError) by (left; reflexivity).
  unfold ipp_attribute. apply errs_bind; [apply errs_read_struct; [exact PE|exact Hp]|]. intros vs E.
  pose proof (read_struct_inside _ _ _ _ E ltac:(cbn; lia)) as [_ I1]. change (Z.of_nat (struct_size [FS BE 1; FS BE 2])) with 3 in I1.
  apply read_struct_fval in E; [|exact Hb|apply fs_wf; repeat constructor; tauto]. vals E. rename z into n, z0 into t.
  apply errs_bind; [apply errs_guard; exact PE|]. intros ? G. destruct (Z.leb_spec 0 n); [|discriminate].
  apply errs_bind; [apply errs_read_next; exact PE|]. intros [nb p] E2. apply read_next_iff in E2 as (S2 & L2 & ->); [|lia|lia].
  apply errs_bind; [apply errs_read_struct; [exact PE|lia]|]. intros vs E.
  pose proof (read_struct_inside _ _ _ _ E ltac:(cbn; lia)) as [_ I2]. change (Z.of_nat (struct_size [FS BE 2])) with 2 in I2.
  apply read_struct_fval in E; [|exact Hb|apply fs_wf; repeat constructor; tauto]. vals E.
  rename z into m. apply errs_bind; [apply errs_guard; exact PE|]. intros ? G'. destruct (Z.leb_spec 0 m); [|discriminate].
  apply errs_bind; [apply errs_read_next; exact PE|]. intros [vb p] E4. apply read_next_iff in E4 as (S4 & L4 & ->); [|lia|lia].
  destruct (utf8 nb); [|apply errs_err; exact PE]. apply errs_bind; [apply ipp_value_errs; eapply is_bytes_stored; eassumption|].
  intros [v cs1] _. apply errs_ok.
Qed.

Lemma group_errs utf8 decode rfc2579 content : is_bytes content -> forall fuel cs pos e, 0 <= pos ->
  ipp_group fuel utf8 decode rfc2579 content cs pos = Done (Err e) -> ipp_err decode rfc2579 e.
Proof.
  intros Hb. assert (PE : ipp_err decode rfc2579 ParseError) by (left; reflexivity).
  induction fuel as [|fuel IH]; intros cs pos e Hp; cbn [ipp_group]; [discriminate|].
  destruct (read_struct content [FS BE 1] pos) as [vs|e'] eqn:E.
  2:{ intros H. injection H as <-. apply (errs_read_struct (ipp_err decode rfc2579) content [FS BE 1] pos PE Hp). exact E. }
  destruct (tag_shape _ _ _ Hb E) as [t ->]. destruct (Z.leb_spec 16 t) as [H16|H16].
  - destruct (ipp_attribute utf8 decode rfc2579 content cs pos) as [[[a cs1] p]|e'] eqn:A.
    2:{ intros H. injection H as <-. eapply (ipp_attribute_errs utf8 decode rfc2579 content cs pos Hb Hp). exact A. }
    apply (ipp_attribute_iff utf8 decode rfc2579 content cs pos a cs1 p Hb Hp) in A;
      [|intros tag Et; assert (t = tag) by congruence; subst tag; exact H16].
    destruct A as (t' & nb & name & vb & v & -> & Ht' & Ln & Lv & U & V & S2 & ->). pose proof (len_nonneg nb). pose proof (len_nonneg vb).
    destruct (ipp_group fuel utf8 decode rfc2579 content cs1 (pos + 5 + len nb + len vb)) as [[[l1 cs2]|e']|] eqn:G; [discriminate| |discriminate].
    cbn [rbind]. intros H'. injection H' as <-. eapply IH; [|exact G]. lia.
  - destruct (t =? 3); [discriminate|]. destruct (zin t [1; 2; 4; 5]).
    2:{ intros H. injection H as <-. exact PE. }
    destruct (ipp_group fuel utf8 decode rfc2579 content cs (pos + 1)) as [[[l1 cs2]|e']|] eqn:G; [discriminate| |discriminate].
    cbn [rbind]. intros H'. injection H' as <-. eapply IH; [|exact G]. lia.
Qed.

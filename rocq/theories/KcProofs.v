From Verif Require Import Base BaseFacts CoreModel CoreProofs VarModel VarFacts SeqModel SeqSpec SeqFacts StrModel StrFacts CpioModel DictModel KcModel KcSpec.

Lemma enc_ints_be l : enc_ints (FU BE 4) l = concat (map (be_enc 4) l).
Proof. reflexivity. Qed.

Lemma ints_ok_u32 l : Forall u32 l -> ints_ok (FU BE 4) l.
Proof. intros H. unfold ints_ok. eapply Forall_impl; [|exact H]. intros z Hz. exact Hz. Qed.

Lemma be_struct l rest : Forall u32 l -> map_struct (repeat (FU BE 4) (length l)) (concat (map (be_enc 4) l) ++ rest) = Some (map VI l).
Proof.
  intros H. change (concat (map (be_enc 4) l)) with (concat (map (fun z => enc_field (FU BE 4) (VI z)) l)). rewrite <- enc_struct_repeat.
  apply map_struct_enc. apply repeat_ok. exact H.
Qed.

Lemma read_be content off l : Forall u32 l -> l <> [] -> stored_at content off (concat (map (be_enc 4) l)) ->
  read_struct content (repeat (FU BE 4) (length l)) off = Ok (map VI l).
Proof.
  intros H Hn (pre & post & -> & <-). 
  change (concat (map (be_enc 4) l)) with (concat (map (fun z => enc_field (FU BE 4) (VI z)) l)). rewrite <- enc_struct_repeat.
  apply read_struct_enc; [|reflexivity]. apply repeat_ok. exact H.
Qed.

Lemma len_be l : len (concat (map (be_enc 4) l)) = 4 * len l.
Proof.
  induction l as [|z l IH]; [reflexivity|]. cbn [map concat]. rewrite len_app, IH, len_cons. rewrite len_be_enc. lia.
Qed.

Lemma rec_header content off offsets rec (Hrec : kc_record_at content off offsets rec) : kc_record_header content off = Ok (len rec).
Proof.
  destruct Hrec as (header & values & St & E & Hh & Uh & Us & Uo). unfold kc_record_header.
  rewrite E, !app_assoc in St. do 2 apply stored_at_app in St as [St _].
  change (be_enc 4 (len rec) ++ concat (map (be_enc 4) header)) with (concat (map (be_enc 4) (len rec :: header))) in St.
  pose proof (read_be content off (len rec :: header)) as R. cbn [length] in R. rewrite Hh in R. cbn [repeat]. cbn [repeat] in R. rewrite R.
  - cbn [map]. reflexivity.
  - constructor; assumption.
  - discriminate.
  - exact St.
Qed.

Lemma rec_split content off offsets rec (Hrec : kc_record_at content off offsets rec) : exists head values, rec = head ++ values /\ len head = 24 + 4 * len offsets.
Proof.
  destruct Hrec as (header & values & St & E & Hh & Uh & Us & Uo).
  exists (be_enc 4 (len rec) ++ concat (map (be_enc 4) header) ++ concat (map (be_enc 4) offsets)), values.
  split; [rewrite E at 1; rewrite <- !app_assoc; reflexivity|]. rewrite !len_app, !len_be, len_be_enc. unfold len at 1. rewrite Hh. lia.
Qed.

Lemma rec_offsets content off offsets rec (Hrec : kc_record_at content off offsets rec) : offsets <> [] -> kc_offsets content (off + 24) (len offsets) = Ok offsets.
Proof.
  intros Hn. destruct Hrec as (header & values & St & E & Hh & Uh & Us & Uo). unfold kc_offsets.
  assert (S2 : stored_at content (off + 24) (concat (map (be_enc 4) offsets))).
  { rewrite E, app_assoc in St. apply stored_at_app in St as [_ St]. rewrite len_app, len_be, len_be_enc in St.
    replace (len header) with 5 in St by (unfold len; rewrite Hh; reflexivity).
    replace (off + (Z.of_nat 4 + 4 * 5)) with (off + 24) in St by lia.
    apply stored_at_app in St as [St _]. exact St. }
  apply stored_at_iff in S2 as (_ & _ & S2). rewrite len_be in S2. rewrite (Z.mul_comm (len offsets) 4), S2.
  rewrite <- (app_nil_r (concat _)). apply seq_bs_enc; [cbn; lia|exact Hn|apply ints_ok_u32; exact Uo].
Qed.

Lemma rec_data content off offsets rec (Hrec : kc_record_at content off offsets rec) doff : 0 <= doff <= len rec -> read_here content (off + doff) (len rec - doff) = Ok (zskipn doff rec).
Proof.
  intros Hd. unfold read_here, f_try_read. destruct (Z.ltb_spec (len rec - doff) (-1)); [lia|]. unfold f_read. cbn [bind fpos fdata]. destruct (Z.ltb_spec (len rec - doff) 0); [lia|]. f_equal.
  destruct Hrec as (header & values & St & _). rewrite <- (zfirstn_zskipn rec doff) in St. apply stored_at_app in St as [_ St].
  rewrite len_zfirstn in St. apply stored_at_iff in St as (_ & _ & St). rewrite len_zskipn in St.
  replace (Z.max 0 (len rec - Z.max 0 doff)) with (len rec - doff) in St by lia.
  replace (Z.min (Z.max 0 doff) (len rec)) with doff in St by lia. exact St.
Qed.

Lemma rec_long content off offsets rec (Hrec : kc_record_at content off offsets rec) : 24 + 4 * len offsets <= len rec.
Proof. destruct (rec_split _ _ _ _ Hrec) as (h & v & E & L). rewrite E, len_app. pose proof (len_nonneg v). lia. Qed.


Lemma slice_rec rec first o : 0 <= first -> first < o -> kc_slice (zskipn first rec) first o = zskipn (o - 1) rec.
Proof.
  intros Hf Ho. unfold kc_slice. rewrite pyslice_from_nonneg by lia. rewrite zskipn_zskipn by lia. f_equal. lia.
Qed.

Lemma stored_rest rec o d : stored_at rec o d -> exists rest, zskipn o rec = d ++ rest.
Proof.
  intros St. pose proof (stored_at_inside _ _ _ St). pose proof (len_nonneg d). apply stored_at_from in St; [exact St|lia].
Qed.

Lemma is_ascii_iff s : is_ascii s = true <-> ascii s.
Proof.
  unfold is_ascii, ascii. rewrite forallb_forall, Forall_forall. split; intros H c Hc; specialize (H c Hc); lia.
Qed.

Lemma struct_u32 z rest : u32 z -> struct_bs [FU BE 4] (be_enc 4 z ++ rest) = Ok [VI z].
Proof.
  intros H. change (be_enc 4 z) with (enc_struct [FU BE 4] [VI z] ) || idtac.
  replace (be_enc 4 z ++ rest) with (enc_struct [FU BE 4] [VI z] ++ rest) by (cbn [enc_struct enc_field]; rewrite app_nil_r; reflexivity).
  apply struct_bs_enc; [|cbn; lia]. constructor; [exact H|constructor].
Qed.

Lemma sized_enc s rest : u32 (len s) -> kc_sized (be_enc 4 (len s) ++ s ++ rest) = Ok s.
Proof.
  intros H. unfold kc_sized. rewrite struct_u32 by exact H. cbn [bind].
  rewrite zskipn_app_len by (rewrite len_be_enc; reflexivity). rewrite zfirstn_app_len by reflexivity. rewrite Z.eqb_refl. reflexivity.
Qed.

Lemma rstrip_zeros s n : (forall r, s <> r ++ [0]) -> rstrip 0 (s ++ repeat 0 n) = s.
Proof.
  intros H. induction s as [|x s IH].
  - cbn [app]. induction n as [|n IHn]; [reflexivity|]. cbn [repeat rstrip]. rewrite IHn. reflexivity.
  - cbn [app rstrip]. rewrite IH by (intros r E; apply (H (x :: r)); rewrite E; reflexivity).
    destruct s as [|y s]; [|reflexivity]. destruct (Z.eqb_spec x 0) as [->|]; [|reflexivity]. exfalso. apply (H []). reflexivity.
Qed.

(** A stored value is read, whatever its type. *)
Lemma value_ok rec first t o v : 0 <= first -> kc_stored rec first t o v -> kc_value t (zskipn first rec) first o = Ok v.
Proof.
  intros Hf H. destruct H as [t|t o H|o s H1 H2 H3 H4|o z H1 H2 H3|o z H1 H2 H3|o s n H1 H2 H3 H4 H5|o b H1 H2 H3].
  - unfold kc_value, kc_string, kc_int, kc_date, kc_blob. change (0 =? 0) with true. destruct t as [|[|p|p]| |]; try reflexivity.
    do 4 (try destruct p as [p|p|]); reflexivity.
  - assert (G : forall z, t = KInt z -> z <> 0 /\ z <> 1 /\ z <> 2 /\ z <> 5 /\ z <> 6).
    { intros z ->. cbn [map In] in H. repeat split; intros ->; tauto. }
    destruct t as [|z| |]; try reflexivity. specialize (G z eq_refl). unfold kc_value. destruct z as [|p|p]; [lia| |reflexivity].
    do 4 (try destruct p as [p|p|]); try reflexivity; lia.
  - unfold kc_value, kc_string. destruct (Z.eqb_spec o 0); [lia|]. rewrite slice_rec by assumption.
    destruct (stored_rest _ _ _ H4) as [rest E]. rewrite E, <- app_assoc, sized_enc by exact H3. cbn [bind].
    rewrite (proj2 (is_ascii_iff s) H2). reflexivity.
  - unfold kc_value, kc_int. destruct (Z.eqb_spec o 0); [lia|]. rewrite slice_rec by assumption.
    destruct (stored_rest _ _ _ H3) as [rest E]. rewrite E, struct_u32 by (unfold u32; lia). reflexivity.
  - unfold kc_value, kc_int. destruct (Z.eqb_spec o 0); [lia|]. rewrite slice_rec by assumption.
    destruct (stored_rest _ _ _ H3) as [rest E]. rewrite E, struct_u32 by exact H2. reflexivity.
  - unfold kc_value, kc_date. destruct (Z.eqb_spec o 0); [lia|]. rewrite slice_rec by assumption.
    destruct (stored_rest _ _ _ H5) as [rest E]. rewrite E.
    assert (A : ascii (s ++ repeat 0 n)).
    { apply Forall_app. split; [exact H2|]. apply Forall_forall. intros c Hc. apply repeat_spec in Hc. lia. }
    replace (struct_bs [FB 16] ((s ++ repeat 0 n) ++ rest)) with (@Ok (list fval) [VB (s ++ repeat 0 n)]).
    + cbn [bind]. rewrite (proj2 (is_ascii_iff _) A). cbn [guard bind]. rewrite rstrip_zeros by exact H3. reflexivity.
    + symmetry. replace ((s ++ repeat 0 n) ++ rest) with (enc_struct [FB 16] [VB (s ++ repeat 0 n)] ++ rest)
        by (cbn [enc_struct enc_field]; rewrite app_nil_r; reflexivity).
      apply struct_bs_enc; [|cbn; lia]. constructor; [|constructor]. cbn [fval_ok]. split; [rewrite app_length, repeat_length; exact H4|].
      eapply Forall_impl; [|exact A]. intros c Hc. cbv beta in Hc. unfold is_byte. lia.
  - unfold kc_value, kc_blob. destruct (Z.eqb_spec o 0); [lia|]. rewrite slice_rec by assumption.
    destruct (stored_rest _ _ _ H3) as [rest E]. rewrite E, <- app_assoc, sized_enc by exact H2. reflexivity.
Qed.

(** A row gets a value for every column. *)
Lemma oname_eqb_iff a b : oname_eqb a b = true <-> a = b.
Proof.
  destruct a as [a|], b as [b|]; cbn [oname_eqb]; try (split; congruence). rewrite list_eqb_eq. split; congruence.
Qed.

Lemma row_set_new k v row : ~ In k (map fst row) -> row_set k v row = row ++ [(k, v)].
Proof.
  induction row as [|[k' v'] row IH]; intros H; [reflexivity|]. cbn [row_set app map fst In] in *.
  destruct (oname_eqb k' k) eqn:E; [apply oname_eqb_iff in E; tauto|]. rewrite IH by tauto. reflexivity.
Qed.

Lemma values_ok rec first columns : 0 <= first -> forall offsets values row,
  Forall2 (fun c ov => kc_stored rec first (kc_type c) (fst ov) (snd ov)) columns (combine offsets values) ->
  length offsets = length columns -> length values = length offsets ->
  NoDup (map fst row ++ map kc_name columns) ->
  kc_values columns offsets (zskipn first rec) first row = Ok (row ++ combine (map kc_name columns) values).
Proof.
  intros Hf. induction columns as [|c columns IH]; intros offsets values row F L1 L2 N.
  - cbn [kc_values map combine]. rewrite app_nil_r. reflexivity.
  - destruct offsets as [|o offsets]; [discriminate|]. destruct values as [|v values]; [discriminate|].
    cbn [combine] in F. apply Forall2_cons_iff in F as [F1 F2]. cbn [fst snd] in F1. cbn [kc_values].
    rewrite (value_ok _ _ _ _ _ Hf F1). cbn [bind]. cbn [map] in N.
    rewrite row_set_new by (intros I; apply NoDup_remove_2 in N; apply N; apply in_or_app; left; exact I).
    rewrite (IH offsets values); [|exact F2|now injection L1|now injection L2|].
    + cbn [map combine]. rewrite <- app_assoc. reflexivity.
    + rewrite map_app. cbn [map fst]. rewrite <- app_assoc. exact N.
Qed.

(** The dictionary of tables has the content of a database. *)
Definition agrees (tables : dict ktable) (db : kdb) : Prop := forall k, dict_get k tables = db k.

Lemma agrees_set tables db k t : agrees tables db -> agrees (dict_set k t tables) (upd db k t).
Proof. intros H k'. rewrite dict_get_set. unfold upd. rewrite (Z.eqb_sym k k') || idtac. destruct (k' =? k); [reflexivity|apply H]. Qed.

Lemma step_ok content off type db db' tables : 0 <= off -> agrees tables db -> kc_step content off type db db' ->
  exists tables', kc_read_any content type off tables = Ok tables' /\ agrees tables' db'.
Proof.
  intros Ho A H. destruct H as
    [db rec rel name t0 R S1 U1 U2 An D0
    |db rec rel index attribute kind location t t1 R S1 U D D1
    |db rec o0 o1 o2 o3 o4 o5 rel identifier format name data_type column t t2 R N0 S0 S1 S2 S3 S5 Cn D D2
    |db rec type offsets t values N0 N1 N2 R D L F Lv Nd].
  - unfold kc_read_any, kc_read_info. rewrite (rec_header _ _ _ _ R). cbn [bind].
    pose proof (rec_offsets _ _ _ _ R ltac:(discriminate)) as O. change (len [33; 37]) with 2 in O. rewrite O. cbn [bind].
    change (list_eqb [33; 37] [33; 37]) with true. cbn [guard bind].
    destruct R as (header & values & St & _). destruct St as (pre & post & E & Lp). destruct S1 as (rpre & rpost & E1 & L1).
    rewrite E1 in E.
    replace (pre ++ (rpre ++ (be_enc 4 rel ++ be_enc 4 (len name) ++ name) ++ rpost) ++ post)
      with ((pre ++ rpre) ++ enc_struct [FU BE 4; FU BE 4] [VI rel; VI (len name)] ++ name ++ (rpost ++ post)) in E
      by (cbn [enc_struct enc_field]; rewrite <- !app_assoc; reflexivity).
    rewrite E. rewrite read_var_enc.
    + cbn [bind]. unfold decode_ascii. pose proof (proj2 (is_ascii_iff name) An) as An'. unfold is_ascii in An'. rewrite An'. cbn [bind].
      pose proof (agrees_set _ _ rel (mkktable rel name [] []) A) as A1. rewrite (A1 0), D0.
      eexists. split; [reflexivity|]. apply agrees_set. exact A1.
    + constructor; [exact U1|]. constructor; [exact U2|constructor].
    + rewrite len_app. lia.
    + reflexivity.
  - unfold kc_read_any, kc_read_index. rewrite (rec_header _ _ _ _ R). cbn [bind].
    pose proof (rec_offsets _ _ _ _ R ltac:(discriminate)) as O. change (len [45; 49; 53; 57; 61]) with 5 in O. rewrite O. cbn [bind].
    change (list_eqb [45; 49; 53; 57; 61] [45; 49; 53; 57; 61]) with true. cbn [guard bind].
    destruct R as (header & values & St & _).
    assert (S : stored_at content (off + 44) (concat (map (be_enc 4) [rel; index; attribute; kind; location]))).
    { destruct St as (pre & post & E & Lp). destruct S1 as (rpre & rpost & E1 & L1). exists (pre ++ rpre), (rpost ++ post).
      rewrite E, E1, len_app. cbn [map concat]. rewrite app_nil_r. rewrite <- !app_assoc. split; [reflexivity|lia]. }
    pose proof (read_be content (off + 44) _ U ltac:(discriminate) S) as Rd. cbn [length] in Rd. rewrite Rd. cbn [bind map].
    rewrite (A rel), (A 1), D, D1. eexists. split; [reflexivity|]. apply agrees_set. exact A.
  - unfold kc_read_any, kc_read_attribute. rewrite (rec_header _ _ _ _ R). cbn [bind].
    pose proof (rec_offsets _ _ _ _ R ltac:(discriminate)) as O. change (len [o0; o1; o2; o3; o4; o5]) with 6 in O. rewrite O. cbn [bind].
    pose proof (rec_long _ _ _ _ R) as Lr. change (24 + 4 * len [o0; o1; o2; o3; o4; o5]) with 48 in Lr.
    rewrite (rec_data _ _ _ _ R 48) by lia. cbn [bind].
    change (kc_int (zskipn 48 rec) 48 o0) with (kc_value (KInt 2) (zskipn 48 rec) 48 o0).
    change (kc_int (zskipn 48 rec) 48 o1) with (kc_value (KInt 2) (zskipn 48 rec) 48 o1).
    change (kc_int (zskipn 48 rec) 48 o2) with (kc_value (KInt 2) (zskipn 48 rec) 48 o2).
    change (kc_string (zskipn 48 rec) 48 o3) with (kc_value (KInt 0) (zskipn 48 rec) 48 o3).
    change (kc_int (zskipn 48 rec) 48 o5) with (kc_value (KInt 2) (zskipn 48 rec) 48 o5).
    rewrite (value_ok rec 48 _ _ _ ltac:(lia) S0), (value_ok rec 48 _ _ _ ltac:(lia) S1), (value_ok rec 48 _ _ _ ltac:(lia) S2),
      (value_ok rec 48 _ _ _ ltac:(lia) S3), (value_ok rec 48 _ _ _ ltac:(lia) S5). cbn [bind].
    rewrite (A rel), D.
    replace (match name with
             | KStr s => Ok (Some s)
             | _ => if o1 =? 0 then Ok None
                    else do s <- decode_ascii (pyslice (zskipn 48 rec) (o1 - 49) (o1 - 49 + 4)); Ok (Some s)
             end) with (@Ok (option str) column).
    + cbn [bind]. pose proof (agrees_set _ _ rel (add_column t (mkkcol data_type identifier column)) A) as A1.
      rewrite (A1 2). change (add_column t (mkkcol data_type identifier column)) with (with_column t (mkkcol data_type identifier column)) in *.
      rewrite D2. eexists. split; [reflexivity|]. apply agrees_set. exact A1.
    + destruct Cn as [s o|o s N As Ls St|]; [reflexivity| |reflexivity].
      destruct (Z.eqb_spec o 0); [contradiction|].
      assert (Ho1 : 48 < o) by (inversion S1; subst; try lia; exfalso; match goal with H : ~ In _ _ |- _ => apply H; cbn [map In]; tauto end).
      rewrite pyslice_nonneg by lia. rewrite zskipn_zskipn by lia. replace (48 + (o - 49)) with (o - 1) by lia.
      replace (o - 49 + 4 - (o - 49)) with (len s) by (unfold len; rewrite Ls; lia).
      apply stored_at_iff in St as (_ & _ & St). rewrite St. unfold decode_ascii.
      pose proof (proj2 (is_ascii_iff s) As) as An'. unfold is_ascii in An'. rewrite An'. reflexivity.
  - assert (Em : kc_read_any content type off tables = kc_read_record content off type tables).
    { unfold kc_read_any. destruct type as [|[p|[p|p|]|]|]; try reflexivity; lia. }
    rewrite Em. unfold kc_read_record. rewrite (A type), D. rewrite (rec_header _ _ _ _ R). cbn [bind].
    destruct (kt_columns t) as [|c cs] eqn:Ec.
    + cbn [bind map combine]. eexists. split; [reflexivity|]. unfold add_record, with_record. rewrite Ec. apply agrees_set. exact A.
    + rewrite <- Ec in *. assert (Ll : len (kt_columns t) = len offsets) by (unfold len; rewrite L; reflexivity). rewrite Ll.
      rewrite (rec_offsets _ _ _ _ R) by (destruct offsets; [rewrite Ec in L; discriminate|discriminate]). cbn [bind].
      rewrite (rec_data _ _ _ _ R) by (pose proof (rec_long _ _ _ _ R); pose proof (len_nonneg offsets); lia). cbn [bind].
      rewrite (values_ok rec (24 + 4 * len offsets) (kt_columns t) ltac:(pose proof (len_nonneg offsets); lia) offsets values [] F L Lv Nd).
      cbn [bind app]. eexists. split; [reflexivity|]. apply agrees_set. exact A.
Qed.

Lemma records_ok content type toff offsets : 0 <= toff -> Forall u32 offsets -> forall db db' tables, agrees tables db ->
  steps (fun o => kc_step content (toff + o) type) (filter (fun o => negb (o =? 0)) offsets) db db' ->
  exists tables', kc_read_records content type toff offsets tables = Ok tables' /\ agrees tables' db'.
Proof.
  intros Ht U. induction U as [|o offsets Uo U IH]; intros db db' tables A H.
  - inversion H; subst. exists tables. split; [reflexivity|exact A].
  - cbn [filter kc_read_records] in *. destruct (Z.eqb_spec o 0) as [->|N]; cbn [negb] in H; [eapply IH; eassumption|].
    inversion H as [|? ? ? db1 ? H1 H2]; subst. 
    destruct (step_ok content (toff + o) type db db1 tables ltac:(unfold u32 in Uo; lia) A H1) as (t1 & E1 & A1).
    rewrite (Z.add_comm o toff), E1. cbn [bind]. eapply IH; eassumption.
Qed.

Lemma read_var_be content off l offsets ks n : Forall u32 l -> Forall u32 offsets -> l <> [] ->
  stored_at content off (concat (map (be_enc 4) l) ++ concat (map (be_enc 4) offsets)) ->
  ks = repeat (FU BE 4) (length l) -> n (map VI l) = 4 * len offsets ->
  read_var content ks n off = Ok (map VI l, concat (map (be_enc 4) offsets), 4 * len l + 4 * len offsets).
Proof.
  intros Ul Uo Hl (pre & post & -> & <-) -> En. rewrite <- app_assoc.
  change (concat (map (be_enc 4) l)) with (concat (map (fun z => enc_field (FU BE 4) (VI z)) l)). rewrite <- enc_struct_repeat.
  rewrite read_var_enc.
  - rewrite len_be. rewrite struct_size_repeat. cbn [fsize]. f_equal. f_equal. unfold len. lia.
  - apply repeat_ok. exact Ul.
  - reflexivity.
  - rewrite len_be. exact En.
Qed.

Lemma offsets_map offsets : Forall u32 offsets ->
  exists l, map_struct (repeat (FU BE 4) (Z.to_nat (len offsets))) (concat (map (be_enc 4) offsets)) = Some l /\ ints l = offsets.
Proof.
  intros U. exists (map VI offsets). split; [|apply ints_VI]. unfold len. rewrite Nat2Z.id. rewrite <- (app_nil_r (concat _)). apply be_struct. exact U.
Qed.

Lemma table_ok content toff db db' tables : 0 <= toff -> agrees tables db -> kc_table content toff db db' ->
  exists tables', kc_read_table content toff tables = Ok tables' /\ agrees tables' db'.
Proof.
  intros Ht A (size & type & records & array & u1 & u2 & offsets & St & U & Uo & H). unfold kc_read_table.
  rewrite (read_var_be content toff [size; type; records; array; u1; u2; len offsets] offsets); try assumption; try reflexivity; try discriminate.
  - cbn [bind map]. destruct (offsets_map offsets Uo) as (l & -> & ->). eapply records_ok; eassumption.
Qed.

Lemma tables_ok content array offsets : 0 <= array -> Forall u32 offsets -> forall db db' tables, agrees tables db ->
  steps (fun o => kc_table content (array + o)) offsets db db' ->
  exists tables', kc_read_tables content array offsets tables = Ok tables' /\ agrees tables' db'.
Proof.
  intros Ht U. induction U as [|o offsets Uo U IH]; intros db db' tables A H.
  - inversion H; subst. exists tables. split; [reflexivity|exact A].
  - cbn [kc_read_tables]. inversion H as [|? ? ? db1 ? H1 H2]; subst.
    destruct (table_ok content (array + o) db db1 tables ltac:(unfold u32 in Uo; lia) A H1) as (t1 & E1 & A1).
    rewrite E1. cbn [bind]. eapply IH; eassumption.
Qed.

Lemma file_ok content db : kc_file content db -> exists tables, read_keychain content = Ok tables /\ agrees tables db.
Proof.
  intros (major & minor & data_size & array & unknown & size & offsets & St & Hma & Hmi & U & Sa & Uo & H). unfold read_keychain.
  inversion U as [|? ? U1 V1]; subst. inversion V1 as [|? ? U2 V2]; subst. inversion V2 as [|? ? U3 V3]; subst.
  inversion V3 as [|? ? U4 V4]; subst. inversion V4 as [|? ? U5 V5]; subst.
  destruct St as (pre & post & E & L).
  replace (s2z "kych" ++ be_enc 2 major ++ be_enc 2 minor ++ be_enc 4 data_size ++ be_enc 4 array ++ be_enc 4 unknown)
    with (enc_struct [FB 4; FU BE 2; FU BE 2; FU BE 4; FU BE 4; FU BE 4] [VB (s2z "kych"); VI major; VI minor; VI data_size; VI array; VI unknown]) in E
    by (cbn [enc_struct enc_field]; rewrite app_nil_r; reflexivity).
  assert (Rd : read_struct content [FB 4; FU BE 2; FU BE 2; FU BE 4; FU BE 4; FU BE 4] 0 =
               Ok [VB (s2z "kych"); VI major; VI minor; VI data_size; VI array; VI unknown]).
  { rewrite E. apply read_struct_enc; [|lia]. constructor; [split; [reflexivity|repeat constructor; unfold is_byte; lia]|].
    repeat (constructor; [assumption|]). constructor. }
  rewrite Rd.
  cbn [bind]. change (list_eqb (s2z "kych") (s2z "kych")) with true. cbn [guard bind]. unfold kc_read_array.
  rewrite (read_var_be content array [size; len offsets] offsets); try assumption; try reflexivity; try discriminate.
  - cbn [bind map]. destruct (offsets_map offsets Uo) as (l & -> & ->). eapply tables_ok; [unfold u32 in *; lia|exact Uo| |exact H].
    intros k. reflexivity.
Qed.

(** ** Errors *)

Definition kerr (e : exn) : Prop := In e [ParseError; ValueError; TypeError; UnicodeDecodeError].

Lemma kerr_p : kerr ParseError. Proof. unfold kerr. cbn [In]. tauto. Qed.
Lemma kerr_v : kerr ValueError. Proof. unfold kerr. cbn [In]. tauto. Qed.
Lemma kerr_t : kerr TypeError. Proof. unfold kerr. cbn [In]. tauto. Qed.
Lemma kerr_u : kerr UnicodeDecodeError. Proof. unfold kerr. cbn [In]. tauto. Qed.
#[local] Hint Resolve kerr_p kerr_v kerr_t kerr_u : core.

Lemma is_bytes_pyslice_from d a : is_bytes d -> is_bytes (pyslice_from d a).
Proof. intros H. unfold pyslice_from. apply is_bytes_zskipn, H. Qed.

Lemma sized_errs d : is_bytes d -> errs kerr (kc_sized d).
Proof.
  intros Hb. unfold kc_sized. apply errs_bind; [apply errs_struct_bs; auto|]. intros vs E.
  apply struct_bs_fval in E; [|exact Hb|kinds_wf]. vals E. destruct (_ =? _); [apply errs_ok|apply errs_err; auto].
Qed.

Lemma int_errs data first o : is_bytes data -> errs kerr (kc_int data first o).
Proof.
  intros Hb. unfold kc_int. destruct (o =? 0); [apply errs_ok|]. apply errs_bind; [apply errs_struct_bs; auto|]. intros vs E.
  apply struct_bs_fval in E; [|apply is_bytes_pyslice_from, Hb|kinds_wf]. vals E. apply errs_ok.
Qed.

Lemma int_nonneg data first o z : is_bytes data -> kc_int data first o = Ok (KInt z) -> 0 <= z.
Proof.
  intros Hb. unfold kc_int. destruct (o =? 0); [discriminate|]. destruct (struct_bs _ _) as [vs|] eqn:E; [|discriminate]. cbn [bind].
  apply struct_bs_fval in E; [|apply is_bytes_pyslice_from, Hb|kinds_wf]. vals E. injection 1 as <-. lia.
Qed.

Lemma string_errs data first o : is_bytes data -> errs kerr (kc_string data first o).
Proof.
  intros Hb. unfold kc_string. destruct (o =? 0); [apply errs_ok|]. apply errs_bind; [apply sized_errs, is_bytes_pyslice_from, Hb|]. intros s E.
  apply errs_bind; [apply errs_guard; auto|]. intros. apply errs_ok.
Qed.

Lemma value_errs t data first o : is_bytes data -> errs kerr (kc_value t data first o).
Proof.
  intros Hb.
  assert (D : errs kerr (kc_date data first o)).
  { unfold kc_date. destruct (o =? 0); [apply errs_ok|]. apply errs_bind; [apply errs_struct_bs; auto|]. intros vs E.
    apply struct_bs_fval in E; [|apply is_bytes_pyslice_from, Hb|kinds_wf]. vals E.
    apply errs_bind; [apply errs_guard; auto|]. intros. apply errs_ok. }
  assert (B : errs kerr (kc_blob data first o)).
  { unfold kc_blob. destruct (o =? 0); [apply errs_ok|]. apply errs_bind; [apply sized_errs, is_bytes_pyslice_from, Hb|]. intros. apply errs_ok. }
  pose proof (int_errs data first o Hb) as Hi. pose proof (string_errs data first o Hb) as Hs.
  unfold kc_value. destruct t as [|[|p|p]| |]; try apply errs_ok; [exact Hs|].
  do 3 (try destruct p as [p|p|]); first [assumption|apply errs_ok].
Qed.

Lemma read_here_errs content pos n : errs kerr (read_here content pos n).
Proof. unfold read_here, f_try_read. destruct (n <? -1); [apply errs_err; auto|apply errs_ok]. Qed.

Lemma read_here_bytes content pos n d : is_bytes content -> read_here content pos n = Ok d -> is_bytes d.
Proof.
  intros Hb. unfold read_here, f_try_read. destruct (n <? -1); [discriminate|]. unfold f_read. cbn [bind fpos fdata]. intros H. injection H as <-. destruct (n <? 0); [apply is_bytes_zskipn, Hb|apply is_bytes_zfirstn, is_bytes_zskipn, Hb].
Qed.

Lemma values_errs columns : forall offsets data first row, is_bytes data -> length offsets = length columns ->
  errs kerr (kc_values columns offsets data first row).
Proof.
  induction columns as [|c cs IH]; intros offsets data first row Hb L; [apply errs_ok|].
  destruct offsets as [|o os]; [discriminate|]. cbn [kc_values]. apply errs_bind; [apply value_errs, Hb|]. intros v _.
  apply IH; [exact Hb|now injection L].
Qed.

Lemma header_errs content off : is_bytes content -> 0 <= off -> errs kerr (kc_record_header content off).
Proof.
  intros Hb Ho. unfold kc_record_header. apply errs_bind; [apply errs_read_struct; auto|]. intros vs E.
  apply read_struct_fval in E; [|exact Hb|cbn [repeat]; kinds_wf]. cbn [repeat] in E. vals E. apply errs_ok.
Qed.

Lemma offsets_errs content pos n : errs kerr (kc_offsets content pos n).
Proof. unfold kc_offsets, seq_bs. apply errs_bind; [apply errs_struct_bs; auto|]. intros. apply errs_ok. Qed.

Lemma offsets_len content pos n l : kc_offsets content pos n = Ok l -> length l = Z.to_nat n.
Proof.
  unfold kc_offsets, seq_bs, struct_bs. destruct (zfirstn _ _) as [|x d]; [discriminate|].
  destruct (map_struct _ _) as [vs|] eqn:E; [|discriminate]. cbn [bind]. intros H.
  assert (l = ints vs) as -> by congruence. unfold ints. rewrite map_length, (map_struct_length _ _ _ E). apply repeat_length.
Qed.

Lemma decode_errs d : errs kerr (decode_ascii d).
Proof. unfold decode_ascii. destruct (forallb _ d); [apply errs_ok|apply errs_err; auto]. Qed.

Lemma any_errs content type off tables : is_bytes content -> 0 <= off -> errs kerr (kc_read_any content type off tables).
Proof.
  intros Hb Ho.
  assert (R : errs kerr (kc_read_record content off type tables)).
  { unfold kc_read_record. destruct (dict_get type tables) as [t|]; [|apply errs_err; auto].
    apply errs_bind; [apply header_errs; assumption|]. intros size _. apply errs_bind; [|intros; apply errs_ok].
    destruct (kt_columns t) as [|c cs] eqn:Ec; [apply errs_ok|]. rewrite <- Ec. apply errs_bind; [apply offsets_errs|]. intros l El.
    apply offsets_len in El. apply errs_bind; [apply read_here_errs|]. intros d Ed. apply values_errs; [eapply read_here_bytes; eauto|]. rewrite El. unfold len. lia. }
  assert (R0 : errs kerr (kc_read_info content off tables)).
  { unfold kc_read_info. apply errs_bind; [apply header_errs; assumption|]. intros _ _.
    apply errs_bind; [apply offsets_errs|]. intros l _. apply errs_bind; [apply errs_guard; auto|]. intros _ _.
    apply errs_bind; [apply errs_read_var; auto; lia|]. intros [[vs d] n] E. apply read_var_fval in E as [E _]; [|exact Hb|kinds_wf]. vals E.
    apply errs_bind; [apply decode_errs|]. intros name _. cbv zeta. destruct (dict_get 0 _); [apply errs_ok|apply errs_err; auto]. }
  assert (R1 : errs kerr (kc_read_index content off tables)).
  { unfold kc_read_index. apply errs_bind; [apply header_errs; assumption|]. intros _ _.
    apply errs_bind; [apply offsets_errs|]. intros l _. apply errs_bind; [apply errs_guard; auto|]. intros _ _.
    apply errs_bind; [apply errs_read_struct; auto; lia|]. intros vs E. cbn [repeat] in E. apply read_struct_fval in E; [|exact Hb|kinds_wf]. vals E.
    destruct (dict_get _ tables); [|apply errs_err; auto]. destruct (dict_get 1 tables); [apply errs_ok|apply errs_err; auto]. }
  assert (R2 : errs kerr (kc_read_attribute content off tables)).
  { unfold kc_read_attribute. apply errs_bind; [apply header_errs; assumption|]. intros size _.
    apply errs_bind; [apply offsets_errs|]. intros l El. apply offsets_len in El.
    destruct l as [|o0 [|o1 [|o2 [|o3 [|o4 [|o5 [|? l]]]]]]]; try discriminate El. cbv zeta.
    apply errs_bind; [apply read_here_errs|]. intros data Hd. apply (read_here_bytes _ _ _ _ Hb) in Hd.
    apply errs_bind; [apply int_errs, Hd|]. intros rel _. apply errs_bind; [apply int_errs, Hd|]. intros idn _.
    apply errs_bind; [apply int_errs, Hd|]. intros fmt _. apply errs_bind; [apply string_errs, Hd|]. intros name _.
    apply errs_bind; [apply int_errs, Hd|]. intros dt _. destruct rel as [|rel| |]; try (apply errs_err; auto).
    destruct (dict_get rel tables) as [t|]; [|apply errs_err; auto]. apply errs_bind.
    - destruct name; try apply errs_ok; (destruct (o1 =? 0); [apply errs_ok|]; apply errs_bind; [apply decode_errs|intros; apply errs_ok]).
    - intros nm _. destruct (dict_get 2 _); [apply errs_ok|apply errs_err; auto]. }
  unfold kc_read_any. destruct type as [|[p|[p|p|]|]|]; assumption.
Qed.

Lemma records_errs content type toff offsets : is_bytes content -> 0 <= toff -> Forall (fun z => 0 <= z) offsets -> forall tables,
  errs kerr (kc_read_records content type toff offsets tables).
Proof.
  intros Hb Ht F. induction F as [|o offsets Fo F IH]; intros tables; [apply errs_ok|]. cbn [kc_read_records].
  destruct (o =? 0); [apply IH|]. apply errs_bind; [apply any_errs; [exact Hb|lia]|]. intros t _. apply IH.
Qed.

Lemma table_errs content toff tables : is_bytes content -> 0 <= toff -> errs kerr (kc_read_table content toff tables).
Proof.
  intros Hb Ht. unfold kc_read_table. apply errs_bind; [apply errs_read_var; auto|]. intros [[vs d] n] E. cbn [repeat] in E.
  apply read_var_fval in E as [E Hd]; [|exact Hb|kinds_wf]. vals E. destruct (map_struct _ d) as [l|] eqn:El; [|apply errs_err; auto].
  apply ints_nonneg in El as [El _]; [|exact Hd]. apply records_errs; assumption.
Qed.

Lemma tables_errs content array offsets : is_bytes content -> 0 <= array -> Forall (fun z => 0 <= z) offsets -> forall tables,
  errs kerr (kc_read_tables content array offsets tables).
Proof.
  intros Hb Ht F. induction F as [|o offsets Fo F IH]; intros tables; [apply errs_ok|]. cbn [kc_read_tables].
  apply errs_bind; [apply table_errs; [exact Hb|lia]|]. intros t _. apply IH.
Qed.

Lemma keychain_errs content : is_bytes content -> errs kerr (read_keychain content).
Proof.
  intros Hb. unfold read_keychain. apply errs_bind; [apply errs_read_struct; auto; lia|]. intros vs E.
  apply read_struct_fval in E; [|exact Hb|kinds_wf]. vals E. apply errs_bind; [apply errs_guard; auto|]. intros _ _.
  unfold kc_read_array. apply errs_bind; [apply errs_read_var; auto; lia|]. intros [[vs d] n] E.
  apply read_var_fval in E as [E Hd]; [|exact Hb|kinds_wf]. vals E. destruct (map_struct _ d) as [l|] eqn:El; [|apply errs_err; auto].
  apply ints_nonneg in El as [El _]; [|exact Hd]. apply tables_errs; try assumption. lia.
Qed.

(** A row in general: columns with the same name share one value, the last one. *)
Lemma row_set_keys k v row : NoDup (map fst row) -> NoDup (map fst (row_set k v row)) /\ (forall x, In x (map fst (row_set k v row)) <-> x = k \/ In x (map fst row)).
Proof.
  induction row as [|[k' v'] row IH]; intros N; cbn [row_set map fst].
  - split; [constructor; [intros []|constructor]|]. intros x. cbn [In]. intuition congruence.
  - apply NoDup_cons_iff in N as [N1 N2]. destruct (oname_eqb k' k) eqn:E.
    + apply oname_eqb_iff in E. subst k'. cbn [map fst]. split; [constructor; assumption|]. intros x. cbn [In]. intuition congruence.
    + destruct (IH N2) as [IH1 IH2]. cbn [map fst]. split.
      * constructor; [|exact IH1]. rewrite IH2. intros [->|I]; [|contradiction]. rewrite (proj2 (oname_eqb_iff k k) eq_refl) in E. discriminate.
      * intros x. cbn [In]. rewrite IH2. intuition congruence.
Qed.

Lemma row_set_in k v row x y : NoDup (map fst row) -> (In (x, y) (row_set k v row) <-> (x = k /\ y = v) \/ (x <> k /\ In (x, y) row)).
Proof.
  induction row as [|[k' v'] row IH]; intros N; cbn [row_set].
  - cbn [In]. intuition congruence.
  - cbn [map fst] in N. apply NoDup_cons_iff in N as [N1 N2]. destruct (oname_eqb k' k) eqn:E.
    + apply oname_eqb_iff in E. subst k'. cbn [In]. split.
      * intros [E|I]; [left; split; congruence|]. right. split; [|auto]. intros ->. apply N1. apply (in_map fst) in I. exact I.
      * intros [[-> ->]|[D [E|I]]]; [auto|congruence|auto].
    + assert (D : k' <> k) by (intros ->; rewrite (proj2 (oname_eqb_iff k k) eq_refl) in E; discriminate). cbn [In]. rewrite (IH N2). split.
      * intros [E2|[[-> ->]|[D2 I]]]; [right|auto|auto]. split; [congruence|left; exact E2].
      * intros [[-> ->]|[D2 [E2|I]]]; auto.
Qed.

Lemma last_value_cons {A B} (k k0 : A) (v v0 : B) l : last_value k v ((k0, v0) :: l) <-> last_value k v l \/ (k = k0 /\ v = v0 /\ ~ In k (map fst l)).
Proof.
  split.
  - intros (l1 & l2 & E & N). destruct l1 as [|p l1]; cbn [app] in E.
    + injection E as -> -> ->. auto.
    + injection E as _ ->. left. exists l1, l2. auto.
  - intros [(l1 & l2 & -> & N)|(-> & -> & N)]; [exists ((k0, v0) :: l1), l2; auto|exists [], l; auto].
Qed.

Lemma values_last rec first columns : 0 <= first -> forall offsets values row,
  Forall2 (fun c ov => kc_stored rec first (kc_type c) (fst ov) (snd ov)) columns (combine offsets values) ->
  length offsets = length columns -> length values = length offsets -> NoDup (map fst row) ->
  exists row', kc_values columns offsets (zskipn first rec) first row = Ok row' /\ NoDup (map fst row') /\
    forall k v, In (k, v) row' <-> last_value k v (combine (map kc_name columns) values) \/ (In (k, v) row /\ ~ In k (map kc_name columns)).
Proof.
  intros Hf. induction columns as [|c columns IH]; intros offsets values row F L1 L2 N.
  - exists row. split; [reflexivity|]. split; [exact N|]. intros k v. cbn [map combine]. split; [intros H; right; split; [exact H|intros []]|].
    intros [(l1 & l2 & E & _)|[H _]]; [destruct l1; discriminate|exact H].
  - destruct offsets as [|o offsets]; [discriminate|]. destruct values as [|v0 values]; [discriminate|].
    cbn [combine] in F. apply Forall2_cons_iff in F as [F1 F2]. cbn [fst snd] in F1. cbn [kc_values].
    rewrite (value_ok _ _ _ _ _ Hf F1). cbn [bind]. injection L1 as L1. injection L2 as L2.
    destruct (IH offsets values (row_set (kc_name c) v0 row) F2 L1 L2 (proj1 (row_set_keys _ _ _ N))) as (row' & E & N' & I).
    exists row'. split; [exact E|]. split; [exact N'|]. intros k v. rewrite I, row_set_in by exact N. cbn [map combine In]. rewrite last_value_cons.
    assert (K : map fst (combine (map kc_name columns) values) = map kc_name columns).
    { assert (L : length values = length columns) by congruence. clear - L. revert values L. induction columns as [|c cs IHc]; intros [|v vs] L; try discriminate; [reflexivity|]. injection L as L. cbn [map combine fst]. rewrite IHc by exact L. reflexivity. }
    rewrite K. split.
    + intros [H|[[[-> ->]|[D H]] H2]]; [left; left; exact H|left; right; auto|right]. split; [exact H|]. intros [D2|D2]; [congruence|contradiction].
    + intros [[H|(-> & -> & H)]|[H D]]; [left; exact H|right; split; [left; auto|exact H]|]. right. split; [right; split; [intros ->; apply D; left; reflexivity|exact H]|tauto].
Qed.

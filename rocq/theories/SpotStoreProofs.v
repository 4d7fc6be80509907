From Verif Require Import Base CoreModel CoreProofs VarModel VarFacts DictModel GzipModel GzipProofs
  BaseFacts BitFacts StructFacts SpotModel SpotSpec SpotProofs SpotRecProofs SpotTabProofs SpotAttrProofs.

(** ** Attributes of records *)

Lemma attrs_bytes_app a b : attrs_bytes (a ++ b) = attrs_bytes a ++ attrs_bytes b.
Proof. unfold attrs_bytes. rewrite map_app, concat_app. reflexivity. Qed.

Lemma attrs_bytes_cons a d l : attrs_bytes ((a, d) :: l) = d ++ attrs_bytes l.
Proof. reflexivity. Qed.

Lemma attrs_stored_inv utf8 tb i a d l : attrs_stored utf8 tb i ((a, d) :: l) ->
  exists x vt pt key v e, a = mkattr key pt vt v /\ d = vi_bytes x ++ e /\ vi_ok x /\
    dict_get (i + vi_v x) (tb_types tb) = Some (PType vt pt key) /\ key <> accumulated /\
    stored utf8 tb vt pt v e /\ attrs_stored utf8 tb (i + vi_v x) l.
Proof.
  intros H. remember ((a, d) :: l) as q eqn:E. destruct H as [|i x vt pt key v e l' Hx D K S T]; [discriminate|].
  assert (Ea : mkattr key pt vt v = a) by congruence. assert (Ed : vi_bytes x ++ e = d) by congruence.
  assert (El : l' = l) by congruence. subst. exists x, vt, pt, key, v, e. repeat split; try assumption; apply Hx.
Qed.

Lemma reads_first a l1 l2 : reads (a :: l1) l2 -> 4 < len (attrs_bytes ((a :: l1) ++ l2)) /\ reads l1 l2.
Proof.
  intros [H1 H2]. split.
  - destruct (exists_last (l := a :: l1)) as (l & z & E); [discriminate|]. specialize (H2 l z E). rewrite E.
    rewrite !attrs_bytes_app, !len_app. pose proof (len_nonneg (attrs_bytes l)).
    unfold attrs_bytes at 2. cbn [map concat]. rewrite app_nil_r. lia.
  - split; [exact H1|]. intros l z ->. apply (H2 (a :: l) z). reflexivity.
Qed.

Lemma read_attributes_ok utf8 tb data_size end_ l2 : forall l1 i pre post off rec_off attrs fuel,
  attrs_stored utf8 tb i (l1 ++ l2) -> reads l1 l2 -> off = len pre ->
  rec_off + len (attrs_bytes (l1 ++ l2)) = data_size + 4 -> off + len (attrs_bytes (l1 ++ l2)) <= end_ ->
  (length l1 < fuel)%nat ->
  read_attributes fuel utf8 tb (pre ++ attrs_bytes (l1 ++ l2) ++ post) data_size end_ off rec_off i attrs =
  Done (Ok (fold_left (fun t a => sdict_set (at_key (fst a)) (fst a) t) l1 attrs)).
Proof.
  induction l1 as [|[a d] l1 IH]; intros i pre post off rec_off attrs fuel H R Ho Hr He Hf;
    (destruct fuel as [|fuel]; [lia|]); cbn [read_attributes].
  - destruct R as [R _]. cbn [app] in *. destruct (Z.ltb_spec rec_off data_size); [lia|reflexivity].
  - destruct (reads_first _ _ _ R) as [R1 R2].
    destruct (Z.ltb_spec rec_off data_size) as [_|C]; [|lia].
    cbn [app] in *. apply attrs_stored_inv in H.
    destruct H as (x & vt & pt & key & v & e & Ea & Ed & Hx & D & K & S & T). subst a d off.
    pose proof (vi_bytes_pos x Hx) as P. pose proof (len_nonneg pre).
    rewrite attrs_bytes_cons in *.
    pose proof (len_nonneg e) as Pe. pose proof (len_nonneg (attrs_bytes (l1 ++ l2))) as Pl.
    rewrite !len_app in Hr, He. rewrite <- !app_assoc.
    rewrite pyslice_nonneg by lia. rewrite zskipn_app_len by reflexivity.
    set (rest := attrs_bytes (l1 ++ l2) ++ post).
    assert (Z1 : exists q, zfirstn (end_ - len pre) (vi_bytes x ++ e ++ rest) = vi_bytes x ++ e ++ q).
    { exists (zfirstn (end_ - len pre - len (vi_bytes x) - len e) rest). rewrite !app_assoc.
      rewrite !zfirstn_firstn, (firstn_app _ (vi_bytes x ++ e)). rewrite (firstn_all2 (vi_bytes x ++ e)) by (rewrite app_length; unfold len in *; lia).
      f_equal. f_equal. rewrite app_length. unfold len in *. lia. }
    destruct Z1 as [q Z1]. rewrite Z1, read_vint_ok by exact Hx. rewrite D.
    rewrite pyslice_nonneg by lia. rewrite <- zskipn_zskipn by lia. rewrite zskipn_app_len by reflexivity.
    rewrite zskipn_app_len by reflexivity.
    assert (Z2 : zfirstn (end_ - (len pre + len (vi_bytes x))) (e ++ rest) = e ++ q).
    { apply (f_equal (zskipn (len (vi_bytes x)))) in Z1. rewrite zskipn_zfirstn in Z1 by lia.
      rewrite !zskipn_app_len in Z1 by reflexivity. rewrite <- Z1. f_equal. lia. }
    rewrite Z2, (read_attribute_ok utf8 tb vt pt key v e q K S). cbn [fold_left fst at_key].
    specialize (IH (i + vi_v x) (pre ++ vi_bytes x ++ e) post (len pre + len (vi_bytes x) + len e)
      (rec_off + len (vi_bytes x) + len e) (sdict_set key (mkattr key pt vt v) attrs) fuel T R2).
    rewrite <- !app_assoc in IH. apply IH; [rewrite !len_app; lia|lia|lia|cbn [length] in Hf; lia].
Qed.

Lemma sr_bytes_attrs r : sr_bytes r = le_enc 4 (len (sr_body r)) ++ sr_head r ++ sr_attrs r.
Proof. reflexivity. Qed.

Lemma read_record_ok utf8 tb pre post r l1 l2 fuel : sr_ok r -> sr_attrs r = attrs_bytes (l1 ++ l2) ->
  attrs_stored utf8 tb 0 (l1 ++ l2) -> reads l1 l2 -> (length l1 < fuel)%nat ->
  read_record fuel utf8 tb (pre ++ sr_bytes r ++ post) (len pre + 20) = Done (Ok (item_of r l1)).
Proof.
  intros Hr E H R Hf. unfold read_record. pose proof (len_nonneg pre).
  replace (len pre + 20 - 20) with (len pre) by lia.
  rewrite pyslice_from_nonneg by lia. rewrite zskipn_app_len by reflexivity.
  rewrite read_record_header_ok by exact Hr. cbn [rh_size rh_id rh_item rh_parent rh_time].
  assert (B : len (sr_body r) = len (sr_head r) + len (attrs_bytes (l1 ++ l2))) by (unfold sr_body; rewrite len_app, E; reflexivity).
  pose proof (len_nonneg (sr_head r)). pose proof (len_nonneg (attrs_bytes (l1 ++ l2))).
  pose proof (read_attributes_ok utf8 tb (len (sr_body r)) (len pre + (4 + len (sr_head r)) + len (sr_body r)) l2 l1 0
    (pre ++ le_enc 4 (len (sr_body r)) ++ sr_head r) post (len pre + (4 + len (sr_head r))) (4 + len (sr_head r)) [] fuel H R) as A.
  rewrite <- !app_assoc in A. rewrite <- E in A. rewrite sr_bytes_attrs, <- !app_assoc. rewrite A; [reflexivity| | | |exact Hf].
  - rewrite !len_app, len_le_enc. lia.
  - rewrite E. lia.
  - rewrite E. lia.
Qed.

(** The last attribute takes what is left of the slice of the record. *)
Lemma read_accumulated utf8 tb pre post r x vt pt d fuel : sr_ok r -> sr_attrs r = vi_bytes x ++ d -> vi_ok x ->
  dict_get (vi_v x) (tb_types tb) = Some (PType vt pt accumulated) -> 4 < len (vi_bytes x ++ d) -> (1 < fuel)%nat ->
  read_record fuel utf8 tb (pre ++ sr_bytes r ++ post) (len pre + 20) =
  Done (Ok (item_of r [(mkattr accumulated pt vt (AData (d ++ zfirstn (len (sr_head r)) post)), [])])).
Proof.
  intros Hr E Hx D H4 Hf. unfold read_record. pose proof (len_nonneg pre).
  replace (len pre + 20 - 20) with (len pre) by lia.
  rewrite pyslice_from_nonneg by lia. rewrite zskipn_app_len by reflexivity.
  rewrite read_record_header_ok by exact Hr. cbn [rh_size rh_id rh_item rh_parent rh_time].
  assert (B : len (sr_body r) = len (sr_head r) + len (vi_bytes x ++ d)) by (unfold sr_body; rewrite len_app, E; reflexivity).
  pose proof (len_nonneg (sr_head r)). pose proof (vi_bytes_pos x Hx). pose proof (len_nonneg d).
  rewrite len_app in *.
  destruct fuel as [|[|fuel]]; [lia|lia|]. cbn [read_attributes].
  destruct (Z.ltb_spec (4 + len (sr_head r)) (len (sr_body r))); [|lia].
  set (o := len pre + (4 + len (sr_head r))).
  assert (S1 : zskipn o (pre ++ sr_bytes r ++ post) = vi_bytes x ++ d ++ post).
  { unfold o. rewrite sr_bytes_attrs, E, !app_assoc. rewrite <- (app_assoc _ (vi_bytes x) d), <- app_assoc.
    rewrite <- (app_assoc (vi_bytes x)). rewrite zskipn_app_len; [reflexivity|]. rewrite !len_app, len_le_enc. lia. }
  assert (Z1 : zfirstn (len (sr_body r)) (vi_bytes x ++ d ++ post) = vi_bytes x ++ d ++ zfirstn (len (sr_head r)) post).
  { rewrite !app_assoc. rewrite !zfirstn_firstn, (firstn_app _ (vi_bytes x ++ d)).
    rewrite (firstn_all2 (vi_bytes x ++ d)) by (rewrite app_length; unfold len in *; lia). f_equal. f_equal.
    rewrite app_length. unfold len in *. lia. }
  rewrite pyslice_nonneg by (unfold o; lia). rewrite S1. replace (o + len (sr_body r) - o) with (len (sr_body r)) by lia.
  rewrite Z1, read_vint_ok by exact Hx. rewrite Z.add_0_l, D.
  rewrite pyslice_nonneg by (unfold o; lia). rewrite <- zskipn_zskipn by (unfold o; lia). rewrite S1.
  rewrite zskipn_app_len by reflexivity.
  assert (Z2 : zfirstn (o + len (sr_body r) - (o + len (vi_bytes x))) (d ++ post) = d ++ zfirstn (len (sr_head r)) post).
  { apply (f_equal (zskipn (len (vi_bytes x)))) in Z1. rewrite zskipn_zfirstn in Z1 by lia.
    rewrite !zskipn_app_len in Z1 by reflexivity. rewrite <- Z1. f_equal. lia. }
  rewrite Z2. unfold read_attribute. unfold accumulated at 1 2 3. rewrite list_eqb_refl. cbn [bind].
  pose proof (len_nonneg (zfirstn (len (sr_head r)) post)).
  match goal with |- context [if ?a <? ?b then _ else _] => destruct (Z.ltb_spec a b) as [C|_] end.
  { rewrite !len_app in C. lia. }
  reflexivity.
Qed.

(** An attribute whose type is not in the table. *)
Lemma read_unknown_type utf8 tb pre post r x d fuel : sr_ok r -> sr_attrs r = vi_bytes x ++ d -> vi_ok x ->
  (forall vt pt key, dict_get (vi_v x) (tb_types tb) <> Some (PType vt pt key)) -> 4 < len (vi_bytes x ++ d) -> (0 < fuel)%nat ->
  read_record fuel utf8 tb (pre ++ sr_bytes r ++ post) (len pre + 20) = Done (Err AttributeError).
Proof.
  intros Hr E Hx D H4 Hf. unfold read_record. pose proof (len_nonneg pre).
  replace (len pre + 20 - 20) with (len pre) by lia.
  rewrite pyslice_from_nonneg by lia. rewrite zskipn_app_len by reflexivity.
  rewrite read_record_header_ok by exact Hr. cbn [rh_size rh_id rh_item rh_parent rh_time].
  assert (B : len (sr_body r) = len (sr_head r) + len (vi_bytes x ++ d)) by (unfold sr_body; rewrite len_app, E; reflexivity).
  pose proof (len_nonneg (sr_head r)). pose proof (vi_bytes_pos x Hx). pose proof (len_nonneg d).
  rewrite len_app in *.
  destruct fuel as [|fuel]; [lia|]. cbn [read_attributes].
  destruct (Z.ltb_spec (4 + len (sr_head r)) (len (sr_body r))); [|lia].
  set (o := len pre + (4 + len (sr_head r))).
  assert (S1 : zskipn o (pre ++ sr_bytes r ++ post) = vi_bytes x ++ d ++ post).
  { unfold o. rewrite sr_bytes_attrs, E, !app_assoc. rewrite <- (app_assoc _ (vi_bytes x) d), <- app_assoc.
    rewrite <- (app_assoc (vi_bytes x)). rewrite zskipn_app_len; [reflexivity|]. rewrite !len_app, len_le_enc. lia. }
  assert (Z1 : zfirstn (len (sr_body r)) (vi_bytes x ++ d ++ post) = vi_bytes x ++ d ++ zfirstn (len (sr_head r)) post).
  { rewrite !app_assoc. rewrite !zfirstn_firstn, (firstn_app _ (vi_bytes x ++ d)).
    rewrite (firstn_all2 (vi_bytes x ++ d)) by (rewrite app_length; unfold len in *; lia). f_equal. f_equal.
    rewrite app_length. unfold len in *. lia. }
  rewrite pyslice_nonneg by (unfold o; lia). rewrite S1. replace (o + len (sr_body r) - o) with (len (sr_body r)) by lia.
  rewrite Z1, read_vint_ok by exact Hx. rewrite Z.add_0_l.
  destruct (dict_get (vi_v x) (tb_types tb)) as [[vt pt key| |]|]; [exfalso; exact (D _ _ _ eq_refl)|reflexivity..].
Qed.

(** ** Store files *)

Lemma cut_nul_app s rest : ~ In 0 s -> cut_nul (s ++ 0 :: rest) = s.
Proof.
  induction s as [|c s IH]; intros H; [reflexivity|]. cbn [app cut_nul].
  destruct (Z.eqb_spec c 0); [exfalso; apply H; now left|]. rewrite IH; [reflexivity|]. intros C. apply H. now right.
Qed.

Lemma read_store_header_ok utf8 h content : store_head_ok utf8 h -> located content 0 (store_head_bytes h) ->
  read_store_header utf8 content =
  Ok (mksh (hd_map_offset h) (hd_map_size h) (hd_types h) (hd_values h) (hd_unknown41 h) (hd_lists h) (hd_localized h)).
Proof.
  intros (H1 & H2 & H3 & H4 & H5 & H6 & path & pad & text & E & N & U) (pre & post & -> & L).
  assert (pre = []) by (apply len_zero; exact L). subst pre. unfold read_store_header.
  destruct h as [unk mo ms u2 ty va un li lo u3 pa]. cbn [hd_unknown hd_map_offset hd_map_size hd_unknown2 hd_types hd_values
    hd_unknown41 hd_lists hd_localized hd_unknown3 hd_path] in *.
  do 8 (destruct unk as [|? unk]; [discriminate|]). destruct unk; [|discriminate].
  cbn [app] in H2. repeat (match goal with H : Forall _ (_ :: _) |- _ => inversion H; clear H; subst end).
  change (store_head_bytes _) with (s2z "8tsd" ++ concat (map (le_enc 4) [z; z0; z1; z2; z3; z4; z5; z6; mo; ms; u2; ty; va; un; li; lo]) ++ u3 ++ path ++ 0 :: pad).
  replace ((s2z "8tsd" ++ concat (map (le_enc 4) [z; z0; z1; z2; z3; z4; z5; z6; mo; ms; u2; ty; va; un; li; lo]) ++ u3 ++ path ++ 0 :: pad) ++ post)
    with (enc_struct store_header_layout (VB (s2z "8tsd") :: map VI [z; z0; z1; z2; z3; z4; z5; z6; mo; ms; u2; ty; va; un; li; lo] ++ [VB u3; VB (path ++ 0 :: pad)]) ++ post).
  2:{ cbn [store_header_layout repeat app map enc_struct enc_field enc_int concat]. rewrite !app_nil_r, <- !app_assoc. reflexivity. }
  rewrite read_struct_enc; [| |reflexivity].
  2:{ unfold store_header_layout. cbn [repeat map app]. sfields; (split; assumption). }
  cbn [bind map app]. rewrite list_eqb_refl. cbn [guard bind]. rewrite cut_nul_app by exact N. rewrite U. reflexivity.
Qed.

Lemma attr_table_ok utf8 content f number types block kvs n : attr_table utf8 content f number types block kvs n ->
  number = 1 \/ number = 2 -> incl types [17; 33] -> forall fuel own, (n < fuel)%nat ->
  (if block =? 0 then Done (do l <- read_streams_map f; attribute_streams utf8 number 0 l [])
   else read_property_pages fuel utf8 own [] content block []) = Done (Ok (dict_of kvs [])).
Proof.
  intros H Hn Ht fuel own Hf. destruct H as [kvs n Hb Hc|first l sl -> (unk & t1 & t2 & t3 & -> & S1 & S2 & S3 & S4 & S5) F].
  - destruct (Z.eqb_spec block 0); [lia|]. apply (read_property_pages_ok _ _ _ _ _ _ _ Hc); [| |exact Hf].
    + intros t T. specialize (Ht t T). cbn [In] in *. tauto.
    + right. intros C. specialize (Ht _ C). cbn [In] in Ht. lia.
  - change (0 =? 0) with true. cbv iota. rewrite read_streams_map_ok by assumption. cbn [bind].
    rewrite (attribute_streams_ok utf8 number l) by assumption. reflexivity.
Qed.

Lemma list_table_ok utf8 values content f block kvs n : list_table utf8 values content f block kvs n ->
  forall fuel, (n < fuel)%nat ->
  (if block =? 0 then Done (do l <- read_streams_map f; index_streams values 0 l [])
   else read_property_pages fuel utf8 false values content block []) = Done (Ok (dict_of kvs [])).
Proof.
  intros H fuel Hf. destruct H as [kvs n Hb Hc|first l sl -> (unk & t1 & t2 & t3 & -> & S1 & S2 & S3 & S4 & S5) F].
  - destruct (Z.eqb_spec block 0); [lia|]. apply (read_property_pages_ok _ _ _ _ _ _ _ Hc); [|left; reflexivity|exact Hf].
    intros t T. cbn [In] in *. tauto.
  - change (0 =? 0) with true. cbv iota. rewrite read_streams_map_ok by assumption. cbn [bind].
    rewrite (index_streams_ok values l) by assumption. reflexivity.
Qed.

Lemma Forall_length_max {A} (l : list (list A)) : exists m, forall fuel, (m <= fuel)%nat -> Forall (fun r => (length r < fuel)%nat) l.
Proof.
  induction l as [|x l [m IH]]; [exists 0%nat; intros; constructor|].
  exists (S (length x + m)). intros fuel H. constructor; [lia|apply IH; lia].
Qed.

Lemma read_store_ok utf8 lz4 zlib streams content s : store_file utf8 lz4 zlib streams content s ->
  exists n, forall fuel, (n <= fuel)%nat -> read_store fuel utf8 lz4 zlib streams content = Done (Ok (store_of s)).
Proof.
  intros (H1 & H2 & (d & n0 & M & L & E) & (n1 & T1) & (n2 & T2) & (n3 & T3) & (n4 & T4) & (n5 & T5) & P).
  destruct (Forall_length_max (fl_records s)) as [m Hm].
  exists (S (n0 + n1 + n2 + n3 + n4 + n5 + m + length content)). intros fuel Hf. unfold read_store.
  rewrite (read_store_header_ok utf8 (fl_head s)) by assumption. cbn [rbind sh_map_offset sh_map_size sh_types sh_values sh_unknown41 sh_lists sh_localized].
  destruct L as (pre & post & Ec & Lp). rewrite Ec at 1. rewrite <- Lp, <- E.
  rewrite (read_map_pages_ok d (fl_blocks s) n0 M) by lia. cbn [rbind app].
  rewrite (attr_table_ok _ _ _ _ _ _ _ _ T1) by (try lia; intros t T; cbn [In] in *; tauto). cbn [rbind].
  rewrite (attr_table_ok _ _ _ _ _ _ _ _ T2) by (try lia; intros t T; cbn [In] in *; tauto). cbn [rbind].
  rewrite (list_table_ok _ _ _ _ _ _ _ T3) by lia. cbn [rbind].
  rewrite (list_table_ok _ _ _ _ _ _ _ T4) by lia. cbn [rbind].
  rewrite (list_table_ok _ _ _ _ _ _ _ T5) by lia. cbn [rbind].
  rewrite (read_record_pages_ok _ _ _ _ _ P) by (try apply Hm; lia). reflexivity.
Qed.

(** ** Items *)

Lemma descs_of_keys page : forall l off, map fst (descs_of page off l) = map rid l.
Proof. induction l as [|r l IH]; intros off; [reflexivity|]. cbn [descs_of map fst]. rewrite IH. reflexivity. Qed.

Lemma descs_of_app page b : forall a off,
  descs_of page off (a ++ b) = descs_of page off a ++ descs_of page (off + len (concat (map sr_bytes a))) b.
Proof.
  induction a as [|r a IH]; intros off; cbn [app descs_of map concat].
  - rewrite (len_nil (A := Z)), Z.add_0_r. reflexivity.
  - rewrite IH, len_app, Z.add_assoc. reflexivity.
Qed.

Lemma page_descs_keys : forall bs rs, length bs = length rs -> map fst (page_descs bs rs) = map rid (concat rs).
Proof.
  induction bs as [|b bs IH]; intros [|r rs] H; try discriminate; [reflexivity|].
  cbn [page_descs concat]. rewrite !map_app, descs_of_keys, IH by (cbn [length] in H; lia). reflexivity.
Qed.

Lemma page_descs_app : forall bs1 rs1 bs2 rs2, length bs1 = length rs1 ->
  page_descs (bs1 ++ bs2) (rs1 ++ rs2) = page_descs bs1 rs1 ++ page_descs bs2 rs2.
Proof.
  induction bs1 as [|b bs IH]; intros [|r rs] bs2 rs2 H; try discriminate; [reflexivity|].
  cbn [page_descs app]. rewrite IH by (cbn [length] in H; lia). rewrite app_assoc. reflexivity.
Qed.

Lemma page_cache_app : forall bs1 rs1 bs2 rs2, length bs1 = length rs1 ->
  page_cache (bs1 ++ bs2) (rs1 ++ rs2) = page_cache bs1 rs1 ++ page_cache bs2 rs2.
Proof.
  induction bs1 as [|b bs IH]; intros [|r rs] bs2 rs2 H; try discriminate; [reflexivity|].
  cbn [page_cache app]. rewrite IH by (cbn [length] in H; lia). reflexivity.
Qed.

Lemma pages_stored_length lz4 zlib content bs rs : pages_stored lz4 zlib content bs rs -> length bs = length rs.
Proof. induction 1; cbn [length]; lia. Qed.

Lemma pages_stored_cache lz4 zlib content bs rs k v : pages_stored lz4 zlib content bs rs -> In (k, v) (page_cache bs rs) ->
  read_record_page (S (length content)) lz4 zlib content k = Done (Ok v).
Proof.
  induction 1 as [|b page recs bs rs Hb Hr Hp Hl _ IH]; intros Hi; [destruct Hi|].
  cbn [page_cache In] in Hi. destruct Hi as [Hi|Hi]; [|exact (IH Hi)].
  assert (k = b * 4096) by congruence. assert (v = concat (map sr_bytes recs)) by congruence. subst.
  apply (record_page_ok _ _ _ _ _ _ page Hp Hl). lia.
Qed.

Lemma pages_stored_ok lz4 zlib content bs rs : pages_stored lz4 zlib content bs rs -> Forall (Forall sr_ok) rs.
Proof. induction 1; constructor; assumption. Qed.

Lemma split_blocks (bs : list Z) (rs1 : list (list srec)) x rs2 : length bs = length (rs1 ++ x :: rs2) ->
  exists bs1 b bs2, bs = bs1 ++ b :: bs2 /\ length bs1 = length rs1.
Proof.
  revert bs. induction rs1 as [|r rs1 IH]; intros bs H; (destruct bs as [|b bs]; [discriminate|]); cbn [app length] in H.
  - exists [], b, bs. split; reflexivity.
  - destruct (IH bs ltac:(lia)) as (bs1 & c & bs2 & -> & E). exists (b :: bs1), c, bs2. cbn [app length]. split; [reflexivity|lia].
Qed.

Lemma get_item_ok utf8 lz4 zlib content s rs1 l1 r l2 rs2 a1 a2 fuel :
  pages_stored lz4 zlib content (fl_blocks s) (fl_records s) ->
  fl_records s = rs1 ++ (l1 ++ r :: l2) :: rs2 -> ~ In (rid r) (map rid (l2 ++ concat rs2)) ->
  sr_attrs r = attrs_bytes (a1 ++ a2) -> attrs_stored utf8 (file_tables s) 0 (a1 ++ a2) -> reads a1 a2 -> (length a1 < fuel)%nat ->
  get_item fuel utf8 lz4 zlib content (store_of s) (rid r) = Done (Ok (Some (item_of r a1), store_of s)).
Proof.
  intros P E N Ea Ha Hr Hf. pose proof (pages_stored_length _ _ _ _ _ P) as L. pose proof (pages_stored_ok _ _ _ _ _ P) as O.
  rewrite E in L, O. destruct (split_blocks _ _ _ _ L) as (bs1 & b & bs2 & Eb & L1).
  assert (L2 : length bs2 = length rs2) by (rewrite Eb, !app_length in L; cbn [length] in L; lia).
  apply Forall_app in O. destruct O as [_ O]. inversion O as [|? ? O1 O2]; subst. clear O.
  apply Forall_app in O1. destruct O1 as [_ O1]. inversion O1 as [|? ? Or _]; subst.
  set (o := len (concat (map sr_bytes l1))).
  assert (D : dict_get (rid r) (st_descs (store_of s)) =
    Some (mkrd (b * 4096) (o + 20) (rid r) (vi_v (sr_item r)) (vi_v (sr_parent r)) (vi_v (sr_time r)))).
  { cbn [store_of st_descs].
    apply (dict_of_last _ _ (page_descs bs1 rs1 ++ descs_of (b * 4096) 0 l1) _ _
      (descs_of (b * 4096) (o + len (sr_bytes r)) l2 ++ page_descs bs2 rs2)).
    - rewrite Eb, E, page_descs_app by exact L1. cbn [page_descs]. rewrite descs_of_app. cbn [descs_of].
      rewrite <- !app_assoc. reflexivity.
    - rewrite map_app, descs_of_keys, page_descs_keys by exact L2. rewrite <- map_app. exact N. }
  unfold get_item. rewrite D. cbn [rd_page rd_offset].
  set (data := concat (map sr_bytes (l1 ++ r :: l2))).
  assert (C : dict_get (b * 4096) (st_cache (store_of s)) = Some data).
  { cbn [store_of st_cache].
    assert (I : In (b * 4096, data) (page_cache (fl_blocks s) (fl_records s))).
    { rewrite Eb, E, page_cache_app by exact L1. apply in_or_app. right. left. reflexivity. }
    destruct (dict_get_some (dict_of (page_cache (fl_blocks s) (fl_records s)) []) (b * 4096)) as [v V].
    { apply dict_of_keys. left. apply in_map_iff. exists (b * 4096, data). split; [reflexivity|exact I]. }
    destruct (dict_of_inv _ _ _ _ V) as [W|W]; [|discriminate].
    pose proof (pages_stored_cache _ _ _ _ _ _ _ P I) as R1. pose proof (pages_stored_cache _ _ _ _ _ _ _ P W) as R2.
    rewrite V. f_equal. pose proof (eq_trans (eq_sym R2) R1) as R.
    exact (f_equal (fun x => match x with Done (Ok y) => y | _ => [] end) R). }
  assert (Ed : data = concat (map sr_bytes l1) ++ sr_bytes r ++ concat (map sr_bytes l2)).
  { unfold data. rewrite map_app, concat_app. reflexivity. }
  rewrite C. destruct data as [|c q] eqn:Eq.
  - exfalso. apply (f_equal len) in Ed. rewrite !len_app, len_sr_bytes, (len_nil (A := Z)) in Ed.
    pose proof (len_nonneg (concat (map sr_bytes l1))). pose proof (len_nonneg (concat (map sr_bytes l2))).
    pose proof (len_nonneg (sr_body r)). lia.
  - cbn [rbind]. rewrite Ed. unfold o. rewrite (read_record_ok utf8 _ _ _ r a1 a2) by assumption. reflexivity.
Qed.

Lemma get_item_none utf8 lz4 zlib content s id fuel : length (fl_blocks s) = length (fl_records s) ->
  ~ In id (map rid (file_records s)) ->
  get_item fuel utf8 lz4 zlib content (store_of s) id = Done (Ok (None, store_of s)).
Proof.
  intros L N. unfold get_item. cbn [store_of st_descs]. rewrite dict_get_none; [reflexivity|].
  rewrite dict_of_keys, page_descs_keys by exact L. intros [C|[]]. exact (N C).
Qed.

Lemma number_of_items_ok s : length (fl_blocks s) = length (fl_records s) ->
  number_of_items (store_of s) = Z.of_nat (length (nodup Z.eq_dec (map rid (file_records s)))).
Proof.
  intros L. unfold number_of_items. cbn [store_of st_descs]. unfold len. rewrite dict_of_length, page_descs_keys by exact L. reflexivity.
Qed.

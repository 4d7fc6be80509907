From Verif Require Import Base CoreModel CoreProofs VarModel VarFacts DictModel GzipModel GzipProofs
  BaseFacts BitFacts StructFacts SpotModel SpotSpec SpotProofs.

(** ** Record headers *)

Lemma map_u32 v rest : u 4 v -> map_struct [FU LE 4] (le_enc 4 v ++ rest) = Some [VI v].
Proof.
  intros H. replace (le_enc 4 v ++ rest) with (enc_struct [FU LE 4] [VI v] ++ rest)
    by (cbn [enc_struct enc_field enc_int]; rewrite app_nil_r; reflexivity).
  apply map_struct_enc. sfields.
Qed.

Lemma zskipn_past {A} (a : list A) x b n : n = len a + 1 -> zskipn n (a ++ x :: b) = b.
Proof.
  intros ->. change (a ++ x :: b) with (a ++ [x] ++ b). rewrite app_assoc. apply zskipn_app_len.
  rewrite len_app. reflexivity.
Qed.

Lemma read_record_header_ok r rest : sr_ok r ->
  read_record_header (sr_bytes r ++ rest) =
  Ok (mkrh (len (sr_body r)) (vi_v (sr_id r)) (sr_flags r) (vi_v (sr_item r)) (vi_v (sr_parent r)) (vi_v (sr_time r)),
      4 + len (sr_head r)).
Proof.
  intros (H1 & H2 & H3 & H4 & H5). unfold read_record_header.
  replace (sr_bytes r ++ rest) with (le_enc 4 (len (sr_body r)) ++ sr_body r ++ rest)
    by (unfold sr_bytes; rewrite <- app_assoc; reflexivity).
  rewrite map_u32 by exact H5.
  pose proof (vi_bytes_pos _ H1). pose proof (vi_bytes_pos _ H2). pose proof (vi_bytes_pos _ H3). pose proof (vi_bytes_pos _ H4).
  clear H5. generalize (len (sr_body r)). intros size. unfold sr_body. unfold sr_head. rewrite <- !app_assoc.
  rewrite pyslice_from_nonneg by lia. rewrite zskipn_app_len by (rewrite len_le_enc; reflexivity).
  rewrite read_vint_ok by exact H1. cbn [bind].
  rewrite (app_assoc (le_enc 4 _) (vi_bytes (sr_id r))).
  cbn [app]. rewrite pyindex_app by (rewrite len_app, len_le_enc; reflexivity). cbn [bind].
  rewrite (pyslice_from_nonneg _ (_ + 1)) by lia.
  rewrite zskipn_past by (rewrite !len_app, len_le_enc; lia).
  rewrite pyslice_from_nonneg by lia. rewrite zskipn_0 by lia. rewrite read_vint_ok by exact H2. cbn [bind].
  rewrite pyslice_from_nonneg by lia. rewrite zskipn_app_len by reflexivity. rewrite read_vint_ok by exact H3. cbn [bind].
  rewrite pyslice_from_nonneg by lia. rewrite (app_assoc (vi_bytes (sr_item r))).
  rewrite zskipn_app_len by (rewrite len_app; reflexivity). rewrite read_vint_ok by exact H4. cbn [bind].
  do 2 f_equal. rewrite !len_app, len_cons, !len_app. lia.
Qed.

Lemma len_sr_bytes r : len (sr_bytes r) = 4 + len (sr_body r).
Proof. unfold sr_bytes. rewrite len_app, len_le_enc. reflexivity. Qed.

Lemma read_records_ok page tail : forall (l : list srec) pre fuel t, Forall sr_ok l -> (length l < fuel)%nat ->
  exists k, (fuel = length l + k)%nat /\
  read_records fuel (pre ++ concat (map sr_bytes l) ++ tail) page (len pre) t =
  read_records k (pre ++ concat (map sr_bytes l) ++ tail) page (len pre + len (concat (map sr_bytes l)))
    (dict_of (descs_of page (len pre) l) t).
Proof.
  induction l as [|r l IH]; intros pre fuel t H Hf.
  - exists fuel. split; [reflexivity|]. cbn [map concat]. rewrite (len_nil (A := Z)), Z.add_0_r. reflexivity.
  - inversion H as [|? ? Hr Hl]; subst. destruct fuel as [|fuel]; [cbn [length] in Hf; lia|].
    cbn [length] in Hf. destruct (IH (pre ++ sr_bytes r) fuel
      (dict_set (vi_v (sr_id r)) (mkrd page (len pre + 20) (vi_v (sr_id r)) (vi_v (sr_item r)) (vi_v (sr_parent r)) (vi_v (sr_time r))) t)
      Hl ltac:(lia)) as (k & -> & E).
    exists k. split; [reflexivity|].
    cbn [map concat]. cbn [read_records].
    pose proof (len_nonneg (sr_body r)). pose proof (len_nonneg tail). pose proof (len_nonneg (concat (map sr_bytes l))).
    pose proof (len_nonneg pre).
    destruct (Z.ltb_spec (len pre) (len (pre ++ (sr_bytes r ++ concat (map sr_bytes l)) ++ tail))) as [_|C];
      [|rewrite !len_app, len_sr_bytes in C; lia].
    rewrite pyslice_from_nonneg by lia. rewrite zskipn_app_len by reflexivity. rewrite <- app_assoc.
    rewrite read_record_header_ok by exact Hr. cbn [rh_size rh_id rh_item rh_parent rh_time].
    rewrite <- !app_assoc in E. rewrite len_app, len_sr_bytes in E. rewrite E. f_equal.
    + rewrite len_app, len_sr_bytes. lia.
    + cbn [descs_of]. rewrite len_sr_bytes. reflexivity.
Qed.

Lemma read_records_done page (l : list srec) fuel t : Forall sr_ok l -> (length l < fuel)%nat ->
  read_records fuel (concat (map sr_bytes l)) page 0 t = Done (Ok (dict_of (descs_of page 0 l) t)).
Proof.
  intros H Hf. destruct (read_records_ok page [] l [] fuel t H Hf) as (k & -> & E).
  cbn [app] in E. rewrite app_nil_r in E. change (len (@nil Z)) with 0 in E. rewrite E.
  destruct k; [lia|]. cbn [read_records]. rewrite Z.ltb_irrefl. reflexivity.
Qed.

(** Zeros behind the records are read as records. *)
Lemma zeros_header k : (1 <= k)%nat -> read_record_header (repeat 0 k) =
  if Nat.ltb k 4 then Err ParseError else if Nat.ltb k 9 then Err IndexError else Ok (mkrh 0 0 0 0 0 0, 9).
Proof.
  intros H. do 9 (destruct k as [|k]; [try lia; reflexivity|]).
  destruct (Nat.ltb_spec (S (S (S (S (S (S (S (S (S k))))))))) 4); [lia|].
  destruct (Nat.ltb_spec (S (S (S (S (S (S (S (S (S k))))))))) 9); [lia|].
  cbn [repeat]. unfold read_record_header. rewrite map_struct_fields.
  destruct (Z.leb_spec (Z.of_nat (struct_size [FU LE 4])) (len (0 :: 0 :: 0 :: 0 :: 0 :: 0 :: 0 :: 0 :: 0 :: repeat 0 k))) as [_|C].
  2:{ rewrite !len_cons in C. pose proof (len_nonneg (repeat 0 k)). change (Z.of_nat (struct_size [FU LE 4])) with 4 in C. lia. }
  cbn [fields map_field endian_int fsize].
  rewrite pyslice_from_nonneg by lia. change (zskipn 4 (0 :: 0 :: 0 :: 0 :: 0 :: 0 :: 0 :: 0 :: 0 :: repeat 0 k))
    with (vi_bytes (mkvi 0 0) ++ 0 :: 0 :: 0 :: 0 :: repeat 0 k).
  assert (V : vi_ok (mkvi 0 0)) by (repeat split; cbn [vi_w vi_v]; lia).
  rewrite read_vint_ok by exact V. cbn [bind vi_v]. change (len (vi_bytes (mkvi 0 0))) with 1.
  pose proof (pyindex_app [0; 0; 0; 0; 0] 0 (0 :: 0 :: 0 :: repeat 0 k) (4 + 1) eq_refl) as P. cbn [app] in P.
  rewrite P. cbn [bind].
  rewrite (pyslice_from_nonneg (0 :: _)) by lia. change (zskipn (4 + 1 + 1) (0 :: 0 :: 0 :: 0 :: 0 :: 0 :: 0 :: 0 :: 0 :: repeat 0 k))
    with (vi_bytes (mkvi 0 0) ++ vi_bytes (mkvi 0 0) ++ vi_bytes (mkvi 0 0) ++ repeat 0 k).
  rewrite (pyslice_from_nonneg _ 0) by lia. rewrite zskipn_0 by lia. rewrite read_vint_ok by exact V. cbn [bind vi_v].
  change (len (vi_bytes (mkvi 0 0))) with 1.
  rewrite (pyslice_from_nonneg _ 1) by lia. rewrite zskipn_app_len by reflexivity. rewrite read_vint_ok by exact V. cbn [bind vi_v].
  change (len (vi_bytes (mkvi 0 0))) with 1.
  rewrite (pyslice_from_nonneg _ (1 + 1)) by lia. rewrite app_assoc, zskipn_app_len by reflexivity. rewrite read_vint_ok by exact V.
  reflexivity.
Qed.

Lemma zskipn_repeat0 k n : 0 <= n <= Z.of_nat k -> zskipn n (repeat 0 k) = repeat 0 (k - Z.to_nat n).
Proof.
  intros H. rewrite zskipn_skipn. replace k with (Z.to_nat n + (k - Z.to_nat n))%nat at 1 by lia.
  rewrite repeat_app, skipn_app. rewrite skipn_all2 by (rewrite repeat_length; lia).
  rewrite repeat_length, Nat.sub_diag. reflexivity.
Qed.

Lemma zeros_records page pre k : forall m fuel t, (k <= m)%nat -> (1 <= k)%nat -> (m < fuel)%nat -> forall n, (k <= n)%nat ->
  read_records fuel (pre ++ repeat 0 n) page (len pre + Z.of_nat (n - k)) t = Done (Err ParseError) \/
  read_records fuel (pre ++ repeat 0 n) page (len pre + Z.of_nat (n - k)) t = Done (Err IndexError).
Proof.
  induction k as [k IH] using lt_wf_ind. intros m fuel t Hm Hk Hf n Hn.
  destruct fuel as [|fuel]; [lia|]. cbn [read_records]. pose proof (len_nonneg pre).
  destruct (Z.ltb_spec (len pre + Z.of_nat (n - k)) (len (pre ++ repeat 0 n))) as [_|C];
    [|rewrite len_app, len_repeat in C; lia].
  rewrite pyslice_from_nonneg by lia. rewrite <- zskipn_zskipn by lia. rewrite zskipn_app_len by reflexivity.
  rewrite zskipn_repeat0 by lia. rewrite Nat2Z.id. replace (n - (n - k))%nat with k by lia.
  rewrite zeros_header by lia.
  destruct (Nat.ltb_spec k 4); [left; reflexivity|].
  destruct (Nat.ltb_spec k 9); [right; reflexivity|].
  cbn [rh_size rh_id rh_item rh_parent rh_time].
  destruct (IH (k - 4)%nat ltac:(lia) (m - 1)%nat fuel
    (dict_set 0 (mkrd page (len pre + Z.of_nat (n - k) + 20) 0 0 0 0) t) ltac:(lia) ltac:(lia) ltac:(lia) n ltac:(lia)) as [E|E];
  [left|right]; rewrite <- E; f_equal; lia.
Qed.

Lemma read_records_unused page (l : list srec) k fuel t : Forall sr_ok l -> (1 <= k)%nat -> (length l + k < fuel)%nat ->
  exists e, In e [ParseError; IndexError] /\
    read_records fuel (concat (map sr_bytes l) ++ repeat 0 k) page 0 t = Done (Err e).
Proof.
  intros H Hk Hf. destruct (read_records_ok page (repeat 0 k) l [] fuel t H ltac:(lia)) as (j & -> & E).
  cbn [app] in E. change (len (@nil Z)) with 0 in E. rewrite E. rewrite Z.add_0_l.
  pose proof (zeros_records page (concat (map sr_bytes l)) k k j (dict_of (descs_of page 0 l) t)
    ltac:(lia) Hk ltac:(lia) k ltac:(lia)) as Z0.
  rewrite Nat.sub_diag, Z.add_0_r in Z0. destruct Z0 as [Z0|Z0]; rewrite Z0; eexists; split; [left|reflexivity|right; left|reflexivity]; reflexivity.
Qed.

Lemma read_records_total page d : is_bytes d -> forall fuel off t, 0 <= off ->
  Z.max 0 (len d - off) < Z.of_nat fuel -> read_records fuel d page off t <> OutOfFuel.
Proof.
  intros Hd. induction fuel as [|fuel IH]; intros off t Ho Hf; [lia|].
  cbn [read_records]. destruct (Z.ltb_spec off (len d)) as [H|H]; [|discriminate].
  rewrite pyslice_from_nonneg by lia.
  destruct (read_record_header (zskipn off d)) as [[h n]|e] eqn:E; [|discriminate].
  assert (0 <= rh_size h).
  { unfold read_record_header in E. rewrite map_struct_fields in E. destruct (Z.leb_spec (Z.of_nat (struct_size [FU LE 4])) (len (zskipn off d))); [|discriminate].
    cbn [fields map_field endian_int fsize] in E.
    destruct (read_vint _) as [[a1 b1]|]; [|discriminate]. cbn [bind] in E.
    destruct (pyindex _ _); [|discriminate]. cbn [bind] in E.
    destruct (read_vint _) as [[a2 b2]|]; [|discriminate]. cbn [bind] in E.
    destruct (read_vint _) as [[a3 b3]|]; [|discriminate]. cbn [bind] in E.
    destruct (read_vint _) as [[a4 b4]|]; [|discriminate]. cbn [bind] in E.
    apply (f_equal (fun r => match r with Ok (h, _) => rh_size h | Err _ => 0 end)) in E. cbn [rh_size] in E. rewrite <- E.
    apply le_int_bounds. apply is_bytes_zfirstn, is_bytes_zskipn, Hd. }
  apply IH; lia.
Qed.

(** ** Record pages *)

Lemma len_page_of type size used unc d : len (page_of type size used unc d) = 20 + len d.
Proof. unfold page_of. rewrite !len_app, !len_le_enc. change (len (s2z "2pbd")) with 4. lia. Qed.

Lemma read_page_header_ok content off type size used unc d :
  located content off (page_of type size used unc d) -> u 4 type -> u 4 size -> u 4 used -> u 4 unc ->
  read_page_header content off = Ok (mkph size used type unc).
Proof.
  intros (pre & post & -> & <-) H1 H2 H3 H4. unfold read_page_header.
  replace (page_of type size used unc d ++ post)
    with (enc_struct page_header_layout [VB (s2z "2pbd"); VI size; VI used; VI type; VI unc] ++ d ++ post).
  2:{ unfold page_of. cbn [page_header_layout enc_struct enc_field enc_int]. rewrite app_nil_r, <- !app_assoc. reflexivity. }
  rewrite read_struct_enc; [|unfold page_header_layout; sfields|reflexivity].
  cbn [bind]. rewrite list_eqb_refl. reflexivity.
Qed.

Lemma read_here_page content off type size used unc d n :
  located content off (page_of type size used unc d) -> n = len d -> read_here content (off + 20) n = Ok d.
Proof.
  intros (pre & post & -> & <-) ->. unfold read_here, f_try_read. pose proof (len_nonneg d). pose proof (len_nonneg pre).
  destruct (Z.ltb_spec (len d) (-1)); [lia|]. unfold f_read. cbn [bind fpos fdata].
  destruct (Z.ltb_spec (len d) 0); [lia|]. f_equal.
  rewrite <- zskipn_zskipn by lia. rewrite zskipn_app_len by reflexivity.
  unfold page_of.
  replace ((s2z "2pbd" ++ le_enc 4 size ++ le_enc 4 used ++ le_enc 4 type ++ le_enc 4 unc ++ d) ++ post)
    with ((s2z "2pbd" ++ le_enc 4 size ++ le_enc 4 used ++ le_enc 4 type ++ le_enc 4 unc) ++ d ++ post)
    by (rewrite <- !app_assoc; reflexivity).
  rewrite zskipn_app_len by (rewrite !len_app, !len_le_enc; reflexivity).
  apply zfirstn_app_len. reflexivity.
Qed.

Lemma record_type_ok type : In type [9; 4105; 16393; 20489] ->
  u 4 type /\ existsb (Z.eqb type) [9; 4105; 16393; 20489] = true.
Proof.
  intros H. split.
  - cbn [In] in H. unfold u. change (256 ^ Z.of_nat 4) with 4294967296. lia.
  - apply existsb_exists. exists type. split; [exact H|apply Z.eqb_refl].
Qed.

Lemma record_page_ok fuel lz4 zlib content off data page :
  record_page lz4 zlib data page -> located content off page -> (length content < fuel)%nat ->
  read_record_page fuel lz4 zlib content off = Done (Ok data).
Proof.
  intros H L Hf. unfold read_record_page.
  destruct H as [type used d Ht Hs Hu ->|type used unc d Ht Hs Hu Hc Hp Hh Hz|type used unc blocks contents pad Ht Hu Hc Hp Hne Hb Hl -> Hs].
  - destruct (record_type_ok type Ht) as [U E].
    rewrite (read_page_header_ok _ _ _ _ _ _ _ L U Hs Hu) by (unfold u; change (256 ^ Z.of_nat 4) with 4294967296; lia).
    cbn [ph_type ph_size ph_uncompressed]. rewrite E. cbn [negb].
    rewrite (read_here_page _ _ _ _ _ _ _ _ L) by lia. reflexivity.
  - destruct (record_type_ok type Ht) as [U E].
    rewrite (read_page_header_ok _ _ _ _ _ _ _ L U Hs Hu Hc).
    cbn [ph_type ph_size ph_uncompressed]. rewrite E. cbn [negb].
    rewrite (read_here_page _ _ _ _ _ _ _ _ L) by lia.
    destruct (Z.ltb_spec 0 unc); [|lia]. destruct d as [|b d]; [discriminate|]. injection Hh as ->.
    rewrite pyslice_nonneg by lia. rewrite zskipn_0 by lia.
    assert (N : forall c, list_eqb (zfirstn (4 - 0) (120 :: d)) (98 :: c) = false) by (intros c; reflexivity).
    change (s2z "bv41") with (98 :: [118; 52; 49]). change (s2z "bv4-") with (98 :: [118; 52; 45]). rewrite !N.
    rewrite andb_false_r. cbn. rewrite Hz. reflexivity.
  - destruct (record_type_ok type) as [U E]; [cbn [In] in Ht |- *; tauto|].
    rewrite (read_page_header_ok _ _ _ _ _ _ _ L U Hs Hu Hc).
    cbn [ph_type ph_size ph_uncompressed]. rewrite E. cbn [negb].
    rewrite (read_here_page _ _ _ _ _ _ _ _ L) by lia.
    destruct (Z.ltb_spec 0 unc); [|lia].
    assert (T : negb (Z.land type 4096 =? 0) = true) by (cbn [In] in Ht; destruct Ht as [<-|[<-|[]]]; reflexivity).
    rewrite T. rewrite pyslice_nonneg by lia. rewrite zskipn_0 by lia. change (4 - 0) with 4.
    assert (M : list_eqb (zfirstn 4 (concat (map lz4_stored_bytes blocks) ++ s2z "bv4$" ++ pad)) (s2z "bv41") ||
                list_eqb (zfirstn 4 (concat (map lz4_stored_bytes blocks) ++ s2z "bv4$" ++ pad)) (s2z "bv4-") = true).
    { destruct blocks as [|[us d|d] bs]; [contradiction| |]; reflexivity. }
    rewrite M. cbn [andb].
    assert (Lb : (length blocks <= length content)%nat).
    { destruct L as (pre & post & -> & _). 
      assert (X : forall bs, Z.of_nat (length bs) <= len (concat (map lz4_stored_bytes bs))).
      { induction bs as [|b bs IH]; [cbn; lia|]. cbn [map concat length]. rewrite len_app. pose proof (len_lz4_stored b). lia. }
      specialize (X blocks). pose proof (len_nonneg pre). pose proof (len_nonneg post). pose proof (len_nonneg pad).
      match goal with |- (_ <= length ?c)%nat => assert (Z.of_nat (length blocks) <= len c) end.
      { rewrite !len_app, len_page_of, !len_app, len_bv3. lia. }
      unfold len in *. lia. }
    unfold lz4_page.
    pose proof (lz4_page_blocks lz4 pad blocks contents None [] fuel None [] Hl Hb ltac:(lia)) as P.
    cbn [app] in P. change (len (@nil Z)) with 0 in P. exact P.
Qed.

Lemma read_record_pages_ok lz4 zlib content blocks recs : pages_stored lz4 zlib content blocks recs ->
  forall fuel descs cache, (length content < fuel)%nat -> Forall (fun r => (length r < fuel)%nat) recs ->
  read_record_pages fuel lz4 zlib content blocks descs cache =
  Done (Ok (dict_of (page_descs blocks recs) descs, dict_of (page_cache blocks recs) cache)).
Proof.
  induction 1 as [|b page rs bs rss Hb Hr Hp Hl _ IH]; intros fuel descs cache Hf Hn; [reflexivity|].
  inversion Hn as [|? ? N1 N2]; subst. cbn [read_record_pages].
  rewrite (record_page_ok fuel lz4 zlib content (b * 4096) _ page Hp Hl Hf). cbn [rbind].
  rewrite read_records_done by assumption. cbn [rbind].
  rewrite IH by assumption. cbn [page_descs page_cache]. rewrite dict_of_app. reflexivity.
Qed.

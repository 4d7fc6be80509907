From Verif Require Import Base CoreModel CoreProofs VarModel VarFacts DictModel GzipModel GzipProofs
  BaseFacts BitFacts StructFacts SpotModel SpotSpec SpotProofs SpotRecProofs.

(** ** Values of property pages *)

Lemma map_struct_cstring_ok utf8 ks vs raw t rest : Forall2 fval_ok ks vs -> ~ In 0 raw -> utf8 raw = Some t ->
  map_struct_cstring utf8 ks (enc_struct ks vs ++ raw ++ 0 :: rest) =
  Ok (vs, t, Z.of_nat (struct_size ks) + len raw + 1).
Proof.
  intros H N U. unfold map_struct_cstring. rewrite map_struct_enc by exact H.
  replace (skipn (struct_size ks) (enc_struct ks vs ++ raw ++ 0 :: rest)) with (raw ++ 0 :: rest).
  - rewrite cstring_end_app by exact N. rewrite U. reflexivity.
  - rewrite <- (enc_struct_length ks vs H). rewrite skipn_app, skipn_all, Nat.sub_diag. reflexivity.
Qed.

Lemma attribute_value_ok utf8 values type i p d rest : prop_stored utf8 values type i p d -> type = 17 \/ type = 33 ->
  attribute_value utf8 type (d ++ rest) = Ok (i, p, len d).
Proof.
  intros H T. unfold attribute_value. destruct H as [i vt pt raw key Hi Hv Hp N U|i raw name Hi N U|]; [| |lia].
  - change (17 =? 17) with true. cbv iota.
    replace ((le_enc 4 i ++ le_enc 1 vt ++ le_enc 1 pt ++ raw ++ [0]) ++ rest)
      with (enc_struct [FU LE 4; FU LE 1; FU LE 1] [VI i; VI vt; VI pt] ++ raw ++ 0 :: rest)
      by (cbn [enc_struct enc_field enc_int]; rewrite app_nil_r, <- !app_assoc; reflexivity).
    rewrite (map_struct_cstring_ok utf8 _ _ raw key rest) by (try sfields; assumption).
    do 2 f_equal. rewrite !len_app, !len_le_enc. change (Z.of_nat (struct_size [FU LE 4; FU LE 1; FU LE 1])) with 6.
    change (len [0]) with 1. lia.
  - change (33 =? 17) with false. cbv iota.
    replace ((le_enc 4 i ++ raw ++ [0]) ++ rest)
      with (enc_struct [FU LE 4] [VI i] ++ raw ++ 0 :: rest)
      by (cbn [enc_struct enc_field enc_int]; rewrite app_nil_r, <- !app_assoc; reflexivity).
    rewrite (map_struct_cstring_ok utf8 _ _ raw name rest) by (try sfields; assumption).
    do 2 f_equal. rewrite !len_app, !len_le_enc. change (Z.of_nat (struct_size [FU LE 4])) with 4.
    change (len [0]) with 1. lia.
Qed.

Lemma prop_stored_pos utf8 values type i p d : prop_stored utf8 values type i p d -> 5 <= len d.
Proof.
  intros []; rewrite !len_app, !len_le_enc.
  - pose proof (len_nonneg raw). change (len [0]) with 1. lia.
  - pose proof (len_nonneg raw). change (len [0]) with 1. lia.
  - pose proof (vi_bytes_pos x H0). pose proof (len_nonneg pad). pose proof (len_nonneg (concat (map (le_enc 4) idx))). lia.
Qed.

Lemma read_attribute_values_ok utf8 values type pad kvs pieces : type = 17 \/ type = 33 ->
  Forall2 (fun kv d => prop_stored utf8 values type (fst kv) (snd kv) d) kvs pieces ->
  forall pre fuel t, (length kvs < fuel)%nat ->
  read_attribute_values fuel utf8 type (pre ++ concat pieces ++ pad) (len pre + len (concat pieces)) (len pre) t =
  Done (Ok (dict_of kvs t)).
Proof.
  intros T H. induction H as [|[i p] d kvs pieces Hd Hr IH]; intros pre fuel t Hf; (destruct fuel as [|fuel]; [cbn in Hf; lia|]);
    cbn [read_attribute_values concat].
  - rewrite (len_nil (A := Z)), Z.add_0_r, Z.ltb_irrefl. reflexivity.
  - cbn [fst snd] in Hd. pose proof (prop_stored_pos _ _ _ _ _ _ Hd). pose proof (len_nonneg (concat pieces)).
    pose proof (len_nonneg pre).
    destruct (Z.ltb_spec (len pre) (len pre + len (d ++ concat pieces))) as [_|C]; [|rewrite len_app in C; lia].
    rewrite pyslice_from_nonneg by lia. rewrite zskipn_app_len by reflexivity. rewrite <- app_assoc.
    rewrite (attribute_value_ok utf8 values type i p d _ Hd T).
    specialize (IH (pre ++ d) fuel (dict_set i p t) ltac:(cbn [length] in Hf; lia)).
    rewrite !len_app, <- app_assoc in IH. rewrite len_app. rewrite <- Z.add_assoc in IH. exact IH.
Qed.

Lemma index_names_ok values idx names : Forall2 (named values) idx names -> index_names values idx = names.
Proof.
  induction 1 as [|i n idx names H _ IH]; [reflexivity|]. cbn [index_names map]. unfold index_names in IH. rewrite IH. f_equal.
  unfold named in H. unfold value_name. destruct (dict_get i values) as [[]|]; symmetry; exact H.
Qed.

Lemma index_padding x (pad : bytes) (idx : list Z) : vi_v x = len pad + 4 * len idx -> len pad < 4 ->
  vi_v x mod 4 = len pad /\ (vi_v x - len pad) / 4 = len idx.
Proof.
  intros E H. rewrite E. pose proof (len_nonneg pad). split.
  - rewrite Z.mul_comm, Z.mod_add by lia. apply Z.mod_small. lia.
  - replace (len pad + 4 * len idx - len pad) with (len idx * 4) by lia. apply Z.div_mul. lia.
Qed.

Lemma read_index_values_ok utf8 values pad kvs pieces :
  Forall2 (fun kv d => prop_stored utf8 values 129 (fst kv) (snd kv) d) kvs pieces ->
  forall pre fuel t, (length kvs < fuel)%nat ->
  read_index_values fuel values (pre ++ concat pieces ++ pad) (len pre + len (concat pieces)) (len pre) t =
  Done (Ok (dict_of kvs t)).
Proof.
  intros H. induction H as [|[i p] d kvs pieces Hd Hr IH]; intros pre fuel t Hf; (destruct fuel as [|fuel]; [cbn in Hf; lia|]);
    cbn [read_index_values concat].
  - rewrite (len_nil (A := Z)), Z.add_0_r, Z.ltb_irrefl. reflexivity.
  - cbn [fst snd] in Hd. pose proof (prop_stored_pos _ _ _ _ _ _ Hd). pose proof (len_nonneg (concat pieces)).
    pose proof (len_nonneg pre).
    destruct (Z.ltb_spec (len pre) (len pre + len (d ++ concat pieces))) as [_|C]; [|rewrite len_app in C; lia].
    specialize (IH (pre ++ d) fuel (dict_set i p t) ltac:(cbn [length] in Hf; lia)).
    inversion Hd as [| |i' x pd idx names Hi Hx Hv Hpd Hu Hn]; subst.
    destruct (index_padding x pd idx Hv Hpd) as [M1 M2]. pose proof (vi_bytes_pos x Hx). pose proof (len_nonneg pd).
    rewrite pyslice_from_nonneg by lia. rewrite zskipn_app_len by reflexivity. rewrite <- !app_assoc.
    rewrite map_u32 by exact Hi.
    rewrite pyslice_from_nonneg by lia. rewrite <- zskipn_zskipn by lia. rewrite zskipn_app_len by reflexivity.
    rewrite zskipn_app_len by (rewrite len_le_enc; reflexivity).
    rewrite read_vint_ok by exact Hx. rewrite M1, M2.
    rewrite pyslice_from_nonneg by lia. rewrite <- zskipn_zskipn by lia. rewrite zskipn_app_len by reflexivity.
    replace (zskipn (4 + (len (vi_bytes x) + len pd))
      (le_enc 4 i ++ vi_bytes x ++ pd ++ concat (map (le_enc 4) idx) ++ concat pieces ++ pad))
      with (concat (map (le_enc 4) idx) ++ concat pieces ++ pad).
    2:{ rewrite (app_assoc (vi_bytes x)), (app_assoc (le_enc 4 i)). symmetry. apply zskipn_app_len.
        rewrite !len_app, len_le_enc. lia. }
    rewrite (eq_refl : len idx = Z.of_nat (length idx)), Nat2Z.id. rewrite map_uint32s_enc by exact Hu.
    rewrite (index_names_ok values idx names Hn).
    unfold dict_of in IH. unfold dict_of. cbn [fold_left fst snd]. rewrite <- IH.
    rewrite <- !app_assoc. rewrite !len_app, !len_le_enc, len_concat_enc4. f_equal; unfold len in *; lia.
Qed.

(** ** Property pages *)

Lemma prop_page_data content off type unc next unk data pad :
  located content off (prop_page type unc next unk data pad) -> prop_page_ok type unc next unk data pad ->
  In type [17; 33; 65; 129] ->
  read_page_header content off = Ok (mkph (32 + len data + len pad) (32 + len data) type unc) /\
  read_here content (off + 20) (32 + len data + len pad - 20) = Ok (le_enc 4 next ++ le_enc 8 unk ++ data ++ pad) /\
  existsb (Z.eqb type) [17; 33; 65; 129] = true.
Proof.
  intros L (H1 & H2 & H3 & H4) T. pose proof (len_nonneg data). pose proof (len_nonneg pad).
  split; [|split].
  - apply (read_page_header_ok _ _ _ _ _ _ _ L); try assumption.
    + cbn [In] in T. unfold u. change (256 ^ Z.of_nat 4) with 4294967296. lia.
    + unfold u in *. lia.
  - apply (read_here_page _ _ _ _ _ _ _ _ L). rewrite !len_app, !len_le_enc. lia.
  - apply existsb_exists. exists type. split; [exact T|apply Z.eqb_refl].
Qed.

Lemma next_block next unk rest : u 4 next -> u 8 unk ->
  struct_bs [FU LE 4; FU LE 8] (le_enc 4 next ++ le_enc 8 unk ++ rest) = Ok [VI next; VI unk].
Proof.
  intros H1 H2. unfold struct_bs.
  replace (le_enc 4 next ++ le_enc 8 unk ++ rest) with (enc_struct [FU LE 4; FU LE 8] [VI next; VI unk] ++ rest)
    by (cbn [enc_struct enc_field enc_int]; rewrite app_nil_r, <- !app_assoc; reflexivity).
  rewrite map_struct_enc by sfields. reflexivity.
Qed.

Lemma read_property_page_ok fuel utf8 values content off type unc next unk data pad kvs pieces t :
  located content off (prop_page type unc next unk data pad) -> prop_page_ok type unc next unk data pad ->
  (type = 65 /\ kvs = [] \/
   Forall2 (fun kv d => prop_stored utf8 values type (fst kv) (snd kv) d) kvs pieces /\ data = concat pieces /\
   In type [17; 33; 129]) ->
  (length kvs < fuel)%nat ->
  read_property_page fuel utf8 values content off t = Done (Ok (next, dict_of kvs t)).
Proof.
  intros L O K Hf.
  assert (T : In type [17; 33; 65; 129]) by (destruct K as [[-> _]|(_ & _ & T)]; cbn [In] in *; tauto).
  destruct (prop_page_data _ _ _ _ _ _ _ _ L O T) as (E1 & E2 & E3).
  destruct O as (O1 & O2 & O3 & O4).
  unfold read_property_page. rewrite E1. cbn [ph_type ph_size ph_used]. rewrite E3. cbn [negb]. rewrite E2.
  rewrite next_block by assumption.
  replace (32 + len data - 20) with (12 + len data) by lia.
  destruct K as [[-> ->]|(F & -> & T')]; [reflexivity|].
  assert (P : forall A (f : bytes -> Z -> Z -> A),
    f (le_enc 4 next ++ le_enc 8 unk ++ concat pieces ++ pad) (12 + len (concat pieces)) 12 =
    f ((le_enc 4 next ++ le_enc 8 unk) ++ concat pieces ++ pad) (len (le_enc 4 next ++ le_enc 8 unk) + len (concat pieces)) (len (le_enc 4 next ++ le_enc 8 unk))).
  { intros A f. rewrite <- app_assoc. reflexivity. }
  cbn [In] in T'. destruct T' as [T'|[T'|[T'|[]]]]; subst type.
  - cbn [Z.eqb Pos.eqb orb]. rewrite (P _ (fun d s o => read_attribute_values fuel utf8 17 d s o t)).
    rewrite (read_attribute_values_ok utf8 values 17 pad kvs pieces) by (try assumption; left; reflexivity). reflexivity.
  - cbn [Z.eqb Pos.eqb orb]. rewrite (P _ (fun d s o => read_attribute_values fuel utf8 33 d s o t)).
    rewrite (read_attribute_values_ok utf8 values 33 pad kvs pieces) by (try assumption; right; reflexivity). reflexivity.
  - cbn [Z.eqb Pos.eqb orb]. rewrite (P _ (fun d s o => read_index_values fuel values d s o t)).
    rewrite (read_index_values_ok utf8 values pad kvs pieces) by assumption. reflexivity.
Qed.

Lemma prop_stored_values utf8 values values' type i p d : type <> 129 -> prop_stored utf8 values type i p d -> prop_stored utf8 values' type i p d.
Proof.
  intros N H. destruct H; [apply ps_type|apply ps_value|contradiction N; reflexivity]; assumption.
Qed.

Lemma read_property_pages_ok utf8 values content types block kvs n : prop_chain utf8 values content types block kvs n ->
  incl types [17; 33; 129] -> forall fuel own t, own = false \/ ~ In 129 types -> (n < fuel)%nat ->
  read_property_pages fuel utf8 own values content block t = Done (Ok (dict_of kvs t)).
Proof.
  intros H Ht. induction H as [|block type unc next unk data pad kvs pieces rest n Hb L O K _ IH]; intros fuel own t Ho Hf;
    (destruct fuel as [|fuel]; [lia|]); unfold read_property_pages; cbn [read_property_loop].
  - reflexivity.
  - destruct (Z.eqb_spec (block * 4096) 0); [lia|].
    rewrite (read_property_page_ok _ _ _ _ _ _ _ _ _ _ _ kvs pieces t L O).
    + cbn [rbind]. rewrite dict_of_app. apply IH; [exact Ho|lia].
    + destruct K as [K|(F & E & T)]; [left; exact K|right]. split; [|split; [exact E|exact (Ht _ T)]].
      destruct Ho as [->|No]; [exact F|].
      clear E Hf. induction F as [|kv d l m F _ IHF]; [constructor|]. constructor; [|exact IHF].
      revert F. apply prop_stored_values. intros ->. contradiction.
    + lia.
Qed.

(** A page that refers to itself is read forever. *)
Lemma property_cycle utf8 own values content type unc block unk pad : 0 < block -> In type [17; 33; 65; 129] ->
  located content (block * 4096) (prop_page type unc block unk [] pad) -> prop_page_ok type unc block unk [] pad ->
  forall fuel t, read_property_pages fuel utf8 own values content block t = OutOfFuel.
Proof.
  intros Hb T L O. unfold read_property_pages. induction fuel as [|fuel IH]; intros t; [reflexivity|].
  cbn [read_property_loop]. destruct (Z.eqb_spec (block * 4096) 0); [lia|].
  rewrite (read_property_page_ok _ _ _ _ _ _ _ _ _ _ _ [] [] t L O); [cbn [rbind]; apply IH| |cbn [length]; lia].
  cbn [In] in T. destruct T as [<-|[<-|[<-|[<-|[]]]]]; [right|right|left; split; reflexivity|right];
    (split; [constructor|split; [reflexivity|cbn [In]; tauto]]).
Qed.

(** ** Streams *)

Lemma map_struct_cstring_exact utf8 ks vs d raw t rest : Forall2 fval_ok ks vs -> ~ In 0 raw -> utf8 raw = Some t ->
  d = enc_struct ks vs ++ raw ++ 0 :: rest -> exists n, map_struct_cstring utf8 ks d = Ok (vs, t, n).
Proof. intros H N U ->. eexists. apply map_struct_cstring_ok; assumption. Qed.

Lemma attribute_streams_tail utf8 number (l : list (option prop)) streams :
  number = 1 \/ number = 2 -> Forall2 (stream_stored utf8 number) l streams ->
  forall i t, 0 < i -> attribute_streams utf8 number i streams t = Ok (dict_of (numbered i l) t).
Proof.
  intros Hn H. induction H as [|o s l streams Hs _ IH]; intros i t Hi; cbn [attribute_streams numbered]; [reflexivity|].
  destruct (Z.eqb_spec i 0); [lia|].
  destruct Hs as [x vt pt raw key rest Hx Hv Hp N U E|x raw name rest Hx N U E|number x rest Hx E].
  - rewrite read_vint_ok by exact Hx. cbn [bind]. rewrite len_app, <- E, Z.eqb_refl. cbn [negb].
    pose proof (vi_bytes_pos x Hx). rewrite pyslice_from_nonneg by lia. rewrite zskipn_app_len by reflexivity.
    change (1 =? 1) with true. cbv iota.
    destruct (map_struct_cstring_exact utf8 [FU LE 1; FU LE 1] [VI vt; VI pt] ([vt; pt] ++ raw ++ 0 :: rest) raw key rest) as [sz M].
    + sfields.
    + exact N.
    + exact U.
    + cbn [enc_struct enc_field enc_int]. rewrite app_nil_r, <- !app_assoc.
      assert (Q : forall v, u 1 v -> le_enc 1 v = [v]).
      { intros v Q. cbn [le_enc]. rewrite Z.mod_small by (unfold u in Q; change (256 ^ Z.of_nat 1) with 256 in Q; lia). reflexivity. }
      rewrite !Q by assumption. reflexivity.
    + rewrite M. cbn [bind]. rewrite IH by lia. reflexivity.
  - rewrite read_vint_ok by exact Hx. cbn [bind]. rewrite len_app, <- E, Z.eqb_refl. cbn [negb].
    pose proof (vi_bytes_pos x Hx). rewrite pyslice_from_nonneg by lia. rewrite zskipn_app_len by reflexivity.
    change (2 =? 1) with false. cbv iota.
    destruct (map_struct_cstring_exact utf8 [] [] (raw ++ 0 :: rest) raw name rest) as [sz M];
      [constructor|exact N|exact U|reflexivity|].
    rewrite M. cbn [bind]. rewrite IH by lia. reflexivity.
  - rewrite read_vint_ok by exact Hx. cbn [bind]. rewrite len_app.
    destruct (Z.eqb_spec (len (vi_bytes x) + vi_v x) (len (vi_bytes x) + len rest)); [lia|]. cbn [negb].
    rewrite IH by lia. reflexivity.
Qed.

Lemma attribute_streams_ok utf8 number (l : list (option prop)) first streams :
  number = 1 \/ number = 2 -> Forall2 (stream_stored utf8 number) l streams ->
  attribute_streams utf8 number 0 (first :: streams) [] = Ok (dict_of (numbered 1 l) []).
Proof. intros Hn H. cbn [attribute_streams Z.eqb]. apply attribute_streams_tail; [assumption..|lia]. Qed.

Lemma index_streams_tail values (l : list prop) streams : Forall2 (list_stored values) l streams ->
  forall i t, 0 < i -> index_streams values i streams t = Ok (dict_of (numbered i (map Some l)) t).
Proof.
  intros H. induction H as [|p s l streams Hs _ IH]; intros i t Hi; cbn [index_streams numbered map]; [reflexivity|].
  destruct (Z.eqb_spec i 0); [lia|].
  destruct Hs as [y x pad idx names rest Hy Hx E Hp Hu Hn].
  destruct (index_padding x pad idx E Hp) as [M1 M2].
  pose proof (vi_bytes_pos x Hx). pose proof (vi_bytes_pos y Hy). pose proof (len_nonneg pad).
  rewrite read_vint_ok by exact Hy. cbn [bind]. rewrite pyslice_from_nonneg by lia. rewrite zskipn_app_len by reflexivity.
  rewrite read_vint_ok by exact Hx. cbn [bind]. rewrite M1, M2.
  rewrite pyslice_from_nonneg by lia.
  replace (zskipn (len (vi_bytes y) + len (vi_bytes x) + len pad) (vi_bytes y ++ vi_bytes x ++ pad ++ concat (map (le_enc 4) idx) ++ rest))
    with (concat (map (le_enc 4) idx) ++ rest).
  2:{ rewrite (app_assoc (vi_bytes y)), (app_assoc _ pad). symmetry. apply zskipn_app_len. rewrite !len_app. lia. }
  rewrite (eq_refl : len idx = Z.of_nat (length idx)), Nat2Z.id. rewrite map_uint32s_enc by exact Hu.
  rewrite (index_names_ok values idx names Hn). rewrite IH by lia. reflexivity.
Qed.

Lemma index_streams_ok values (l : list prop) first streams : Forall2 (list_stored values) l streams ->
  index_streams values 0 (first :: streams) [] = Ok (dict_of (numbered 1 (map Some l)) []).
Proof. intros H. cbn [index_streams Z.eqb]. apply index_streams_tail; [assumption|lia]. Qed.

(** ** Map pages *)

Definition map_value_bytes (v : Z * Z * Z) : bytes :=
  le_enc 8 (fst (fst v)) ++ le_enc 4 (snd (fst v)) ++ le_enc 4 (snd v).

Lemma len_map_values (l : list (Z * Z * Z)) : len (concat (map map_value_bytes l)) = 16 * len l.
Proof.
  induction l as [|v l IH]; [reflexivity|]. cbn [map concat]. rewrite len_app, IH, len_cons.
  unfold map_value_bytes. rewrite !len_app, !len_le_enc. lia.
Qed.

Lemma read_map_values_ok (l : list (Z * Z * Z)) : Forall (fun v => u 8 (fst (fst v)) /\ u 4 (snd (fst v)) /\ u 4 (snd v)) l ->
  forall pre post, read_map_values (length l) (pre ++ concat (map map_value_bytes l) ++ post) (len pre) =
    Ok (map (fun v => snd (fst v)) l).
Proof.
  induction 1 as [|[[a b] c] l (H1 & H2 & H3) _ IH]; intros pre post; [reflexivity|].
  cbn [fst snd] in *. cbn [length read_map_values map concat].
  replace (pre ++ (map_value_bytes (a, b, c) ++ concat (map map_value_bytes l)) ++ post)
    with (pre ++ enc_struct map_value_layout [VI a; VI b; VI c] ++ concat (map map_value_bytes l) ++ post).
  2:{ unfold map_value_bytes. cbn [map_value_layout enc_struct enc_field enc_int fst snd].
      rewrite app_nil_r, <- !app_assoc. reflexivity. }
  rewrite read_struct_enc; [|unfold map_value_layout; sfields|reflexivity]. cbn [bind].
  specialize (IH (pre ++ enc_struct map_value_layout [VI a; VI b; VI c]) post). rewrite <- app_assoc in IH.
  rewrite len_app in IH.
  replace (len (enc_struct map_value_layout [VI a; VI b; VI c])) with 16 in IH
    by (cbn [map_value_layout enc_struct enc_field enc_int]; rewrite !len_app, !len_le_enc; reflexivity).
  rewrite IH. reflexivity.
Qed.

Lemma read_map_page_ok sig unk1 unk2 (l : list (Z * Z * Z)) pad pre post : map_page_ok sig unk1 unk2 l pad ->
  read_map_page (pre ++ map_page sig unk1 unk2 l pad ++ post) (len pre) =
  Ok (len (map_page sig unk1 unk2 l pad), map (fun v => snd (fst v)) l).
Proof.
  intros (H1 & H2 & H3 & H4 & H5).
  assert (Ls : len sig = 4) by (destruct H1 as [->| ->]; reflexivity).
  assert (Bs : fval_ok (FB 4) (VB sig)) by (destruct H1 as [->| ->]; (split; [reflexivity|apply is_bytes_forallb; reflexivity])).
  assert (Hn : u 4 (len l)) by (unfold u in *; pose proof (len_nonneg l); pose proof (len_nonneg pad); lia).
  assert (E : map_page sig unk1 unk2 l pad =
    enc_struct map_header_layout [VB sig; VI (20 + 16 * len l + len pad); VI (len l); VI unk1; VI unk2] ++
    concat (map map_value_bytes l) ++ pad).
  { unfold map_page. cbn [map_header_layout enc_struct enc_field enc_int]. rewrite app_nil_r, <- !app_assoc. reflexivity. }
  assert (Lp : len (map_page sig unk1 unk2 l pad) = 20 + 16 * len l + len pad).
  { rewrite E. rewrite !len_app, len_map_values. cbn [map_header_layout enc_struct enc_field enc_int].
    rewrite !len_app, !len_le_enc, Ls, (len_nil (A := Z)). lia. }
  rewrite Lp. unfold read_map_page. rewrite E, <- app_assoc.
  rewrite read_struct_enc; [|unfold map_header_layout; sfields|reflexivity]. cbn [bind].
  assert (G : list_eqb sig (s2z "1mbd") || list_eqb sig (s2z "2mbd") = true) by (destruct H1 as [->| ->]; reflexivity).
  rewrite G. cbn [guard bind].
  rewrite (eq_refl : len l = Z.of_nat (length l)), Nat2Z.id.
  rewrite (app_assoc pre). rewrite <- (app_assoc (concat _)).
  pose proof (read_map_values_ok l H5 (pre ++ enc_struct map_header_layout [VB sig; VI (20 + 16 * len l + len pad); VI (len l); VI unk1; VI unk2]) (pad ++ post)) as M.
  rewrite len_app in M.
  replace (len (enc_struct map_header_layout [VB sig; VI (20 + 16 * len l + len pad); VI (len l); VI unk1; VI unk2])) with 20 in M.
  2:{ cbn [map_header_layout enc_struct enc_field enc_int]. rewrite !len_app, !len_le_enc, Ls. reflexivity. }
  unfold len in M at 1 2 |- *. unfold len in M. rewrite M. reflexivity.
Qed.

Lemma read_map_pages_ok d blocks n : map_stored d blocks n -> forall pre post fuel acc, (n < fuel)%nat ->
  read_map_pages fuel (pre ++ d ++ post) (len pre) (len pre + len d) acc = Done (Ok (acc ++ blocks)).
Proof.
  induction 1 as [|sig unk1 unk2 l pad d blocks n O _ IH]; intros pre post fuel acc Hf;
    (destruct fuel as [|fuel]; [lia|]); cbn [read_map_pages].
  - rewrite (len_nil (A := Z)), Z.add_0_r, Z.ltb_irrefl, app_nil_r. reflexivity.
  - assert (0 < len (map_page sig unk1 unk2 l pad)).
    { unfold map_page. rewrite !len_app, !len_le_enc. pose proof (len_nonneg sig). pose proof (len_nonneg pad).
      match goal with |- context [len (concat ?x)] => pose proof (len_nonneg (concat x)) end. lia. }
    pose proof (len_nonneg d). pose proof (len_nonneg pre).
    destruct (Z.ltb_spec (len pre) (len pre + len (map_page sig unk1 unk2 l pad ++ d))) as [_|C]; [|rewrite len_app in C; lia].
    rewrite <- app_assoc. rewrite read_map_page_ok by exact O.
    specialize (IH (pre ++ map_page sig unk1 unk2 l pad) post fuel (acc ++ map (fun v => snd (fst v)) l) ltac:(lia)).
    rewrite <- !app_assoc, len_app in IH. rewrite len_app. rewrite <- Z.add_assoc in IH. exact IH.
Qed.

(** A page size of 0: the page is read forever. *)
Lemma map_page_zero content off end_ l : off < end_ -> read_map_page content off = Ok (0, l) ->
  forall fuel acc, read_map_pages fuel content off end_ acc = OutOfFuel.
Proof.
  intros H E. induction fuel as [|fuel IH]; intros acc; [reflexivity|]. cbn [read_map_pages].
  destruct (Z.ltb_spec off end_); [|lia]. rewrite E, Z.add_0_r. apply IH.
Qed.

Lemma map_page_size0 pre post unk1 unk2 : u 4 unk1 -> u 4 unk2 ->
  read_map_page (pre ++ (s2z "1mbd" ++ le_enc 4 0 ++ le_enc 4 0 ++ le_enc 4 unk1 ++ le_enc 4 unk2) ++ post) (len pre) = Ok (0, []).
Proof.
  intros H1 H2. unfold read_map_page. assert (H0 : u 4 0) by (unfold u; change (256 ^ Z.of_nat 4) with 4294967296; lia).
  replace (s2z "1mbd" ++ le_enc 4 0 ++ le_enc 4 0 ++ le_enc 4 unk1 ++ le_enc 4 unk2)
    with (enc_struct map_header_layout [VB (s2z "1mbd"); VI 0; VI 0; VI unk1; VI unk2]).
  2:{ cbn [map_header_layout enc_struct enc_field enc_int]. rewrite app_nil_r. reflexivity. }
  rewrite read_struct_enc; [|unfold map_header_layout; sfields|reflexivity]. reflexivity.
Qed.

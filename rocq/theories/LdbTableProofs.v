From Verif Require Import Base BaseFacts CoreModel CoreProofs BitFacts VarModel VarFacts
  StrModel StrFacts LdbModel LdbSpec LdbProofs LdbLogProofs.

(** ** Table blocks *)

Lemma pow256_8 : 256 ^ Z.of_nat 8 = 2 ^ 64. Proof. reflexivity. Qed.

Lemma len_ikey e : len (ikey e) = len (te_key e) + 8.
Proof. unfold ikey. rewrite len_app, len_le_enc. reflexivity. Qed.

Lemma read_entries_ok prev es bs : entries_bytes prev es bs -> forall pre post acc fuel,
  (length es <= fuel)%nat ->
  read_entries fuel (pre ++ bs ++ post) (len pre + len bs) (len pre) prev acc = Done (Ok (acc ++ es)).
Proof.
  induction 1 as [prev|prev e l s b1 b2 b3 bs He Hs1 Hs2 Hsh V1 V2 V3 Hl IH]; intros pre post acc fuel Hf.
  - rewrite len_nil, Z.add_0_r, app_nil_r. destruct fuel; cbn [read_entries]; rewrite Z.ltb_irrefl; reflexivity.
  - cbn [length] in Hf. destruct fuel as [|k]; [lia|]. cbn [read_entries].
    pose proof (vint_len _ _ V1) as L1. pose proof (vint_len _ _ V2) as L2. pose proof (vint_len _ _ V3) as L3.
    set (kp := zskipn s (ikey e)) in *. pose proof (len_nonneg kp). pose proof (len_nonneg bs).
    pose proof (len_nonneg (te_value e)). pose proof (len_nonneg pre).
    set (body := b1 ++ b2 ++ b3 ++ kp ++ te_value e ++ bs).
    assert (Lb : len body = len b1 + len b2 + len b3 + len kp + len (te_value e) + len bs)
      by (unfold body; rewrite !len_app; lia).
    destruct (Z.ltb_spec (len pre) (len pre + len body)) as [_|Hx]; [|lia].
    unfold body at 1. rewrite <- !app_assoc.
    rewrite (read_varint_from pre _ b1 _ _ V1 eq_refl).
    unfold body at 1. rewrite <- !app_assoc. rewrite (app_assoc pre b1).
    rewrite (read_varint_from (pre ++ b1) _ b2 _ _ V2) by (rewrite len_app; reflexivity).
    unfold body at 1. rewrite <- !app_assoc. rewrite (app_assoc pre b1), (app_assoc (pre ++ b1) b2).
    rewrite (read_varint_from ((pre ++ b1) ++ b2) _ b3 _ _ V3) by (rewrite !len_app; reflexivity).
    assert (Lk : len kp = len (ikey e) - s) by (unfold kp; rewrite len_zskipn; lia).
    (* key part *)
    assert (EK : pyslice (pre ++ body ++ post) (len pre + len b1 + len b2 + len b3)
                   (len pre + len b1 + len b2 + len b3 + (len (ikey e) - s)) = kp).
    { unfold body. replace (pre ++ (b1 ++ b2 ++ b3 ++ kp ++ te_value e ++ bs) ++ post)
        with ((pre ++ b1 ++ b2 ++ b3) ++ kp ++ (te_value e ++ bs ++ post)) by (rewrite <- !app_assoc; reflexivity).
      apply pyslice_app_mid; rewrite !len_app; lia. }
    assert (EV : pyslice (pre ++ body ++ post) (len pre + len b1 + len b2 + len b3 + (len (ikey e) - s))
                   (len pre + len b1 + len b2 + len b3 + (len (ikey e) - s) + len (te_value e)) = te_value e).
    { unfold body. replace (pre ++ (b1 ++ b2 ++ b3 ++ kp ++ te_value e ++ bs) ++ post)
        with ((pre ++ b1 ++ b2 ++ b3 ++ kp) ++ te_value e ++ (bs ++ post)) by (rewrite <- !app_assoc; reflexivity).
      apply pyslice_app_mid; rewrite !len_app; lia. }
    rewrite EK.
    assert (Ekey : (if 0 <? s
                    then (pyslice_to prev s ++ kp, len (ikey e) - s + s)
                    else (kp, len (ikey e) - s)) = (ikey e, len (ikey e))).
    { destruct (Z.ltb_spec 0 s).
      - rewrite pyslice_to_nonneg by lia. rewrite Hsh. unfold kp. rewrite zfirstn_zskipn.
        f_equal; lia.
      - unfold kp. assert (s = 0) as -> by lia. rewrite zskipn_0 by lia. f_equal; lia. }
    rewrite Ekey. pose proof (len_ikey e) as Lik. pose proof (len_nonneg (te_key e)).
    destruct (Z.ltb_spec (len (ikey e)) 8); [lia|].
    destruct He as [Hseq Hty]. unfold is_byte in Hty.
    assert (EF : pyslice_from (ikey e) (-8) = le_enc 8 (te_seq e * 256 + te_type e))
      by (apply (pyslice_from_neg (te_key e) _ 8); [lia|apply len_le_enc]).
    assert (ET : pyslice_to (ikey e) (-8) = te_key e)
      by (apply (pyslice_to_neg (te_key e) _ 8); [lia|apply len_le_enc]).
    rewrite EF, ET.
    assert (Ebs : struct_bs [FU LE 8] (le_enc 8 (te_seq e * 256 + te_type e)) =
                  Ok [VI (te_seq e * 256 + te_type e)]).
    { pose proof (struct_bs_enc [FU LE 8] [VI (te_seq e * 256 + te_type e)] []) as B.
      cbn [enc_struct enc_field enc_int] in B. rewrite !app_nil_r in B. apply B; [|cbn; lia].
      fvals; lia. }
    rewrite Ebs.
    rewrite EV.
    replace (Z.shiftr (te_seq e * 256 + te_type e) 8) with (te_seq e)
      by (rewrite Z.shiftr_div_pow2 by lia; change (2 ^ 8) with 256; lia).
    replace (Z.land (te_seq e * 256 + te_type e) 255) with (te_type e)
      by (rewrite (land_mask _ 8) by lia; change (2 ^ 8) with 256; lia).
    replace (mkte (te_key e) (te_seq e) (te_type e) (te_value e)) with e by (destruct e; reflexivity).
    replace (pre ++ body ++ post) with ((pre ++ b1 ++ b2 ++ b3 ++ kp ++ te_value e) ++ bs ++ post)
      by (unfold body; rewrite <- !app_assoc; reflexivity).
    replace (len pre + len b1 + len b2 + len b3 + (len (ikey e) - s) + len (te_value e))
      with (len (pre ++ b1 ++ b2 ++ b3 ++ kp ++ te_value e)) by (rewrite !len_app; lia).
    replace (len pre + len body) with (len (pre ++ b1 ++ b2 ++ b3 ++ kp ++ te_value e) + len bs)
      by (rewrite !len_app; lia).
    rewrite IH by lia. rewrite <- app_assoc. reflexivity.
Qed.

Lemma entries_bytes_length prev es bs : entries_bytes prev es bs -> (length es <= length bs)%nat.
Proof.
  induction 1 as [prev|prev e l s b1 b2 b3 bs He Hs1 Hs2 Hsh V1 V2 V3 Hl IH]; [cbn; lia|].
  apply vint_len in V1. unfold len in V1. rewrite !app_length. cbn [length]. lia.
Qed.

Lemma len_concat_le4 l : len (concat (map (le_enc 4) l)) = 4 * len l.
Proof.
  induction l as [|x l IH]; cbn [map concat]; [reflexivity|]. rewrite len_app, len_le_enc, len_cons, IH. lia.
Qed.

Lemma read_table_data_ok es rs bs fuel :
  block_bytes es rs bs -> (length bs <= fuel)%nat -> read_table_data fuel bs = Done (Ok es).
Proof.
  intros (Hne & Hlt & body & Hb & ->) Hf. unfold read_table_data.
  rewrite app_assoc.
  assert (EF : pyslice_from ((body ++ concat (map (le_enc 4) rs)) ++ le_enc 4 (len rs)) (-4) = le_enc 4 (len rs))
    by (apply (pyslice_from_neg _ _ 4); [lia|apply len_le_enc]).
  rewrite EF.
  pose proof (struct_bs_enc [FU LE 4] [VI (len rs)] []) as B.
  cbn [enc_struct enc_field enc_int] in B. rewrite !app_nil_r in B.
  assert (L0 : 0 <= len rs) by apply len_nonneg.
  rewrite B; [|fvals; lia|cbn; lia]. clear B.
  set (R := concat (map (le_enc 4) rs)).
  assert (LR : len R = 4 * len rs) by apply len_concat_le4.
  assert (Lall : len ((body ++ R) ++ le_enc 4 (len rs)) - 4 - 4 * len rs = len body).
  { rewrite !len_app, len_le_enc, LR. lia. }
  rewrite Lall. rewrite <- app_assoc. rewrite pyslice_from_app by reflexivity.
  destruct (Z.ltb_spec (len (R ++ le_enc 4 (len rs))) (4 * len rs)) as [Hx|_].
  { rewrite len_app, len_le_enc, LR in Hx. lia. }
  pose proof (read_entries_ok [] es body Hb [] (R ++ le_enc 4 (len rs)) [] fuel) as E.
  cbn [app] in E. rewrite len_nil in E. apply E.
  apply entries_bytes_length in Hb. rewrite !app_length in Hf. lia.
Qed.

Lemma read_block_ok snappy zstd content off size bs :
  stored_block snappy zstd content off size bs -> read_block snappy zstd content off size = Ok bs.
Proof.
  intros (pre & stored & t & crc & post & -> & -> & -> & Hc & Ht). unfold read_block. change (le_enc 1 t ++ le_enc 4 crc ++ post) with (enc_struct block_trailer [VI t; VI crc] ++ post).
  rewrite read_at_app by reflexivity. cbn [bind]. rewrite Z.eqb_refl. cbn [guard bind].
  rewrite app_assoc. rewrite read_struct_enc.
  - cbn [bind]. destruct Ht as [[-> ->]|[[-> E]|[-> E]]]; [reflexivity|exact E|exact E].
  - unfold block_trailer. fvals; lia.
  - rewrite len_app. reflexivity.
Qed.

Lemma read_table_ok snappy zstd content off size bs es rs fuel :
  stored_block snappy zstd content off size bs -> block_bytes es rs bs -> (length bs <= fuel)%nat ->
  read_table fuel snappy zstd content off size = Done (Ok es).
Proof.
  intros Hs Hb Hf. unfold read_table. rewrite (read_block_ok _ _ _ _ _ _ Hs).
  eapply read_table_data_ok; eauto.
Qed.

Lemma read_block_handle_ok o s b1 b2 rest :
  vint o b1 -> vint s b2 -> read_block_handle (b1 ++ b2 ++ rest) = Ok (o, s, len b1 + len b2).
Proof.
  intros H1 H2. unfold read_block_handle. rewrite (read_varint_vint _ _ _ H1). cbn [bind].
  rewrite pyslice_from_app by reflexivity. rewrite (read_varint_vint _ _ _ H2). reflexivity.
Qed.

(** Reading succeeds with every sufficient fuel. *)
Lemma read_entries_mono td e : forall fuel fuel' off sk acc r,
  read_entries fuel td e off sk acc = Done r -> (fuel <= fuel')%nat ->
  read_entries fuel' td e off sk acc = Done r.
Proof.
  induction fuel as [|k IH]; intros fuel' off sk acc r H Hf.
  - cbn [read_entries] in H. destruct fuel'; cbn [read_entries]; destruct (off <? e); congruence.
  - destruct fuel' as [|k']; [lia|]. cbn [read_entries] in *.
    destruct (off <? e); [|exact H].
    destruct (read_varint _) as [[x1 n1]|]; [|exact H].
    destruct (read_varint (pyslice_from td (off + n1))) as [[x2 n2]|]; [|exact H].
    destruct (read_varint (pyslice_from td (off + n1 + n2))) as [[x3 n3]|]; [|exact H].
    destruct (if 0 <? x1 then _ else _) as [kd ks]. destruct (ks <? 8); [exact H|].
    destruct (struct_bs _ _) as [[|[z|] [|]]|]; try exact H.
    eapply IH; [exact H|lia].
Qed.

(** The index and the data blocks. *)
Lemma read_data_blocks_ok snappy zstd content index blocks :
  Forall2 (data_block snappy zstd content) index blocks ->
  exists fuel0, forall fuel, (fuel0 <= fuel)%nat ->
  read_data_blocks fuel snappy zstd content index = Done (Ok (concat blocks, None)).
Proof.
  induction 1 as [|ix es index blocks Hb HF [f0 IH]].
  - exists 0%nat. reflexivity.
  - destruct Hb as (off & size & rs & bs & (b1 & b2 & rest & V1 & V2 & Ev) & Hbl & Hst).
    exists (Nat.max f0 (length bs)). intros fuel Hf. cbn [read_data_blocks]. rewrite Ev.
    rewrite (read_block_handle_ok _ _ _ _ _ V1 V2).
    rewrite (read_table_ok _ _ _ _ _ _ _ _ fuel Hst Hbl) by lia.
    rewrite IH by lia. reflexivity.
Qed.

Lemma read_footer_ok pre b1 b2 b3 b4 pad mo ms io is :
  vint mo b1 -> vint ms b2 -> vint io b3 -> vint is b4 ->
  len (b1 ++ b2 ++ b3 ++ b4 ++ pad) = 40 -> is_bytes (b1 ++ b2 ++ b3 ++ b4 ++ pad) ->
  read_footer (pre ++ (b1 ++ b2 ++ b3 ++ b4 ++ pad) ++ table_signature) = Ok ((mo, ms), (io, is)).
Proof.
  intros V1 V2 V3 V4 L40 Hb. unfold read_footer.
  set (d := b1 ++ b2 ++ b3 ++ b4 ++ pad) in *.
  replace (pre ++ d ++ table_signature) with (pre ++ enc_struct table_footer [VB d; VB table_signature] ++ [])
    by (cbn [enc_struct enc_field table_footer]; rewrite !app_nil_r; reflexivity).
  rewrite read_struct_enc.
  - cbn [bind]. rewrite list_eqb_refl. cbn [guard bind]. unfold d at 1.
    rewrite (read_block_handle_ok _ _ _ _ _ V1 V2). cbn [bind]. unfold d.
    rewrite app_assoc. rewrite pyslice_from_app by (rewrite len_app; reflexivity).
    rewrite (read_block_handle_ok _ _ _ _ _ V3 V4). reflexivity.
  - unfold table_footer. unfold len in L40. repeat apply Forall2_cons; [| |constructor].
    + cbn [fval_ok]. split; [lia|exact Hb].
    + cbn [fval_ok]. split; [reflexivity|]. apply is_bytes_forallb. reflexivity.
  - cbn [enc_struct enc_field table_footer]. rewrite !app_nil_r, !len_app, L40.
    change (len table_signature) with 8. lia.
Qed.

Lemma table_file_ok snappy zstd content blocks :
  table_file snappy zstd content blocks ->
  exists ix fuel0, table_open content = Ok ix /\
  forall fuel, (fuel0 <= fuel)%nat ->
  read_table_entries fuel snappy zstd content ix = Done (Ok (concat blocks, None)).
Proof.
  intros (index & io & is & rs & ibs & mo & ms & b1 & b2 & b3 & b4 & pad & pre & HF & Hib & Hist &
          Hmo & Hms & Hin & V1 & V2 & V3 & V4 & L40 & Hb & E).
  destruct (read_data_blocks_ok _ _ _ _ _ HF) as [f0 H0].
  exists (io, is), (Nat.max f0 (length ibs)). split.
  - unfold table_open. rewrite E at 1. rewrite (read_footer_ok _ _ _ _ _ _ _ _ _ _ V1 V2 V3 V4 L40 Hb).
    cbn [bind]. unfold read_at. destruct (Z.ltb_spec mo 0); [lia|]. destruct (Z.ltb_spec ms 0); [lia|].
    cbn [bind]. rewrite len_zfirstn, len_zskipn.
    destruct (Z.eqb_spec (Z.min (Z.max 0 ms) (Z.max 0 (len content - Z.max 0 mo))) ms); [reflexivity|lia].
  - intros fuel Hf. unfold read_table_entries. cbn [fst snd].
    rewrite (read_table_ok _ _ _ _ _ _ _ _ fuel Hist Hib) by lia. apply H0. lia.
Qed.

(** A table block whose trailer names another compression is refused. *)
Lemma read_block_method snappy zstd pre stored t crc post :
  0 <= crc < 2 ^ 32 -> 3 <= t < 256 ->
  read_block snappy zstd (pre ++ stored ++ le_enc 1 t ++ le_enc 4 crc ++ post)
    (len pre) (len stored) = Err ParseError.
Proof.
  intros Hc Ht. unfold read_block. change (le_enc 1 t ++ le_enc 4 crc ++ post) with (enc_struct block_trailer [VI t; VI crc] ++ post).
  rewrite read_at_app by reflexivity. cbn [bind]. rewrite Z.eqb_refl. cbn [guard bind].
  rewrite app_assoc. rewrite read_struct_enc.
  - cbn [bind]. destruct (Z.eqb_spec t 0); [lia|]. destruct (Z.eqb_spec t 1); [lia|].
    destruct (Z.eqb_spec t 2); [lia|]. reflexivity.
  - unfold block_trailer. fvals; lia.
  - rewrite len_app. reflexivity.
Qed.

(** Termination of the table reader. *)
Lemma read_entries_terminates td e : forall fuel off sk acc, 0 <= off ->
  (Z.to_nat (e - off) <= fuel)%nat -> read_entries fuel td e off sk acc <> OutOfFuel.
Proof.
  induction fuel as [|k IH]; intros off sk acc Ho Hf; cbn [read_entries];
    destruct (Z.ltb_spec off e); try discriminate; [lia|].
  destruct (read_varint _) as [[x1 n1]|] eqn:E1; [|discriminate].
  destruct (read_varint (pyslice_from td (off + n1))) as [[x2 n2]|] eqn:E2; [|discriminate].
  destruct (read_varint (pyslice_from td (off + n1 + n2))) as [[x3 n3]|] eqn:E3; [|discriminate].
  apply read_varint_bounds in E1, E2, E3.
  destruct (if 0 <? x1 then _ else _) as [kd ks]. destruct (ks <? 8); [discriminate|].
  destruct (struct_bs _ _) as [[|[z|] [|]]|]; try discriminate. apply IH; lia.
Qed.

Lemma struct_bs_u32_nonneg d vs : is_bytes d -> struct_bs [FU LE 4] d = Ok vs -> exists n, vs = [VI n] /\ 0 <= n.
Proof.
  intros Hb. unfold struct_bs. destruct d as [|b d]; [discriminate|].
  destruct (map_struct [FU LE 4] (b :: d)) as [vs'|] eqn:E; [|discriminate]. injection 1 as <-.
  apply map_struct_vals in E; [|exact Hb|repeat constructor]. destruct E as [F _].
  destruct vs' as [|v vs']; [inversion F|]. apply Forall2_cons_iff in F. destruct F as [F F2].
  destruct vs'; [|inversion F2]. destruct v as [z|]; cbn [fval_ok] in F; [|contradiction].
  exists z. split; [reflexivity|lia].
Qed.

Lemma read_table_data_terminates td fuel : is_bytes td -> (length td <= fuel)%nat ->
  read_table_data fuel td <> OutOfFuel.
Proof.
  intros Hb Hf. unfold read_table_data.
  destruct (struct_bs _ _) as [vs|] eqn:E; [|discriminate].
  apply struct_bs_u32_nonneg in E; [|unfold pyslice_from; apply is_bytes_zskipn; exact Hb].
  destruct E as (n & -> & Hn).
  destruct (_ <? 4 * n); [discriminate|]. apply read_entries_terminates; [lia|]. unfold len. lia.
Qed.

(** ** IndexedDB keys *)

Lemma znth_error_app_len {A} (a : list A) x b i : i = len a -> znth_error (a ++ x :: b) i = Some x.
Proof.
  intros ->. pose proof (len_nonneg a). rewrite znth_error_nth by lia. unfold len. rewrite Nat2Z.id.
  rewrite nth_error_app2 by lia. rewrite Nat.sub_diag. reflexivity.
Qed.

Lemma pyindex_app {A} (a : list A) x b i : i = len a -> pyindex (a ++ x :: b) i = Ok x.
Proof.
  intros ->. unfold pyindex. pose proof (len_nonneg a).
  destruct (Z.ltb_spec (len a) 0); [lia|]. destruct (Z.ltb_spec (len a) 0); [lia|].
  rewrite znth_error_app_len by reflexivity. reflexivity.
Qed.

Lemma pyindex_past {A} (a : list A) i : len a <= i -> pyindex a i = Err IndexError.
Proof.
  intros H. unfold pyindex. pose proof (len_nonneg a).
  destruct (Z.ltb_spec i 0); [lia|]. destruct (Z.ltb_spec i 0); [lia|].
  rewrite znth_error_nth by lia.
  destruct (nth_error a (Z.to_nat i)) eqn:E; [|reflexivity].
  assert (Z.to_nat i < length a)%nat by (apply nth_error_Some; congruence). unfold len in H. lia.
Qed.

Lemma pyindex_ok_lt {A} (a : list A) i x : 0 <= i -> pyindex a i = Ok x -> i < len a.
Proof.
  intros Hi H. destruct (Z.ltb_spec i (len a)); [assumption|]. rewrite pyindex_past in H by lia. discriminate.
Qed.

Lemma read_id_ok n : forall v pre rest shift acc,
  0 <= v < 256 ^ Z.of_nat n -> 0 <= shift -> 0 <= acc < 2 ^ shift ->
  read_id n (pre ++ le_enc n v ++ rest) (len pre) shift acc = Ok (acc + v * 2 ^ shift, len pre + Z.of_nat n).
Proof.
  induction n as [|n IH]; intros v pre rest shift acc Hv Hs Ha; cbn [read_id le_enc].
  - change (256 ^ Z.of_nat 0) with 1 in Hv. assert (v = 0) as -> by lia. f_equal. f_equal; lia.
  - cbn [app]. rewrite pyindex_app by reflexivity. cbn [bind].
    rewrite pow256_succ in Hv.
    replace (pre ++ v mod 256 :: le_enc n (v / 256) ++ rest)
      with ((pre ++ [v mod 256]) ++ le_enc n (v / 256) ++ rest) by (rewrite <- app_assoc; reflexivity).
    replace (len pre + 1) with (len (pre ++ [v mod 256])) by (rewrite len_app; reflexivity).
    rewrite lor_add_shift by lia.
    assert (P8 : 2 ^ (shift + 8) = 256 * 2 ^ shift) by (rewrite Z.pow_add_r by lia; change (2 ^ 8) with 256; lia).
    rewrite IH; [|lia|lia|].
    + rewrite P8. f_equal. f_equal.
      * assert (v = 256 * (v / 256) + v mod 256) by (apply Z.div_mod; lia). nia.
      * rewrite len_app, len_cons, len_nil. lia.
    + rewrite P8. assert (0 <= v mod 256 < 256) by (apply Z.mod_pos_bound; lia). nia.
Qed.

Lemma pyindex_error {A} (a : list A) i e : pyindex a i = Err e -> e = IndexError.
Proof.
  unfold pyindex. intros H. destruct ((if i <? 0 then i + len a else i) <? 0); [congruence|].
  destruct (znth_error _ _); congruence.
Qed.

Lemma read_id_error n : forall data off shift acc e, read_id n data off shift acc = Err e -> e = IndexError.
Proof.
  induction n as [|n IH]; intros data off shift acc e; cbn [read_id]; [discriminate|].
  destruct (pyindex data off) eqn:E; cbn [bind]; [apply IH|].
  injection 1 as <-. eapply pyindex_error; exact E.
Qed.

Lemma read_id_bounds n : forall data off shift acc v o, 0 <= off -> read_id n data off shift acc = Ok (v, o) ->
  o = off + Z.of_nat n /\ (n = 0%nat \/ o <= len data).
Proof.
  induction n as [|n IH]; intros data off shift acc v o Ho; cbn [read_id].
  - intros H. assert (o = off) by congruence. split; [lia|auto].
  - destruct (pyindex data off) as [b|] eqn:E; cbn [bind]; [|discriminate].
    intros H. apply IH in H; [|lia]. apply pyindex_ok_lt in E; [|lia].
    destruct H as [-> H]. split; [lia|]. right. destruct H as [->|H]; lia.
Qed.

(** The sizes in the first byte. *)
Lemma prefix_byte nd no ni :
  (1 <= nd <= 8)%nat -> (1 <= no <= 8)%nat -> (1 <= ni <= 4)%nat ->
  let b := Z.of_nat (nd - 1) * 32 + Z.of_nat (no - 1) * 4 + Z.of_nat (ni - 1) in
  0 <= b < 256 /\ Z.to_nat (Z.shiftr b 5 + 1) = nd /\ Z.to_nat (Z.shiftr (Z.land b 31) 2 + 1) = no /\
  Z.to_nat (Z.land b 3 + 1) = ni.
Proof.
  intros H1 H2 H3 b. rewrite (land_mask b 5 31) by lia. rewrite (land_mask b 2 3) by lia.
  rewrite !Z.shiftr_div_pow2 by lia. change (2 ^ 5) with 32. change (2 ^ 2) with 4.
  unfold b. repeat split; lia.
Qed.

Lemma len_key_prefix nd no ni d o i : len (key_prefix nd no ni d o i) = 1 + Z.of_nat nd + Z.of_nat no + Z.of_nat ni.
Proof. unfold key_prefix. rewrite !len_app, !len_le_enc, len_cons, len_nil. lia. Qed.

Lemma read_key_prefix_ok nd no ni d o i rest : prefix_ok nd no ni d o i ->
  read_key_prefix (key_prefix nd no ni d o i ++ rest) = Ok (d, o, i, len (key_prefix nd no ni d o i)).
Proof.
  intros (H1 & H2 & H3 & Hd & Ho & Hi). rewrite len_key_prefix. unfold key_prefix, read_key_prefix.
  destruct (prefix_byte nd no ni H1 H2 H3) as (Hb & S1 & S2 & S3).
  set (b := Z.of_nat (nd - 1) * 32 + Z.of_nat (no - 1) * 4 + Z.of_nat (ni - 1)) in *. clearbody b.
  rewrite <- !app_assoc.
  assert (E0 : forall x, pyindex ([b] ++ x) 0 = Ok b) by (intros x; apply (pyindex_app [] b x 0 eq_refl)).
  rewrite E0. cbn [bind]. rewrite S1, S2, S3.
  change 1 with (len [b]) at 1.
  rewrite read_id_ok by (cbn; lia). cbn [bind].
  rewrite (app_assoc [b]). replace (len [b] + Z.of_nat nd) with (len ([b] ++ le_enc nd d))
    by (rewrite len_app, len_le_enc; reflexivity).
  rewrite read_id_ok by (cbn; lia). cbn [bind].
  rewrite (app_assoc ([b] ++ le_enc nd d)).
  replace (len ([b] ++ le_enc nd d) + Z.of_nat no) with (len (([b] ++ le_enc nd d) ++ le_enc no o))
    by (rewrite (len_app ([b] ++ le_enc nd d)), len_le_enc; reflexivity).
  rewrite read_id_ok by (cbn; lia). cbn [bind].
  replace (len (([b] ++ le_enc nd d) ++ le_enc no o)) with (1 + Z.of_nat nd + Z.of_nat no)
    by (unfold len; rewrite !app_length, !le_enc_length; cbn [length]; lia).
  change (2 ^ 0) with 1.
  repeat (f_equal; try lia).
Qed.

Lemma read_key_prefix_error data e : read_key_prefix data = Err e -> e = IndexError.
Proof.
  unfold read_key_prefix, pyindex. change (0 <? 0) with false. cbn iota. change (0 <? 0) with false. cbn iota.
  destruct (znth_error data 0) as [b|]; cbn [bind]; [|injection 1 as <-; reflexivity].
  destruct (read_id _ data 1 0 0) as [[v1 o1]|] eqn:E1; cbn [bind]; [|injection 1 as <-; eapply read_id_error; eauto].
  destruct (read_id _ data o1 0 0) as [[v2 o2]|] eqn:E2; cbn [bind]; [|injection 1 as <-; eapply read_id_error; eauto].
  destruct (read_id _ data o2 0 0) as [[v3 o3]|] eqn:E3; cbn [bind]; [discriminate|].
  injection 1 as <-; eapply read_id_error; eauto.
Qed.

(** The number of bytes read is fixed by the first byte and inside the data. *)
Lemma read_key_prefix_bounds b rest d o i n : 0 <= b < 256 ->
  read_key_prefix (b :: rest) = Ok (d, o, i, n) ->
  n = 4 + b / 32 + (b mod 32) / 4 + b mod 4 /\ n <= len (b :: rest).
Proof.
  intros Hb. unfold read_key_prefix. change (pyindex (b :: rest) 0) with (@Ok Z b). cbn [bind].
  rewrite (land_mask b 5 31) by lia. rewrite (land_mask b 2 3) by lia.
  rewrite !Z.shiftr_div_pow2 by lia. change (2 ^ 5) with 32. change (2 ^ 2) with 4.
  destruct (read_id _ (b :: rest) 1 0 0) as [[v1 o1]|] eqn:E1; cbn [bind]; [|discriminate].
  apply read_id_bounds in E1; [|lia]. destruct E1 as [-> B1].
  destruct (read_id (Z.to_nat (b mod 32 / 4 + 1)) (b :: rest) _ 0 0) as [[v2 o2]|] eqn:E2; cbn [bind]; [|discriminate].
  apply read_id_bounds in E2; [|lia]. destruct E2 as [-> B2].
  destruct (read_id _ (b :: rest) _ 0 0) as [[v3 o3]|] eqn:E3; cbn [bind]; [|discriminate].
  apply read_id_bounds in E3; [|lia]. destruct E3 as [-> B3].
  intros H. match type of H with Ok (_, _, _, ?x) = _ => assert (n = x) by congruence end.
  assert (0 <= b / 32 < 8) by lia. assert (0 <= b mod 32 / 4 < 8) by lia. assert (0 <= b mod 4 < 4) by lia.
  rewrite !Z2Nat.id in * by lia. split; [lia|]. destruct B3 as [B3|B3]; lia.
Qed.

Lemma read_key_prefix_truncated nd no ni d o i m : prefix_ok nd no ni d o i ->
  0 <= m < len (key_prefix nd no ni d o i) ->
  read_key_prefix (zfirstn m (key_prefix nd no ni d o i)) = Err IndexError.
Proof.
  intros (H1 & H2 & H3 & _) Hm. rewrite len_key_prefix in Hm.
  pose proof (len_key_prefix nd no ni d o i) as L.
  destruct (prefix_byte nd no ni H1 H2 H3) as (Hb & S1 & S2 & S3).
  destruct (Z.eqb_spec m 0) as [->|Hm0]; [rewrite zfirstn_0 by lia; reflexivity|].
  destruct (read_key_prefix (zfirstn m (key_prefix nd no ni d o i))) as [[[[d' o'] i'] n]|e] eqn:E.
  - exfalso. assert (Lz : len (zfirstn m (key_prefix nd no ni d o i)) = m) by (rewrite len_zfirstn; lia).
    unfold key_prefix in E, Lz. cbn [app zfirstn] in E, Lz. destruct (Z.leb_spec m 0); [lia|].
    apply read_key_prefix_bounds in E; [|exact Hb]. rewrite Lz in E.
    rewrite (land_mask _ 5 31) in S2 by lia. rewrite (land_mask _ 2 3) in S3 by lia.
    rewrite !Z.shiftr_div_pow2 in * by lia. change (2 ^ 5) with 32 in *. change (2 ^ 2) with 4 in *.
    lia.
  - apply read_key_prefix_error in E. congruence.
Qed.

(** ** Key segments identify the key *)

Fixpoint compat (a b : list Z) : bool :=
  match a, b with
  | x :: a', y :: b' => (x =? y) && compat a' b'
  | _, _ => true
  end.

Lemma compat_app a : forall b x y, a ++ x = b ++ y -> compat a b = true.
Proof.
  induction a as [|c a IH]; intros [|d b] x y E; try reflexivity.
  cbn [app] in E. cbn [compat]. assert (c = d) as -> by congruence.
  rewrite Z.eqb_refl. cbn [andb]. eapply IH. assert (E2 := f_equal (@tl Z) E). exact E2.
Qed.

Lemma repr_prefix_free q c c' : q = 34 \/ q = 39 -> is_byte c -> is_byte c' ->
  compat (repr_char q c) (repr_char q c') = true -> c = c'.
Proof.
  intros Hq Hc Hc' H.
  assert (A : forall x, 0 <= x < 256 ->
            forallb (fun y => implb (compat (repr_char q x) (repr_char q y)) (x =? y)) (map Z.of_nat (seq 0 256)) = true).
  { apply byte_forall. destruct Hq; subst q; vm_compute; reflexivity. }
  specialize (A c Hc). pose proof (byte_forall _ A c' Hc') as B. cbn beta in B.
  rewrite H in B. cbn [implb] in B. lia.
Qed.

Lemma repr_head q c : q = 34 \/ q = 39 -> is_byte c -> forall x y, repr_char q c ++ x <> q :: y.
Proof.
  intros Hq Hc x y E. apply (compat_app _ [q]) in E.
  assert (A : compat (repr_char q c) [q] = false).
  { apply negb_true_iff. apply (byte_forall (fun c => negb (compat (repr_char q c) [q]))); [|exact Hc].
    destruct Hq; subst q; vm_compute; reflexivity. }
  congruence.
Qed.

Lemma repr_body_inj q : q = 34 \/ q = 39 -> forall a b, is_bytes a -> is_bytes b ->
  concat (map (repr_char q) a) ++ [q] = concat (map (repr_char q) b) ++ [q] -> a = b.
Proof.
  intros Hq. induction a as [|c a IH]; intros [|d b] Ha Hb E; cbn [map concat] in E.
  - reflexivity.
  - exfalso. cbn [app] in E. symmetry in E. rewrite <- app_assoc in E.
    eapply repr_head; [exact Hq|eapply Forall_inv; exact Hb|exact E].
  - exfalso. cbn [app] in E. rewrite <- app_assoc in E.
    eapply repr_head; [exact Hq|eapply Forall_inv; exact Ha|exact E].
  - rewrite <- !app_assoc in E.
    assert (c = d) as ->.
    { apply (repr_prefix_free q); [exact Hq|eapply Forall_inv; exact Ha|eapply Forall_inv; exact Hb|].
      eapply compat_app; exact E. }
    apply app_inv_head in E. f_equal. apply IH; [eapply Forall_inv_tail; exact Ha|eapply Forall_inv_tail; exact Hb|exact E].
Qed.

Lemma bytes_repr_inj a b : is_bytes a -> is_bytes b -> bytes_repr a = bytes_repr b -> a = b.
Proof.
  intros Ha Hb. unfold bytes_repr.
  set (qa := if _ && _ then 34 else 39). set (qb := if has_char 39 b && _ then 34 else 39).
  assert (Hq : qa = 34 \/ qa = 39) by (unfold qa; destruct (_ && _); auto).
  cbn [app]. intros E. assert (Eq : qa = qb) by congruence. rewrite <- Eq in E.
  apply (repr_body_inj qa Hq a b Ha Hb). assert (E2 := f_equal (@tl Z) E). exact E2.
Qed.

Lemma fmt_d_inj a b : 0 <= a -> 0 <= b -> fmt_d a = fmt_d b -> a = b.
Proof. intros Ha Hb. unfold fmt_d. apply fmt_int_inj; lia. Qed.

Lemma smallest_unique n m v : (1 <= n)%nat -> (1 <= m)%nat ->
  0 <= v < 256 ^ Z.of_nat n -> 0 <= v < 256 ^ Z.of_nat m -> smallest n v -> smallest m v -> n = m.
Proof.
  unfold smallest. intros Hn Hm Bn Bm Sn Sm.
  destruct (Nat.lt_trichotomy n m) as [H|[H|H]]; [|exact H|]; exfalso.
  - destruct Sm as [->|Sm]; [lia|].
    assert (256 ^ Z.of_nat n <= 256 ^ (Z.of_nat m - 1)) by (apply Z.pow_le_mono_r; lia). lia.
  - destruct Sn as [->|Sn]; [lia|].
    assert (256 ^ Z.of_nat m <= 256 ^ (Z.of_nat n - 1)) by (apply Z.pow_le_mono_r; lia). lia.
Qed.

Lemma key_segments_prefix nd no ni d o i rest : prefix_ok nd no ni d o i ->
  key_segments (key_prefix nd no ni d o i ++ rest) =
  if (d =? 0) && (o =? 0) && (i =? 0) then
    match rest with
    | [] => Err IndexError
    | m :: r => Ok ([fmt_d d; fmt_d o; fmt_d i; fmt_d m] ++
                    match r with [] => [] | _ => [bytes_repr r] end)
    end
  else Ok ([fmt_d d; fmt_d o; fmt_d i] ++ match rest with [] => [] | _ => [bytes_repr rest] end).
Proof.
  intros H. unfold key_segments. rewrite read_key_prefix_ok by exact H. cbn [bind].
  set (P := key_prefix nd no ni d o i). clearbody P. pose proof (len_nonneg P) as HP.
  destruct ((d =? 0) && (o =? 0) && (i =? 0)).
  - destruct rest as [|m r].
    + rewrite app_nil_r. rewrite pyindex_past by lia. reflexivity.
    + rewrite pyindex_app by reflexivity. cbn [bind].
      destruct r as [|x r].
      * destruct (Z.ltb_spec (len P + 1) (len (P ++ [m]))) as [Hx|_]; [rewrite len_app, len_cons, len_nil in Hx; lia|].
        reflexivity.
      * destruct (Z.ltb_spec (len P + 1) (len (P ++ m :: x :: r))) as [_|Hx];
          [|rewrite len_app, !len_cons in Hx; pose proof (len_nonneg r); lia].
        replace (P ++ m :: x :: r) with ((P ++ [m]) ++ x :: r) by (rewrite <- app_assoc; reflexivity).
        rewrite pyslice_from_app by (rewrite len_app; reflexivity). reflexivity.
  - cbn [bind]. destruct rest as [|x r].
    + rewrite app_nil_r. rewrite Z.ltb_irrefl. rewrite app_nil_r. reflexivity.
    + destruct (Z.ltb_spec (len P) (len (P ++ x :: r))) as [_|Hx];
        [|rewrite len_app, len_cons in Hx; pose proof (len_nonneg r); lia].
      rewrite pyslice_from_app by reflexivity. reflexivity.
Qed.

Definition small_prefix (nd no ni : nat) (d o i : Z) : Prop :=
  prefix_ok nd no ni d o i /\ smallest nd d /\ smallest no o /\ smallest ni i.

Lemma tail_repr_inj (a b : bytes) : is_bytes a -> is_bytes b ->
  match a with [] => [] | _ => [bytes_repr a] end = match b with [] => [] | _ => [bytes_repr b] end -> a = b.
Proof.
  intros Ha Hb H. destruct a as [|x a], b as [|y b]; try congruence.
  apply bytes_repr_inj; [exact Ha|exact Hb|congruence].
Qed.

Lemma key_segments_inj nd no ni d o i rest nd' no' ni' d' o' i' rest' segs :
  small_prefix nd no ni d o i -> small_prefix nd' no' ni' d' o' i' -> is_bytes rest -> is_bytes rest' ->
  key_segments (key_prefix nd no ni d o i ++ rest) = Ok segs ->
  key_segments (key_prefix nd' no' ni' d' o' i' ++ rest') = Ok segs ->
  key_prefix nd no ni d o i ++ rest = key_prefix nd' no' ni' d' o' i' ++ rest'.
Proof.
  intros (Hp & S1 & S2 & S3) (Hp' & S1' & S2' & S3') Hb Hb' E E'.
  rewrite key_segments_prefix in E, E' by assumption.
  destruct Hp as (N1 & N2 & N3 & B1 & B2 & B3). destruct Hp' as (N1' & N2' & N3' & B1' & B2' & B3').
  assert (Hseg : exists t, segs = fmt_d d :: fmt_d o :: fmt_d i :: t).
  { destruct ((d =? 0) && (o =? 0) && (i =? 0)); [destruct rest; [discriminate|]|]; injection E as <-; eexists; reflexivity. }
  assert (Hseg' : exists t, segs = fmt_d d' :: fmt_d o' :: fmt_d i' :: t).
  { destruct ((d' =? 0) && (o' =? 0) && (i' =? 0)); [destruct rest'; [discriminate|]|]; injection E' as <-; eexists; reflexivity. }
  destruct Hseg as [t ->]. destruct Hseg' as [t' Et].
  assert (d = d') by (apply fmt_d_inj; [lia|lia|congruence]).
  assert (o = o') by (apply fmt_d_inj; [lia|lia|congruence]).
  assert (i = i') by (apply fmt_d_inj; [lia|lia|congruence]).
  subst d' o' i'. clear Et t'.
  assert (nd = nd') by (eapply smallest_unique; eauto; lia).
  assert (no = no') by (eapply smallest_unique; eauto; lia).
  assert (ni = ni') by (eapply smallest_unique; eauto; lia).
  subst nd' no' ni'. f_equal.
  destruct ((d =? 0) && (o =? 0) && (i =? 0)).
  - destruct rest as [|m r]; [discriminate|]. destruct rest' as [|m' r']; [discriminate|].
    rewrite <- E in E'. cbn [app] in E'.
    assert (m = m').
    { pose proof (Forall_inv Hb) as M. pose proof (Forall_inv Hb') as M'. unfold is_byte in M, M'.
      apply fmt_d_inj; [lia|lia|congruence]. }
    subst m'. f_equal. apply tail_repr_inj; [eapply Forall_inv_tail; exact Hb|eapply Forall_inv_tail; exact Hb'|].
    congruence.
  - rewrite <- E in E'. cbn [app] in E'. apply tail_repr_inj; [exact Hb|exact Hb'|congruence].
Qed.

(** ** Whole tables terminate *)

Lemma read_table_data_mono td fuel fuel' r :
  read_table_data fuel td = Done r -> (fuel <= fuel')%nat -> read_table_data fuel' td = Done r.
Proof.
  unfold read_table_data. intros H Hf.
  destruct (struct_bs _ _) as [[|[n|] [|]]|]; try exact H.
  destruct (_ <? 4 * n); [exact H|]. eapply read_entries_mono; eauto.
Qed.

Definition decodes_bytes (f : bytes -> result bytes) : Prop := forall d r, is_bytes d -> f d = Ok r -> is_bytes r.

Lemma read_block_bytes snappy zstd content off size td :
  is_bytes content -> decodes_bytes snappy -> decodes_bytes zstd ->
  read_block snappy zstd content off size = Ok td -> is_bytes td.
Proof.
  intros Hb Hs Hz. unfold read_block.
  destruct (read_at content off size) as [d|] eqn:E; cbn [bind]; [|discriminate].
  assert (Hd : is_bytes d).
  { unfold read_at in E. destruct (off <? 0); [discriminate|]. destruct (size <? 0); injection E as <-;
      [|apply is_bytes_zfirstn]; apply is_bytes_zskipn; exact Hb. }
  destruct (guard _ _); cbn [bind]; [|discriminate].
  destruct (read_struct _ _ _) as [vs|]; cbn [bind]; [|discriminate].
  destruct vs as [|[t|] [|? [|]]]; try discriminate.
  destruct (t =? 0); [injection 1 as <-; exact Hd|].
  destruct (t =? 1); [intros H; eapply Hs; [|exact H]; exact Hd|].
  destruct (t =? 2); [intros H; eapply Hz; [|exact H]; exact Hd|]. discriminate.
Qed.

Lemma read_table_terminates snappy zstd content off size :
  is_bytes content -> decodes_bytes snappy -> decodes_bytes zstd ->
  exists fuel0 r, forall fuel, (fuel0 <= fuel)%nat -> read_table fuel snappy zstd content off size = Done r.
Proof.
  intros Hb Hs Hz. unfold read_table.
  destruct (read_block snappy zstd content off size) as [td|e] eqn:E.
  - apply read_block_bytes in E; auto.
    pose proof (read_table_data_terminates td (length td) E (le_n _)) as T.
    destruct (read_table_data (length td) td) as [r|] eqn:R; [|congruence].
    exists (length td), r. intros fuel Hf. eapply read_table_data_mono; eauto.
  - exists 0%nat, (Err e). reflexivity.
Qed.

Lemma read_table_entries_terminates snappy zstd content ix :
  is_bytes content -> decodes_bytes snappy -> decodes_bytes zstd ->
  exists fuel0 r, forall fuel, (fuel0 <= fuel)%nat -> read_table_entries fuel snappy zstd content ix = Done r.
Proof.
  intros Hb Hs Hz. unfold read_table_entries.
  destruct (read_table_terminates snappy zstd content (fst ix) (snd ix) Hb Hs Hz) as (f1 & r1 & H1).
  destruct r1 as [index|x].
  - assert (D : exists f2 r2, forall fuel, (f2 <= fuel)%nat -> read_data_blocks fuel snappy zstd content index = Done r2).
    { clear H1 f1. induction index as [|e index (f2 & r2 & IH)]; [exists 0%nat; eexists; reflexivity|].
      cbn [read_data_blocks]. destruct (read_block_handle (te_value e)) as [[[o s] n]|x];
        [|exists 0%nat; eexists; reflexivity].
      destruct (read_table_terminates snappy zstd content o s Hb Hs Hz) as (f3 & r3 & H3).
      exists (Nat.max f2 f3).
      destruct r3 as [es|x].
      - destruct r2 as [[es' x]|x]; eexists; intros fuel Hf; rewrite H3, IH by lia; reflexivity.
      - eexists; intros fuel Hf; rewrite H3 by lia; reflexivity. }
    destruct D as (f2 & r2 & H2). exists (Nat.max f1 f2), r2. intros fuel Hf.
    rewrite H1 by lia. apply H2. lia.
  - exists f1. eexists. intros fuel Hf. rewrite H1 by lia. reflexivity.
Qed.

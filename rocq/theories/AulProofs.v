From Verif Require Import Base CoreModel CoreProofs VarModel VarFacts GzipModel GzipProofs StrModel
  BaseFacts BitFacts StructFacts AulModel AulSpec AulFloat.

(** ** Strings *)

Lemma read_string_at utf8 content off s t :
  cstring_at content off s -> utf8 s = Some t -> read_string utf8 content off = Ok t.
Proof.
  intros (pre & post & -> & Hl & Hn) Hu. unfold read_string, read_cstring.
  pose proof (len_nonneg pre). destruct (Z.ltb_spec off 0); [lia|].
  rewrite zskipn_app_len by lia. rewrite cstring_end_app by exact Hn. cbn [bind]. rewrite Hu. reflexivity.
Qed.

(** ** Searching ranges *)

Lemma touches_test start size x :
  (if x <? start then false else x - start <=? size) = true <-> touches start size x.
Proof. unfold touches. destruct (Z.ltb_spec x start); [split; [discriminate|lia]|]. rewrite Z.leb_le. lia. Qed.

Definition dsc_hit (utf8 : bytes -> option str) (content : bytes) (dyn : bool) (ref : Z) (g : dsc_range)
  : result (option image_values) :=
  do s <- (if dyn then Ok (s2z "%s")
           else read_string utf8 content (dd_data_offset (dg_desc g) + (ref - dd_range_offset (dg_desc g))));
  Ok (Some (mkiv (du_id (dg_uuid g)) (du_path (dg_uuid g)) s (du_text_offset (dg_uuid g)))).

Lemma get_image_values_cons utf8 content g r ref dyn :
  get_image_values utf8 content (g :: r) ref dyn =
  if (if ref <? look_start dyn g then false else ref - look_start dyn g <=? look_size dyn g)
  then dsc_hit utf8 content dyn ref g
  else get_image_values utf8 content r ref dyn.
Proof.
  cbn [get_image_values]. unfold dsc_hit, look_start, look_size. cbv zeta.
  destruct dyn; destruct (_ <? _); try reflexivity; destruct (_ <=? _); reflexivity.
Qed.

Lemma get_image_values_first utf8 content pre g post ref dyn :
  Forall (fun h => ~ touches (look_start dyn h) (look_size dyn h) ref) pre ->
  touches (look_start dyn g) (look_size dyn g) ref ->
  get_image_values utf8 content (pre ++ g :: post) ref dyn = dsc_hit utf8 content dyn ref g.
Proof.
  intros Hpre Hg. induction Hpre as [|h pre Hh _ IH]; cbn [app]; rewrite get_image_values_cons.
  - apply touches_test in Hg. rewrite Hg. reflexivity.
  - destruct (if ref <? _ then _ else _) eqn:E; [|exact IH]. apply touches_test in E. contradiction.
Qed.

Lemma get_image_values_none utf8 content l ref dyn :
  get_image_values utf8 content l ref dyn = Ok None <->
  Forall (fun h => ~ touches (look_start dyn h) (look_size dyn h) ref) l.
Proof.
  induction l as [|g l IH]; [cbn; split; auto|]. rewrite get_image_values_cons.
  destruct (if ref <? _ then _ else _) eqn:E.
  - apply touches_test in E. split.
    + unfold dsc_hit. destruct (if dyn then _ else _); discriminate.
    + intros H. inversion H; contradiction.
  - assert (N : ~ touches (look_start dyn g) (look_size dyn g) ref) by (rewrite <- touches_test, E; discriminate).
    rewrite IH. split; [intros; constructor; assumption|intros H; inversion H; assumption].
Qed.

Lemma get_string_cons utf8 content e r ref :
  get_string utf8 content (e :: r) ref =
  if (if ref <? ut_offset e then false else ref - ut_offset e <=? ut_size e)
  then (do s <- read_string utf8 content (ut_file_offset e + (ref - ut_offset e)); Ok (Some s))
  else get_string utf8 content r ref.
Proof.
  cbn [get_string]. cbv zeta. destruct (_ <? _); try reflexivity; destruct (_ <=? _); reflexivity.
Qed.

Lemma get_string_first utf8 content pre e post ref :
  Forall (fun h => ~ touches (ut_offset h) (ut_size h) ref) pre ->
  touches (ut_offset e) (ut_size e) ref ->
  get_string utf8 content (pre ++ e :: post) ref =
  (do s <- read_string utf8 content (ut_file_offset e + (ref - ut_offset e)); Ok (Some s)).
Proof.
  intros Hpre Hg. induction Hpre as [|h pre Hh _ IH]; cbn [app]; rewrite get_string_cons.
  - apply touches_test in Hg. rewrite Hg. reflexivity.
  - destruct (if ref <? _ then _ else _) eqn:E; [|exact IH]. apply touches_test in E. contradiction.
Qed.

Lemma get_string_none utf8 content l ref :
  get_string utf8 content l ref = Ok None <->
  Forall (fun h => ~ touches (ut_offset h) (ut_size h) ref) l.
Proof.
  induction l as [|g l IH]; [cbn; split; auto|]. rewrite get_string_cons.
  destruct (if ref <? _ then _ else _) eqn:E.
  - apply touches_test in E. split.
    + destruct (read_string _ _ _); discriminate.
    + intros H. inversion H; contradiction.
  - assert (N : ~ touches (ut_offset g) (ut_size g) ref) by (rewrite <- touches_test, E; discriminate).
    rewrite IH. split; [intros; constructor; assumption|intros H; inversion H; assumption].
Qed.

(** ** DSC files *)

Lemma u_pow n v : u n v -> 0 <= v < 256 ^ Z.of_nat n.
Proof. exact (fun H => H). Qed.

Ltac fields_ok := repeat (apply Forall2_cons || apply Forall2_nil); cbn [fval_ok]; auto.

Lemma desc_bytes_enc version d :
  desc_bytes version d =
  if version =? 1
  then enc_struct dsc_range_v1 [VI (dd_uuid_index d); VI (dd_range_offset d); VI (dd_data_offset d); VI (dd_range_size d)]
  else enc_struct dsc_range_v2 [VI (dd_range_offset d); VI (dd_data_offset d); VI (dd_range_size d); VI (dd_uuid_index d)].
Proof. unfold desc_bytes. destruct (version =? 1); cbn [enc_struct enc_field dsc_range_v1 dsc_range_v2 enc_int]; rewrite app_nil_r; reflexivity. Qed.

Definition desc_len (version : Z) : Z := if version =? 1 then 16 else 24.
Definition uuid_len (version : Z) : Z := if version =? 1 then 28 else 32.

Lemma len_desc_bytes version d : len (desc_bytes version d) = desc_len version.
Proof.
  unfold desc_bytes, desc_len. destruct (version =? 1); rewrite !len_app, !len_le_enc; reflexivity.
Qed.

Lemma read_dsc_range_ok version d pre post : desc_ok version d ->
  read_dsc_range (pre ++ desc_bytes version d ++ post) version (len pre) = Ok (d, len pre + desc_len version).
Proof.
  intros (H1 & H2 & H3 & H4). rewrite desc_bytes_enc. unfold read_dsc_range, desc_len.
  destruct (version =? 1).
  - rewrite read_struct_enc; [|fields_ok|reflexivity]. cbn [bind]. destruct d; reflexivity.
  - rewrite read_struct_enc; [|fields_ok|reflexivity]. cbn [bind]. destruct d; reflexivity.
Qed.

Lemma read_dsc_ranges_ok version l : forall pre post, Forall (desc_ok version) l ->
  read_dsc_ranges (length l) (pre ++ concat (map (desc_bytes version) l) ++ post) version (len pre) =
  Ok (l, len pre + desc_len version * len l).
Proof.
  induction l as [|d l IH]; intros pre post Hl; cbn [length read_dsc_ranges map concat].
  - rewrite len_nil. f_equal. f_equal. lia.
  - inversion Hl; subst. rewrite <- app_assoc. rewrite read_dsc_range_ok by assumption. cbn [bind].
    specialize (IH (pre ++ desc_bytes version d) post). rewrite len_app, len_desc_bytes in IH.
    rewrite <- app_assoc in IH. rewrite IH by assumption. cbn [bind]. rewrite len_cons. f_equal. f_equal. lia.
Qed.

Lemma uuid_bytes_enc version x :
  uuid_bytes version x =
  enc_struct (if version =? 1 then dsc_uuid_v1 else dsc_uuid_v2)
    [VI (ud_text_offset x); VI (ud_text_size x); VB (ud_id x); VI (ud_path_offset x)].
Proof.
  unfold uuid_bytes. destruct (version =? 1); cbn [enc_struct enc_field dsc_uuid_v1 dsc_uuid_v2 enc_int]; rewrite app_nil_r; reflexivity.
Qed.

Lemma len_uuid_bytes version x : uuid_ok version x -> len (uuid_bytes version x) = uuid_len version.
Proof.
  intros (_ & _ & H & _). unfold uuid_bytes, uuid_len. rewrite !len_app, !len_le_enc. unfold len. rewrite H.
  destruct (version =? 1); reflexivity.
Qed.

Lemma read_dsc_uuid_ok utf8 version x v pre post content : uuid_ok version x ->
  content = pre ++ uuid_bytes version x ++ post -> image_of utf8 content x v ->
  read_dsc_uuid utf8 content version (len pre) = Ok (v, len pre + uuid_len version).
Proof.
  intros (H1 & H2 & H3 & H4 & H5) E (I1 & I2 & I3 & s & Hs & Hu).
  unfold read_dsc_uuid. rewrite E at 1. rewrite uuid_bytes_enc. rewrite read_struct_enc.
  - cbn [bind]. rewrite (read_string_at utf8 content _ s (du_path v) Hs Hu). cbn [bind].
    rewrite <- I1, <- I2, <- I3. destruct v; reflexivity.
  - destruct (version =? 1); fields_ok.
  - reflexivity.
Qed.

Lemma read_dsc_uuids_ok utf8 version content l vs : forall pre post, Forall (uuid_ok version) l ->
  content = pre ++ concat (map (uuid_bytes version) l) ++ post ->
  Forall2 (image_of utf8 content) l vs ->
  read_dsc_uuids (length l) utf8 content version (len pre) = Ok vs.
Proof.
  intros pre post Hl E H. revert pre E. induction H as [|x v l vs Hv _ IH]; intros pre E; cbn [length read_dsc_uuids].
  - reflexivity.
  - inversion Hl; subst. cbn [map concat] in *. rewrite <- app_assoc in *.
    rewrite (read_dsc_uuid_ok utf8 version x v pre (concat (map (uuid_bytes version) l) ++ post)) by
      (try assumption; reflexivity). cbn [bind].
    rewrite <- (len_uuid_bytes version x) by assumption. rewrite <- len_app.
    rewrite IH; [reflexivity|assumption|]. rewrite <- app_assoc. reflexivity.
Qed.

Lemma pyindex_nth {A} (l : list A) i : 0 <= i ->
  pyindex l i = match nth_error l (Z.to_nat i) with Some x => Ok x | None => Err IndexError end.
Proof.
  intros Hi. unfold pyindex. destruct (Z.ltb_spec i 0); [lia|]. rewrite znth_error_nth by lia.
  destruct (Z.ltb_spec i 0); [lia|]. destruct (nth_error l (Z.to_nat i)); reflexivity.
Qed.

Lemma resolve_ranges_ok uuids l gs :
  Forall2 (fun d g => 0 <= dd_uuid_index d /\ dg_desc g = d /\
                      nth_error uuids (Z.to_nat (dd_uuid_index d)) = Some (dg_uuid g)) l gs ->
  resolve_ranges uuids l = Ok gs.
Proof.
  induction 1 as [|d g l gs (H1 & H2 & H3) _ IH]; cbn [resolve_ranges]; [reflexivity|].
  rewrite pyindex_nth by exact H1. rewrite H3. cbn [bind]. rewrite IH. cbn [bind]. rewrite <- H2. destruct g; reflexivity.
Qed.

Lemma resolve_ranges_err uuids l :
  Forall (fun d => 0 <= dd_uuid_index d) l ->
  Exists (fun d => len uuids <= dd_uuid_index d) l -> resolve_ranges uuids l = Err IndexError.
Proof.
  intros Hf H. induction H as [d l H|d l H IH]; inversion Hf; subst; cbn [resolve_ranges]; rewrite pyindex_nth by assumption.
  - replace (nth_error uuids (Z.to_nat (dd_uuid_index d))) with (@None dsc_uuid); [reflexivity|].
    symmetry. apply nth_error_None. unfold len in H. lia.
  - destruct (nth_error _ _); [cbn [bind]|reflexivity]. rewrite IH by assumption. reflexivity.
Qed.

Lemma read_dsc_header_ok version descs uuids data :
  version = 1 \/ version = 2 -> u 4 (len descs) -> u 4 (len uuids) ->
  read_dsc_header (dsc_bytes version descs uuids data) = Ok (version, len descs, len uuids).
Proof.
  intros Hv Hd Hu. unfold read_dsc_header, dsc_bytes.
  set (rest := concat _ ++ _).
  replace (s2z "hcsd" ++ le_enc 2 version ++ le_enc 2 0 ++ le_enc 4 (len descs) ++ le_enc 4 (len uuids) ++ rest)
    with ([] ++ enc_struct dsc_header [VB (s2z "hcsd"); VI version; VI 0; VI (len descs); VI (len uuids)] ++ rest).
  2: { cbn [enc_struct enc_field dsc_header enc_int]. rewrite app_nil_l, <- !app_assoc, app_nil_l. reflexivity. }
  rewrite read_struct_enc; [|fields_ok|reflexivity].
  - cbn [bind]. rewrite list_eqb_refl. cbn [guard bind].
    destruct Hv as [-> | ->]; reflexivity.
  - split; [reflexivity|]. apply is_bytes_forallb. reflexivity.
  - change (256 ^ Z.of_nat 2) with 65536. lia.
  - change (256 ^ Z.of_nat 2) with 65536. lia.
Qed.

Lemma read_dsc_parts utf8 version descs uuids data vs :
  version = 1 \/ version = 2 -> u 4 (len descs) -> u 4 (len uuids) ->
  Forall (desc_ok version) descs -> Forall (uuid_ok version) uuids ->
  Forall2 (image_of utf8 (dsc_bytes version descs uuids data)) uuids vs ->
  read_dsc utf8 (dsc_bytes version descs uuids data) = resolve_ranges vs descs.
Proof.
  intros Hv Hd Hu Hds Hus HF. unfold read_dsc. rewrite read_dsc_header_ok by assumption. cbn [bind].
  unfold len at 1 2. rewrite !Nat2Z.id.
  set (hd := s2z "hcsd" ++ le_enc 2 version ++ le_enc 2 0 ++ le_enc 4 (len descs) ++ le_enc 4 (len uuids)).
  assert (E : dsc_bytes version descs uuids data =
              hd ++ concat (map (desc_bytes version) descs) ++ concat (map (uuid_bytes version) uuids) ++ data).
  { unfold dsc_bytes, hd. rewrite <- !app_assoc. reflexivity. }
  assert (Hh : len hd = 16) by (unfold hd; rewrite !len_app, !len_le_enc; reflexivity).
  rewrite E at 1. rewrite <- Hh at 1. rewrite read_dsc_ranges_ok by assumption. cbn [bind].
  assert (L : len (hd ++ concat (map (desc_bytes version) descs)) = len hd + desc_len version * len descs).
  { rewrite len_app. f_equal. clear. induction descs as [|d l IH]; [cbn; lia|].
    cbn [map concat]. rewrite len_app, len_desc_bytes, len_cons, IH. lia. }
  rewrite <- L. rewrite (read_dsc_uuids_ok utf8 version _ uuids vs _ data Hus); [reflexivity| |exact HF].
  rewrite E. rewrite <- !app_assoc. reflexivity.
Qed.

(** ** uuidtext files *)

Ltac ut_side :=
  try (split; [reflexivity|apply is_bytes_forallb; reflexivity]);
  change (256 ^ Z.of_nat 4) with 4294967296 in *; try lia.

Definition entry_bytes (b : ut_block) : bytes := le_enc 4 (ub_offset b) ++ le_enc 4 (len (ub_data b)).

(** File offsets of the blocks. *)
Fixpoint place (off : Z) (l : list ut_block) : list ut_entry :=
  match l with
  | [] => []
  | b :: r => mkut off (ub_offset b) (len (ub_data b)) :: place (off + len (ub_data b)) r
  end.

Lemma ut_entries_ok l : forall off, Forall block_ok l ->
  ut_entries (length l) (concat (map entry_bytes l)) off = (place off l, off + len (concat (map ub_data l))).
Proof.
  induction l as [|b l IH]; intros off Hl; cbn [length ut_entries map concat place].
  - rewrite len_nil. f_equal. lia.
  - inversion Hl as [|? ? [H1 H2] H3]; subst.
    replace (entry_bytes b) with (enc_struct uuidtext_entry [VI (ub_offset b); VI (len (ub_data b))]).
    2: { unfold entry_bytes. cbn [enc_struct enc_field uuidtext_entry enc_int]. rewrite app_nil_r. reflexivity. }
    rewrite map_struct_enc by fields_ok.
    rewrite zskipn_app_len.
    2: { unfold len. rewrite enc_struct_length by fields_ok. reflexivity. }
    rewrite IH by assumption. rewrite len_app. f_equal. lia.
Qed.

Lemma len_entries l : len (concat (map entry_bytes l)) = 8 * len l.
Proof.
  induction l as [|b l IH]; [reflexivity|]. cbn [map concat]. rewrite len_app, IH, len_cons.
  unfold entry_bytes. rewrite len_app, !len_le_enc. lia.
Qed.

Lemma uuidtext_split blocks path trailing :
  uuidtext_bytes blocks path trailing =
  [] ++ enc_struct uuidtext_header [VB [153; 136; 119; 102]; VI 2; VI 1; VI (len blocks)] ++
  concat (map entry_bytes blocks) ++ concat (map ub_data blocks) ++ path ++ 0 :: trailing.
Proof.
  unfold uuidtext_bytes. cbn [enc_struct enc_field uuidtext_header enc_int app].
  rewrite <- !app_assoc. reflexivity.
Qed.

Lemma read_uuidtext_ok utf8 blocks path trailing p :
  Forall block_ok blocks -> u 4 (len blocks) -> ~ In 0 path -> utf8 path = Some p ->
  read_uuidtext utf8 (uuidtext_bytes blocks path trailing) =
  Ok (place (16 + 8 * len blocks) blocks, p).
Proof.
  intros Hb Hl Hp Hu. unfold read_uuidtext. rewrite uuidtext_split at 1.
  rewrite read_var_enc; [|fields_ok; ut_side|reflexivity|].
  2: { cbn [uuidtext_ext]. rewrite len_entries. reflexivity. }
  cbn [bind]. rewrite list_eqb_refl. cbn [guard bind Z.eqb Pos.eqb andb].
  unfold len at 1. rewrite Nat2Z.id. rewrite ut_entries_ok by exact Hb. rewrite len_entries.
  change (Z.of_nat (struct_size uuidtext_header)) with 16.
  rewrite (read_string_at utf8 _ _ path p); [reflexivity| |exact Hu].
  exists ([] ++ enc_struct uuidtext_header [VB [153; 136; 119; 102]; VI 2; VI 1; VI (len blocks)] ++
          concat (map entry_bytes blocks) ++ concat (map ub_data blocks)), trailing.
  split; [|split; [|exact Hp]].
  - rewrite uuidtext_split. rewrite <- !app_assoc. reflexivity.
  - rewrite !len_app, len_entries, len_nil.
    replace (len (enc_struct _ _)) with 16; [lia|].
    unfold len at 1. rewrite enc_struct_length; [reflexivity|].
    fields_ok; ut_side.
Qed.

Lemma place_app a b : forall off, place off (a ++ b) = place off a ++ place (off + len (concat (map ub_data a))) b.
Proof.
  induction a as [|x a IH]; intros off; cbn [app place map concat].
  - rewrite len_nil, Z.add_0_r. reflexivity.
  - rewrite IH, len_app, Z.add_assoc. reflexivity.
Qed.

Lemma place_untouched l ref : Forall (fun b => ~ touches (ub_offset b) (len (ub_data b)) ref) l ->
  forall off, Forall (fun e => ~ touches (ut_offset e) (ut_size e) ref) (place off l).
Proof. induction 1; intros off; cbn [place]; constructor; auto. Qed.

Lemma uuidtext_string utf8 pre b post path trailing a s z t :
  Forall block_ok (pre ++ b :: post) -> ub_data b = a ++ s ++ 0 :: z -> ~ In 0 s -> utf8 s = Some t ->
  Forall (fun b' => ~ touches (ub_offset b') (len (ub_data b')) (ub_offset b + len a)) pre ->
  get_string utf8 (uuidtext_bytes (pre ++ b :: post) path trailing)
    (place (16 + 8 * len (pre ++ b :: post)) (pre ++ b :: post)) (ub_offset b + len a) = Ok (Some t).
Proof.
  intros Hok Hd Hs Ht Hpre. set (blocks := pre ++ b :: post) in *.
  unfold blocks at 3. rewrite place_app. cbn [place]. rewrite get_string_first.
  - cbn [ut_offset ut_file_offset ut_size].
    rewrite (read_string_at utf8 _ _ s t); [reflexivity| |exact Ht].
    exists ([] ++ enc_struct uuidtext_header [VB [153; 136; 119; 102]; VI 2; VI 1; VI (len blocks)] ++
          concat (map entry_bytes blocks) ++ concat (map ub_data pre) ++ a),
      (z ++ concat (map ub_data post) ++ path ++ 0 :: trailing).
    split; [|split; [|exact Hs]].
    + rewrite uuidtext_split. unfold blocks at 3. rewrite map_app, concat_app. cbn [map concat]. rewrite Hd.
      rewrite <- !app_assoc. cbn [app]. rewrite <- ?app_assoc. reflexivity.
    + rewrite !len_app, len_entries, len_nil.
      replace (len (enc_struct _ _)) with 16; [lia|reflexivity].
  - apply place_untouched. exact Hpre.
  - cbn [ut_offset ut_size]. unfold touches. rewrite Hd, !len_app, len_cons.
    pose proof (len_nonneg a). pose proof (len_nonneg s). pose proof (len_nonneg z). lia.
Qed.

(** ** Timesync files *)

Lemma read_data_app pre d post off n : off = len pre -> n = len d ->
  exists f, read_data (Some (mkfile (pre ++ d ++ post) 0)) off n = Ok (d, f).
Proof.
  intros -> ->. pose proof (read_data_total (mkfile (pre ++ d ++ post) 0) (len pre) (len d)) as T.
  pose proof (len_nonneg pre). pose proof (len_nonneg d). pose proof (len_nonneg post).
  destruct (read_data (Some (mkfile (pre ++ d ++ post) 0)) (len pre) (len d)) as [[d' f]|e] eqn:E.
  - exists f. destruct T as (_ & _ & _ & -> & _). cbn [fdata].
    rewrite zskipn_app_len by reflexivity. rewrite zfirstn_app_len by reflexivity. reflexivity.
  - exfalso. cbn [fdata] in T. rewrite !len_app in T. destruct e; try contradiction; lia.
Qed.

Definition stored_fields (r : ts_stored) : list fval :=
  match r with
  | SBoot unknown id num den time tz dst _ =>
      [VB [176; 187]; VI (stored_size r); VI unknown; VB id; VI num; VI den; VI time; VI tz; VI dst]
  | SSync unknown kernel time tz dst _ =>
      [VB (s2z "Ts"); VI (stored_size r); VI unknown; VI kernel; VI time; VI tz; VI dst]
  end.
Definition stored_layout (r : ts_stored) : list fkind :=
  match r with SBoot _ _ _ _ _ _ _ _ => boot_layout | SSync _ _ _ _ _ _ => sync_layout end.
Definition stored_pad (r : ts_stored) : bytes :=
  match r with SBoot _ _ _ _ _ _ _ pad => pad | SSync _ _ _ _ _ pad => pad end.

Lemma stored_bytes_enc r : stored_bytes r = enc_struct (stored_layout r) (stored_fields r) ++ stored_pad r.
Proof.
  destruct r; cbn [stored_bytes stored_layout stored_fields stored_pad boot_layout sync_layout enc_struct enc_field enc_int];
    unfold s_enc; rewrite <- ?app_assoc; reflexivity.
Qed.

Lemma stored_fields_ok r : stored_ok r -> Forall2 fval_ok (stored_layout r) (stored_fields r).
Proof.
  destruct r; cbn [stored_ok stored_layout stored_fields]; intros [Hs H].
  - destruct H as (H1 & H2 & H3 & H4 & H5 & H6 & H7 & H8). unfold boot_layout.
    fields_ok; try (split; [reflexivity|apply is_bytes_forallb; reflexivity]); split; auto; lia.
  - destruct H as (H1 & H2 & H3 & H4 & H5). unfold sync_layout.
    fields_ok; try (split; [reflexivity|apply is_bytes_forallb; reflexivity]); split; auto; lia.
Qed.

Lemma stored_len r : stored_ok r -> len (stored_bytes r) = stored_size r.
Proof.
  intros H. rewrite stored_bytes_enc, len_app. unfold len at 1. rewrite enc_struct_length by (apply stored_fields_ok, H).
  destruct r; reflexivity.
Qed.

Lemma read_record_enc pre r post :
  Forall2 fval_ok (stored_layout r) (stored_fields r) ->
  read_record (pre ++ enc_struct (stored_layout r) (stored_fields r) ++ post) (len pre) = Ok (stored_view r).
Proof.
  intros H. unfold read_record.
  assert (S : exists sig rest, enc_struct (stored_layout r) (stored_fields r) = sig ++ rest /\ len sig = 2 /\
              sig = match r with SBoot _ _ _ _ _ _ _ _ => boot_signature | _ => sync_signature end).
  { destruct r; cbn [stored_layout stored_fields boot_layout sync_layout enc_struct enc_field];
      do 2 eexists; split; [reflexivity|split; reflexivity|reflexivity|split; reflexivity]. }
  destruct S as (sig & rest & E & L & Sg).
  destruct (read_data_app pre sig (rest ++ post) (len pre) 2 eq_refl (eq_sym L)) as [f F].
  rewrite app_assoc with (l := sig) in F. rewrite <- E in F. rewrite F. cbn [bind].
  rewrite Sg. destruct r; cbn [stored_layout] in *.
  - rewrite list_eqb_refl. rewrite read_struct_enc; [reflexivity|exact H|reflexivity].
  - change (list_eqb sync_signature boot_signature) with false. rewrite list_eqb_refl. cbn match.
    rewrite read_struct_enc; [reflexivity|exact H|reflexivity].
Qed.

Lemma read_record_ok pre r post : stored_ok r ->
  read_record (pre ++ stored_bytes r ++ post) (len pre) = Ok (stored_view r).
Proof.
  intros H. rewrite stored_bytes_enc, <- app_assoc. apply read_record_enc, stored_fields_ok, H.
Qed.

Lemma stored_view_size r : rec_size (stored_view r) = stored_size r.
Proof. destruct r; reflexivity. Qed.

Lemma read_records_prefix l : forall pre post fuel, Forall stored_ok l ->
  read_records (length l + fuel) (pre ++ ts_file l ++ post) (len pre) =
  let (l', g) := read_records fuel (pre ++ ts_file l ++ post) (len pre + len (ts_file l)) in
  (map stored_view l ++ l', g).
Proof.
  induction l as [|r l IH]; intros pre post fuel Hl; cbn [length Nat.add map app].
  - change (ts_file []) with (@nil Z). rewrite (len_nil (A := Z)), Z.add_0_r. destruct (read_records _ _ _); reflexivity.
  - inversion Hl as [|? ? Hr Hl']; subst. cbn [read_records].
    change (ts_file (r :: l)) with (stored_bytes r ++ ts_file l). rewrite <- app_assoc.
    assert (P : 0 < len (stored_bytes r)).
    { rewrite stored_len by exact Hr. destruct r as [? ? ? ? ? ? ? pad|? ? ? ? ? pad]; cbn [stored_size]; pose proof (len_nonneg pad); lia. }
    pose proof (len_nonneg pre). pose proof (len_nonneg (ts_file l)). pose proof (len_nonneg post).
    destruct (Z.ltb_spec (len pre) (len (pre ++ stored_bytes r ++ ts_file l ++ post))) as [_|Hlt];
      [|rewrite !len_app in Hlt; lia].
    rewrite read_record_ok by exact Hr. rewrite stored_view_size, <- stored_len by exact Hr.
    specialize (IH (pre ++ stored_bytes r) post fuel Hl'). rewrite len_app in IH. rewrite <- app_assoc in IH.
    rewrite IH. rewrite len_app, Z.add_assoc. destruct (read_records fuel _ _); reflexivity.
Qed.

Lemma read_records_ok l n : Forall stored_ok l -> (length l < n)%nat ->
  read_records n (ts_file l) 0 = (map stored_view l, GStop).
Proof.
  intros Hl Hn. pose proof (read_records_prefix l [] [] (n - length l) Hl) as E.
  rewrite app_nil_r in E. cbn [app] in E. rewrite (len_nil (A := Z)) in E. rewrite Z.add_0_l in E.
  replace (length l + (n - length l))%nat with n in E by lia. rewrite E.
  destruct (n - length l)%nat as [|k] eqn:K; [lia|]. cbn [read_records].
  rewrite Z.ltb_irrefl. rewrite app_nil_r. reflexivity.
Qed.

Lemma read_records_loop content off r n : off < len content -> read_record content off = Ok r -> rec_size r = 0 ->
  read_records n content off = (repeat r n, GFuel).
Proof.
  intros Ho Hr Hs. induction n as [|n IH]; [reflexivity|]. cbn [read_records repeat].
  destruct (Z.ltb_spec off (len content)); [|lia]. rewrite Hr, Hs, Z.add_0_r, IH. reflexivity.
Qed.

Lemma read_record_size content off r : is_bytes content -> read_record content off = Ok r -> 0 <= rec_size r < 65536.
Proof.
  intros Hb. unfold read_record. destruct (read_data _ _ _) as [[sig f]|]; cbn [bind]; [|discriminate].
  destruct (list_eqb sig boot_signature).
  - destruct (Z.ltb_spec off 0) as [Hn|Ho].
    { unfold read_struct, read_at. destruct (Z.ltb_spec off 0); [discriminate|lia]. }
    rewrite read_struct_fields by (lia || (cbn; lia)). destruct (_ <=? _); [|discriminate]. cbn [bind fields boot_layout map_field endian_int fsize].
    injection 1 as <-. cbn [rec_size bt_size]. apply (le_int_window_bounds (zskipn off content) 2 2); [apply is_bytes_zskipn, Hb|lia].
  - destruct (list_eqb sig sync_signature); [|discriminate].
    destruct (Z.ltb_spec off 0) as [Hn|Ho].
    { unfold read_struct, read_at. destruct (Z.ltb_spec off 0); [discriminate|lia]. }
    rewrite read_struct_fields by (lia || (cbn; lia)). destruct (_ <=? _); [|discriminate]. cbn [bind fields sync_layout map_field endian_int fsize].
    injection 1 as <-. cbn [rec_size sy_size]. apply (le_int_window_bounds (zskipn off content) 2 2); [apply is_bytes_zskipn, Hb|lia].
Qed.

Lemma read_record_errors content off e : 0 <= off -> read_record content off = Err e -> e = ParseError.
Proof.
  intros Ho. unfold read_record. pose proof (read_data_total (mkfile content 0) off 2) as T.
  destruct (read_data _ _ _) as [[sig f]|e']; cbn [bind].
  2: { intros [= <-]. destruct e'; try contradiction; try lia. reflexivity. }
  destruct (list_eqb sig boot_signature).
  - rewrite read_struct_fields by (lia || (cbn; lia)). destruct (_ <=? _); cbn [bind]; [discriminate|congruence].
  - destruct (list_eqb sig sync_signature); [|congruence].
    rewrite read_struct_fields by (lia || (cbn; lia)). destruct (_ <=? _); cbn [bind]; [discriminate|congruence].
Qed.

Lemma read_records_ends content : is_bytes content ->
  (forall off r, read_record content off = Ok r -> rec_size r <> 0) ->
  forall n off, 0 <= off -> (Z.to_nat (len content - off) < n)%nat ->
  snd (read_records n content off) = GStop \/ snd (read_records n content off) = GErr ParseError.
Proof.
  intros Hb Hz n. induction n as [|n IH]; intros off Ho Hn; [lia|]. cbn [read_records].
  destruct (Z.ltb_spec off (len content)) as [Hlt|]; [|left; reflexivity].
  destruct (read_record content off) as [r|e] eqn:E.
  - pose proof (read_record_size _ _ _ Hb E). pose proof (Hz _ _ E).
    destruct (read_records n content (off + rec_size r)) as [l g] eqn:R. cbn [snd].
    specialize (IH (off + rec_size r) ltac:(lia) ltac:(lia)). rewrite R in IH. exact IH.
  - right. cbn [snd]. f_equal. exact (read_record_errors _ _ _ Ho E).
Qed.

(** ** The records of a boot *)

Definition syncs (l : list ts_stored) : list sync_rec := concat (map sync_view l).
Definition boot_view (r : ts_stored) : option boot_rec :=
  match stored_view r with Boot b => Some b | Sync _ => None end.

Lemma collect_before id before l g : Forall (fun r => ~ is_boot_of id r) before -> forall sync,
  collect id (map stored_view before ++ l) g None sync = collect id l g None sync.
Proof.
  induction 1 as [|r before Hr _ IH]; intros sync; [reflexivity|]. cbn [map app collect].
  destruct r as [un id' num den time tz dst pad|]; cbn [stored_view].
  - cbn [is_boot_of] in Hr. cbn [bt_id]. replace (list_eqb id' id) with false by (symmetry; apply list_eqb_neq; exact Hr). apply IH.
  - apply IH.
Qed.

Lemma collect_session id b sync : Forall (fun r => ~ is_boot r) sync -> forall l g acc,
  collect id (map stored_view sync ++ l) g (Some b) acc = collect id l g (Some b) (acc ++ syncs sync).
Proof.
  induction 1 as [|r sync Hr _ IH]; intros l g acc; [cbn; rewrite app_nil_r; reflexivity|].
  destruct r as [un id' num den time tz dst pad|un kernel time tz dst pad]; cbn [is_boot] in Hr; [tauto|].
  cbn [map app collect stored_view]. rewrite IH. unfold syncs. cbn [map concat sync_view stored_view]. rewrite <- app_assoc. reflexivity.
Qed.

Lemma collect_boot id l b sync v : boot_session id l b sync -> boot_view b = Some v ->
  collect id (map stored_view l) GStop None [] = Done (Ok (Some v, syncs sync)).
Proof.
  intros (before & after & -> & Hb & H1 & H2 & H3) Hv. rewrite map_app. rewrite collect_before by exact H1.
  cbn [map]. destruct b as [un id' num den time tz dst pad|]; [|discriminate].
  cbn [is_boot_of] in Hb. subst id'. cbn [boot_view stored_view] in Hv. injection Hv as <-.
  cbn [collect stored_view bt_id]. rewrite list_eqb_refl. rewrite map_app. rewrite collect_session by exact H2. cbn [app].
  destruct after as [|a after]; [reflexivity|]. destruct a; cbn [is_boot] in H3; [reflexivity|contradiction].
Qed.

Lemma collect_none id l : Forall (fun r => ~ is_boot_of id r) l ->
  collect id (map stored_view l) GStop None [] = Done (Ok (None, [])).
Proof. intros H. rewrite <- (app_nil_r (map stored_view l)). rewrite collect_before by exact H. reflexivity. Qed.

Lemma collect_files_before fuel lower id before l : Forall (passed_over lower id fuel) before ->
  collect_files fuel lower id (before ++ l) None [] = collect_files fuel lower id l None [].
Proof.
  induction 1 as [|[name content] before Hf _ IH]; [reflexivity|]. cbn [app collect_files].
  destruct Hf as [E|(l' & E & H1 & H2 & H3)]; cbn [fst snd] in E.
  - rewrite E. exact IH.
  - subst content. destruct (ends_with _ _); [|exact IH].
    rewrite read_records_ok by assumption. rewrite collect_none by assumption. exact IH.
Qed.

Lemma collect_files_boot fuel lower id before name l b sync v after :
  Forall (passed_over lower id fuel) before -> ends_with (lower name) (s2z ".timesync") = true ->
  Forall stored_ok l -> (length l < fuel)%nat -> boot_session id l b sync -> boot_view b = Some v ->
  collect_files fuel lower id (before ++ (name, ts_file l) :: after) None [] = Done (Ok (Some v, syncs sync)).
Proof.
  intros H1 H2 H3 H4 H5 H6. rewrite collect_files_before by exact H1. cbn [collect_files]. rewrite H2.
  rewrite read_records_ok by assumption. rewrite (collect_boot id l b sync v H5 H6).
  destruct after as [|[n c] after]; reflexivity.
Qed.

(** ** The record in force *)

Definition sorted_desc (l : list sync_rec) : Prop :=
  forall i j a b, (i <= j)%nat -> nth_error l i = Some a -> nth_error l j = Some b -> sy_kernel b <= sy_kernel a.

Fixpoint desc (l : list sync_rec) : Prop :=
  match l with
  | [] => True
  | r :: t => Forall (fun x => sy_kernel x <= sy_kernel r) t /\ desc t
  end.

Definition better (t : Z) (r : sync_rec) (o : option sync_rec) : option sync_rec :=
  if sy_kernel r <=? t then
    match o with
    | None => Some r
    | Some x => if sy_kernel x <? sy_kernel r then Some r else Some x
    end
  else o.

Lemma insert_desc_in r l x : In x (insert_desc r l) <-> x = r \/ In x l.
Proof.
  induction l as [|y l IH]; cbn [insert_desc]; [cbn; intuition congruence|].
  destruct (_ <? _); cbn [In]; [intuition congruence|]. rewrite IH. intuition congruence.
Qed.

Lemma insert_desc_desc r l : desc l -> desc (insert_desc r l).
Proof.
  induction l as [|y l IH]; cbn [insert_desc desc]; [intros _; split; constructor|].
  intros [Hy Hl]. destruct (Z.ltb_spec (sy_kernel y) (sy_kernel r)); cbn [desc].
  - split; [|split; assumption]. constructor; [lia|]. eapply Forall_impl; [|exact Hy]. cbn. intros; lia.
  - split; [|apply IH, Hl]. rewrite Forall_forall in *. intros x Hx. apply insert_desc_in in Hx.
    destruct Hx as [->|Hx]; [lia|apply Hy, Hx].
Qed.

Lemma get_in l t r : get_timesync_record l t = Some r -> In r l /\ sy_kernel r <= t.
Proof.
  induction l as [|y l IH]; cbn [get_timesync_record]; [discriminate|].
  destruct (Z.leb_spec (sy_kernel y) t); [intros [= <-]; split; [left; reflexivity|assumption]|].
  intros E. destruct (IH E). split; [right|]; assumption.
Qed.

Lemma get_insert t r l : desc l ->
  get_timesync_record (insert_desc r l) t = better t r (get_timesync_record l t).
Proof.
  induction l as [|y l IH]; intros Hd; cbn [insert_desc get_timesync_record].
  - unfold better. cbn [get_timesync_record]. reflexivity.
  - destruct Hd as [Hy Hl]. destruct (Z.ltb_spec (sy_kernel y) (sy_kernel r)) as [H|H].
    + cbn [get_timesync_record]. unfold better. destruct (Z.leb_spec (sy_kernel r) t) as [H1|H1]; [|reflexivity].
      destruct (Z.leb_spec (sy_kernel y) t); [|lia]. destruct (Z.ltb_spec (sy_kernel y) (sy_kernel r)); [reflexivity|lia].
    + cbn [get_timesync_record]. destruct (Z.leb_spec (sy_kernel y) t) as [H1|H1].
      * unfold better. destruct (Z.leb_spec (sy_kernel r) t); [|reflexivity].
        destruct (Z.ltb_spec (sy_kernel y) (sy_kernel r)); [lia|reflexivity].
      * rewrite IH by exact Hl. reflexivity.
Qed.

Lemma sort_snoc l r : sort_desc (l ++ [r]) = insert_desc r (sort_desc l).
Proof. unfold sort_desc. rewrite fold_left_app. reflexivity. Qed.

Lemma sort_desc_desc l : desc (sort_desc l).
Proof.
  induction l as [|r l IH] using rev_ind; [exact I|]. rewrite sort_snoc. apply insert_desc_desc, IH.
Qed.

Lemma nth_error_snoc {A} (l : list A) x i y : nth_error (l ++ [x]) i = Some y ->
  (nth_error l i = Some y /\ (i < length l)%nat) \/ (i = length l /\ y = x).
Proof.
  intros H. destruct (Nat.lt_ge_cases i (length l)) as [L|L].
  - left. rewrite nth_error_app1 in H by exact L. auto.
  - right. rewrite nth_error_app2 in H by exact L. destruct (i - length l)%nat eqn:E; cbn in H.
    + injection H as <-. split; [lia|reflexivity].
    + destruct n; discriminate.
Qed.

Lemma in_force_unique l t i r j r' : in_force l t i r -> in_force l t j r' -> i = j /\ r = r'.
Proof.
  intros (A1 & A2 & A3) (B1 & B2 & B3). specialize (A3 _ _ B1 B2). specialize (B3 _ _ A1 A2).
  assert (i = j) by lia. subst j. rewrite A1 in B1. injection B1 as <-. auto.
Qed.

Lemma get_sorted l t :
  match get_timesync_record (sort_desc l) t with
  | Some r => exists i, in_force l t i r
  | None => Forall (fun r => t < sy_kernel r) l
  end.
Proof.
  induction l as [|r l IH] using rev_ind; [constructor|]. rewrite sort_snoc, get_insert by apply sort_desc_desc.
  unfold better. destruct (Z.leb_spec (sy_kernel r) t) as [H|H].
  - destruct (get_timesync_record (sort_desc l) t) as [x|].
    + destruct IH as (i & I1 & I2 & I3).
      assert (Li : (i < length l)%nat) by (apply nth_error_Some; congruence).
      destruct (Z.ltb_spec (sy_kernel x) (sy_kernel r)) as [L|L].
      * exists (length l). split; [rewrite nth_error_app2, Nat.sub_diag by lia; reflexivity|]. split; [exact H|].
        intros j r' Hj Hr'. apply nth_error_snoc in Hj. destruct Hj as [[Hj _]|[-> ->]]; [|lia].
        specialize (I3 _ _ Hj Hr'). lia.
      * exists i. split; [rewrite nth_error_app1 by exact Li; exact I1|]. split; [exact I2|].
        intros j r' Hj Hr'. apply nth_error_snoc in Hj. destruct Hj as [[Hj _]|[-> ->]]; [apply I3; assumption|].
        split; [lia|intros _; lia].
    + exists (length l). split; [rewrite nth_error_app2, Nat.sub_diag by lia; reflexivity|]. split; [exact H|].
      intros j r' Hj Hr'. apply nth_error_snoc in Hj. destruct Hj as [[Hj _]|[-> ->]]; [|lia].
      rewrite Forall_forall in IH. specialize (IH _ (nth_error_In _ _ Hj)). lia.
  - destruct (get_timesync_record (sort_desc l) t) as [x|].
    + destruct IH as (i & I1 & I2 & I3). exists i.
      assert (Li : (i < length l)%nat) by (apply nth_error_Some; congruence).
      split; [rewrite nth_error_app1 by exact Li; exact I1|]. split; [exact I2|].
      intros j r' Hj Hr'. apply nth_error_snoc in Hj. destruct Hj as [[Hj _]|[-> ->]]; [apply I3; assumption|lia].
    + apply Forall_app. split; [exact IH|]. constructor; [exact H|constructor].
Qed.

Lemma get_in_force l t i r : in_force l t i r -> get_timesync_record (sort_desc l) t = Some r.
Proof.
  intros H. pose proof (get_sorted l t) as G. destruct (get_timesync_record (sort_desc l) t) as [x|].
  - destruct G as [j G]. destruct (in_force_unique _ _ _ _ _ _ H G) as [_ ->]. reflexivity.
  - destruct H as (H1 & H2 & _). rewrite Forall_forall in G. specialize (G _ (nth_error_In _ _ H1)). lia.
Qed.

Lemma get_not_in_force l t : Forall (fun r => t < sy_kernel r) l -> get_timesync_record (sort_desc l) t = None.
Proof.
  intros H. pose proof (get_sorted l t) as G. destruct (get_timesync_record (sort_desc l) t) as [x|]; [|reflexivity].
  destruct G as (i & H1 & H2 & _). rewrite Forall_forall in H. specialize (H _ (nth_error_In _ _ H1)). lia.
Qed.

Lemma fl_div_nonneg n d f : 0 <= n -> 0 <= d -> fl_div n d = Ok f -> fl_nonneg f.
Proof.
  intros Hn Hd. unfold fl_div. destruct (Z.eqb_spec d 0); [discriminate|]. intros [= <-].
  apply fl_round_nonneg; lia.
Qed.

Lemma scale_close n d tb x : 0 <= n -> 0 < d -> 0 <= x -> fl_div n d = Ok tb -> close_to (scale tb x) x n d.
Proof. intros. unfold close_to. apply scale_error; assumption. Qed.

(** ** Trace identifiers *)

Lemma trace_identifier_sum r f l t : u 4 r -> u 2 f -> u 1 l -> u 1 t ->
  trace_identifier r f l t = r * 2 ^ 32 + f * 2 ^ 16 + l * 2 ^ 8 + t.
Proof.
  unfold u. change (256 ^ Z.of_nat 4) with (2 ^ 32). change (256 ^ Z.of_nat 2) with (2 ^ 16). change (256 ^ Z.of_nat 1) with (2 ^ 8).
  intros Hr Hf Hl Ht. unfold trace_identifier. cbv zeta.
  rewrite (lor_shiftl r (Z.shiftl f 16) 32); [|lia|rewrite Z.shiftl_mul_pow2 by lia; lia].
  rewrite !(Z.shiftl_mul_pow2) by lia.
  replace (r * 2 ^ 32 + f * 2 ^ 16) with ((r * 2 ^ 16 + f) * 2 ^ 16) by lia.
  rewrite (lor_disjoint _ (l * 2 ^ 8) 16) by lia.
  replace ((r * 2 ^ 16 + f) * 2 ^ 16 + l * 2 ^ 8) with ((r * 2 ^ 24 + f * 2 ^ 8 + l) * 2 ^ 8) by lia.
  rewrite (lor_disjoint _ t 8) by lia. lia.
Qed.

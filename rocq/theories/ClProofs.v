(** Proofs about the change.log reader. *)

From Verif Require Import Base BaseFacts CoreModel CoreProofs VarModel VarFacts SeqModel SeqSpec SeqFacts DictModel LdbProofs Utf16Model Utf16Spec Utf16Facts ClModel ClSpec.

Lemma u32_ok z : is_u32 z -> fval_ok (FU LE 4) (VI z).
Proof. unfold is_u32. cbn [fval_ok]. change (256 ^ Z.of_nat 4) with (2 ^ 32). lia. Qed.

Lemma u64_ok z : is_u64 z -> fval_ok (FU LE 8) (VI z).
Proof. unfold is_u64. cbn [fval_ok]. change (256 ^ Z.of_nat 8) with (2 ^ 64). lia. Qed.

Lemma ok_u32 z : fval_ok (FU LE 4) (VI z) -> is_u32 z.
Proof. unfold is_u32. cbn [fval_ok]. change (256 ^ Z.of_nat 4) with (2 ^ 32). lia. Qed.

Lemma ok_u64 z : fval_ok (FU LE 8) (VI z) -> is_u64 z.
Proof. unfold is_u64. cbn [fval_ok]. change (256 ^ Z.of_nat 8) with (2 ^ 64). lia. Qed.

Lemma signature_enc : signature = le_enc 4 cl_signature.
Proof. reflexivity. Qed.

Definition head_vals (size : Z) (e : entry) : list fval :=
  [VI size; VI 1; VI cl_signature; VI (e_type e); VI (e_flags e); VI (e_attributes e); VI (e_sequence e); VB (e_unknown1 e); VI (e_size e); VI (e_unknown2 e)].

Lemma entry_head_enc size e : entry_head size e = enc_struct cl_layout (head_vals size e).
Proof. unfold entry_head, cl_layout, head_vals. rewrite signature_enc. cbn [enc_struct enc_field enc_int]. rewrite !app_nil_r. reflexivity. Qed.

Lemma F2_cc {A B} (R : A -> B -> Prop) a l b m : Forall2 R (a :: l) (b :: m) -> R a b /\ Forall2 R l m.
Proof. intros H. inversion H. auto. Qed.

Lemma head_vals_ok size e : head_ok size e <-> Forall2 fval_ok cl_layout (head_vals size e).
Proof.
  unfold head_ok, cl_layout, head_vals. split.
  - intros (H1 & H2 & H3 & H4 & H5 & H6 & H7 & H8 & H9).
    repeat (apply Forall2_cons; [first [apply u32_ok; assumption|apply u64_ok; assumption|cbn [fval_ok]; first [split; [unfold len in H8; lia|exact H9]|change (256 ^ Z.of_nat 4) with 4294967296; unfold cl_signature; lia]]|]). constructor.
  - intros F. repeat (apply F2_cc in F as [? F]). repeat match goal with H : fval_ok (FU LE 4) _ |- _ => apply ok_u32 in H | H : fval_ok (FU LE 8) _ |- _ => apply ok_u64 in H | H : fval_ok (FB _) _ |- _ => cbn [fval_ok] in H; destruct H end.
    repeat (split; [first [assumption|unfold len; lia]|]). assumption.
Qed.

Lemma len_head size e : head_ok size e -> len (entry_head size e) = 72.
Proof. intros H. rewrite entry_head_enc. apply head_vals_ok in H. unfold len. rewrite (enc_struct_length _ _ H). reflexivity. Qed.

Lemma layout_wf : Forall fkind_wf cl_layout.
Proof. unfold cl_layout. kinds_wf. Qed.

Lemma errs_ape {A} (r : result A) : errs (fun e => e = ParseError \/ e = ValueError) r -> errs (fun e => e = ParseError) (as_parse_error r).
Proof. intros H e. destruct r as [|x] eqn:E; [discriminate|]. destruct (H x eq_refl) as [->| ->]; cbn; congruence. Qed.

Lemma struct_ape ks d : errs (fun e => e = ParseError) (as_parse_error (struct_bs ks d)).
Proof. apply errs_ape, errs_struct_bs; auto. Qed.

(** The copy of the size. *)
Lemma check_iff data size : is_bytes data -> (cl_check_size data size = Ok tt <-> is_u32 size /\ exists front, data = front ++ le_enc 4 size).
Proof.
  intros Hb. unfold cl_check_size. split.
  - destruct (as_parse_error _) as [vs|] eqn:E; [|discriminate]. rewrite as_parse_error_ok in E. cbn [bind].
    unfold pyslice_from in E. apply struct_bs_iff in E; [|apply is_bytes_zskipn, Hb|kinds_wf|cbn; lia]. destruct E as (rest & E & F). vals F.
    intros G. destruct (Z.eqb_spec size z) as [<-|]; [|discriminate]. cbn [enc_struct enc_field enc_int] in E. rewrite app_nil_r in E.
    split; [apply ok_u32; assumption|].
    assert (L : len (zskipn (slice_index (-4) (len data)) data) <= 4).
    { rewrite len_zskipn. unfold slice_index. pose proof (len_nonneg data). destruct (Z.ltb_spec (-4) 0); [|lia]. lia. }
    rewrite E, len_app, len_le_enc in L. assert (rest = []) by (apply len_zero; pose proof (len_nonneg rest); lia). subst rest. rewrite app_nil_r in E.
    exists (zfirstn (slice_index (-4) (len data)) data). rewrite <- E. symmetry. apply zfirstn_zskipn.
  - intros [U [front ->]]. change (-4) with (- (4)). rewrite (pyslice_from_neg front (le_enc 4 size) 4) by (rewrite ?len_le_enc; lia).
    replace (le_enc 4 size) with (enc_struct [FU LE 4] [VI size] ++ []) by (cbn [enc_struct enc_field enc_int]; rewrite !app_nil_r; reflexivity). rewrite struct_bs_enc; [|constructor; [apply u32_ok, U|constructor]|cbn; lia].
    cbn [as_parse_error bind]. rewrite Z.eqb_refl. reflexivity.
Qed.

Lemma check_err data size : is_bytes data -> errs (fun e => e = ParseError) (cl_check_size data size).
Proof.
  intros Hb. unfold cl_check_size. apply errs_bind; [apply struct_ape|]. intros vs E. rewrite as_parse_error_ok in E.
  apply struct_bs_fval in E; [|apply is_bytes_zskipn, Hb|kinds_wf]. vals E. apply errs_guard. reflexivity.
Qed.

(** Data behind the file position. *)
Lemma read_here_ok content pos n data : 0 <= pos <= len content -> read_here content pos n = Ok data ->
  stored_at content pos data /\ -1 <= n /\ (len data = n \/ pos + len data = len content /\ (n = -1 \/ len data < n)).
Proof.
  intros Hp. unfold read_here, f_try_read. destruct (Z.ltb_spec n (-1)); [discriminate|]. unfold f_read. cbn [bind fpos fdata]. intros E. injection E as E.
  destruct (Z.ltb_spec n 0).
  - subst data. split; [|split; [lia|]].
    + exists (zfirstn pos content), []. rewrite app_nil_r. split; [symmetry; apply zfirstn_zskipn|]. rewrite len_zfirstn. lia.
    + right. rewrite len_zskipn. lia.
  - assert (Ld : len data = Z.min n (len content - pos)) by (subst data; rewrite len_zfirstn, len_zskipn; lia). split; [|split; [lia|lia]].
    apply stored_at_iff. split; [lia|]. split; [lia|]. subst data. rewrite Ld.
    destruct (Z.min_spec n (len content - pos)) as [[M ->]|[M ->]]; [reflexivity|].
    rewrite !zfirstn_all by (rewrite len_zskipn; lia). reflexivity.
Qed.

Lemma read_here_stored content pos n data : stored_at content pos data -> n = len data -> read_here content pos n = Ok data.
Proof.
  intros S ->. apply stored_at_iff in S as (H1 & H2 & H3). unfold read_here, f_try_read. pose proof (len_nonneg data).
  destruct (Z.ltb_spec (len data) (-1)); [lia|]. unfold f_read. cbn [bind fpos fdata]. destruct (Z.ltb_spec (len data) 0); [lia|]. rewrite H3. reflexivity.
Qed.

Lemma read_here_data content pos n d : is_bytes content -> read_here content pos n = Ok d -> is_bytes d.
Proof.
  intros Hb. unfold read_here, f_try_read. destruct (n <? -1); [discriminate|]. unfold f_read. cbn [bind fpos fdata]. intros H. injection H as <-.
  destruct (n <? 0); [apply is_bytes_zskipn, Hb|apply is_bytes_zfirstn, is_bytes_zskipn, Hb].
Qed.

Lemma read_here_errs content pos n : errs (fun e => e = ParseError \/ e = ValueError) (read_here content pos n).
Proof. unfold read_here, f_try_read. destruct (n <? -1); [apply errs_err; auto|apply errs_ok]. Qed.

(** Sub records. *)
Lemma sub_len l d : sub_records l d -> (length l <= length d)%nat.
Proof.
  induction 1 as [|type s t rest l d _ _ _ _ IH|type body l d _ _ _ _ _ IH]; [cbn; lia| |]; rewrite !app_length, !le_enc_length; cbn [length]; lia.
Qed.

Lemma sub_nonempty l d : sub_records l d -> l <> [] -> 8 <= len d.
Proof.
  intros H Hn. destruct H as [|type s t rest l d|type body l d]; [contradiction| |]; rewrite !len_app, !len_le_enc; rewrite ?len_app; pose proof (len_nonneg d).
  - pose proof (len_nonneg t). pose proof (len_nonneg rest). lia.
  - pose proof (len_nonneg body). lia.
Qed.

Lemma sub_header size type rest : is_u32 size -> is_u32 type ->
  as_parse_error (struct_bs [FU LE 4; FU LE 4] (le_enc 4 size ++ le_enc 4 type ++ rest)) = Ok [VI size; VI type].
Proof.
  intros H1 H2. replace (le_enc 4 size ++ le_enc 4 type ++ rest) with (enc_struct [FU LE 4; FU LE 4] [VI size; VI type] ++ rest)
    by (cbn [enc_struct enc_field enc_int]; rewrite app_nil_r, <- app_assoc; reflexivity).
  rewrite struct_bs_enc; [reflexivity| |cbn; lia]. constructor; [apply u32_ok, H1|]. constructor; [apply u32_ok, H2|constructor].
Qed.

Lemma string_u32 type : is_string type -> is_u32 type.
Proof. unfold is_string, is_u32. cbn [In]. lia. Qed.

Lemma string_b type : is_string type <-> existsb (Z.eqb type) [4; 5; 9] = true.
Proof.
  unfold is_string. rewrite existsb_exists. split.
  - intros H. exists type. split; [exact H|apply Z.eqb_refl].
  - intros (x & I & E). apply Z.eqb_eq in E. subst x. exact I.
Qed.

Lemma walk_ok l d : sub_records l d -> forall pre tail data fuel, data = pre ++ d ++ tail -> len tail = 4 -> (length l <= fuel)%nat ->
  cl_sub_records fuel data (len pre) (len pre + len d) = Done (Ok tt).
Proof.
  induction 1 as [|type s t rest l d T Z U H IH|type body l d U1 T U L H IH]; intros pre tail data fuel -> Lt Hf.
  - change (len []) with 0. rewrite Z.add_0_r. destruct fuel; cbn [cl_sub_records]; rewrite Z.ltb_irrefl; reflexivity.
  - cbn [length] in Hf. destruct fuel as [|fuel]; [lia|]. cbn [cl_sub_records]. pose proof (len_nonneg d). pose proof (len_nonneg (t ++ rest)) as Lb.
    destruct (Z.ltb_spec (len pre) (len pre + len (le_enc 4 (8 + len (t ++ rest)) ++ le_enc 4 type ++ (t ++ rest) ++ d))) as [_|Hx]; [|rewrite !len_app, !len_le_enc in Hx; rewrite len_app in Lb; lia].
    unfold cl_sub_record. rewrite pyslice_from_app by reflexivity. rewrite <- !app_assoc. rewrite sub_header by first [assumption|apply string_u32; assumption]. cbn [bind].
    rewrite (proj1 (string_b type) T).
    replace (pre ++ le_enc 4 (8 + len (t ++ rest)) ++ le_enc 4 type ++ t ++ rest ++ d ++ tail) with ((pre ++ le_enc 4 (8 + len (t ++ rest)) ++ le_enc 4 type) ++ t ++ rest ++ d ++ tail) by (rewrite <- !app_assoc; reflexivity).
    rewrite pyslice_from_app by (rewrite !len_app, !len_le_enc; lia). rewrite (utf16_cstr_ok s t _ Z). cbn [bind].
    destruct (Z.eqb_spec (8 + len (t ++ rest)) 0); [lia|].
    set (pre' := pre ++ le_enc 4 (8 + len (t ++ rest)) ++ le_enc 4 type ++ t ++ rest).
    assert (Lp : len pre' = len pre + (8 + len (t ++ rest))) by (unfold pre'; rewrite !len_app, !len_le_enc; lia).
    replace (len pre + len (le_enc 4 (8 + len (t ++ rest)) ++ le_enc 4 type ++ t ++ rest ++ d)) with (len pre' + len d) by (rewrite Lp, !len_app, !len_le_enc; lia).
    rewrite <- Lp. apply (IH pre' tail); [unfold pre'; rewrite <- !app_assoc; reflexivity|exact Lt|lia].
  - cbn [length] in Hf. destruct fuel as [|fuel]; [lia|]. cbn [cl_sub_records]. pose proof (len_nonneg d). pose proof (len_nonneg body) as Lb.
    destruct (Z.ltb_spec (len pre) (len pre + len (le_enc 4 (8 + len body) ++ le_enc 4 type ++ body ++ d))) as [_|Hx]; [|rewrite !len_app, !len_le_enc in Hx; lia].
    unfold cl_sub_record. rewrite pyslice_from_app by reflexivity. rewrite <- !app_assoc. rewrite sub_header by assumption. cbn [bind].
    destruct (existsb (Z.eqb type) [4; 5; 9]) eqn:Eb; [apply string_b in Eb; contradiction|].
    replace (pre ++ le_enc 4 (8 + len body) ++ le_enc 4 type ++ body ++ d ++ tail) with ((pre ++ le_enc 4 (8 + len body) ++ le_enc 4 type) ++ body ++ d ++ tail) by (rewrite <- !app_assoc; reflexivity).
    rewrite pyslice_from_app by (rewrite !len_app, !len_le_enc; lia).
    assert (L8 : 8 <= len (body ++ d ++ tail)).
    { rewrite !len_app. destruct L as [L|L]; [lia|]. pose proof (sub_nonempty _ _ H L). lia. }
    assert (E : exists vs, struct_bs [FU LE 4; FU LE 4] (body ++ d ++ tail) = Ok vs).
    { unfold struct_bs. destruct (map_struct_some [FU LE 4; FU LE 4] (body ++ d ++ tail)) as [vs E]; [unfold len in L8; cbn [struct_size fold_right fsize]; lia|].
      rewrite E. destruct (body ++ d ++ tail); [discriminate|]. eauto. }
    destruct E as [vs ->]. cbn [as_parse_error bind].
    destruct (Z.eqb_spec (8 + len body) 0); [lia|].
    set (pre' := pre ++ le_enc 4 (8 + len body) ++ le_enc 4 type ++ body).
    assert (Lp : len pre' = len pre + (8 + len body)) by (unfold pre'; rewrite !len_app, !len_le_enc; lia).
    replace (len pre + len (le_enc 4 (8 + len body) ++ le_enc 4 type ++ body ++ d)) with (len pre' + len d) by (rewrite Lp, !len_app, !len_le_enc; lia).
    rewrite <- Lp, <- !app_assoc. apply (IH pre' tail); [unfold pre'; rewrite <- !app_assoc; reflexivity|exact Lt|lia].
Qed.

Lemma sub_record_ok data off n : is_bytes data -> 0 <= off -> cl_sub_record data off = Ok n -> 0 <= n /\ off + 8 <= len data.
Proof.
  intros Hb Ho. unfold cl_sub_record. destruct (as_parse_error _) as [vs|] eqn:E; [|discriminate]. rewrite as_parse_error_ok in E. cbn [bind].
  rewrite pyslice_from_nonneg in E by exact Ho. apply struct_bs_at in E; [|exact Hb|kinds_wf|cbn; lia|exact Ho]. destruct E as [S F]. vals F.
  apply stored_at_inside in S as [_ S]. cbn [enc_struct enc_field enc_int] in S. rewrite !len_app, !len_le_enc in S. change (len (@nil Z)) with 0 in S.
  destruct (if existsb _ _ then _ else _); cbn [bind]; [|discriminate]. intros E. injection E as <-. lia.
Qed.

Lemma sub_record_errs data off : is_bytes data -> errs (fun e => e = ParseError) (cl_sub_record data off).
Proof.
  intros Hb. unfold cl_sub_record. apply errs_bind; [apply struct_ape|]. intros vs E. rewrite as_parse_error_ok in E.
  apply struct_bs_fval in E; [|apply is_bytes_zskipn, Hb|kinds_wf]. vals E.
  apply errs_bind; [|intros; apply errs_ok]. destruct (existsb _ _).
  - apply errs_bind; [intros e; apply utf16_cstr_err|intros; apply errs_ok].
  - apply errs_bind; [apply struct_ape|intros; apply errs_ok].
Qed.

Lemma walk_ends data size fuel : is_bytes data -> forall off, 0 <= off -> (Z.to_nat (len data - off) < fuel)%nat ->
  exists r, cl_sub_records fuel data off size = Done r /\ (forall e, r = Err e -> e = ParseError).
Proof.
  intros Hb. induction fuel as [|fuel IH]; intros off Ho Hf; [lia|]. cbn [cl_sub_records].
  destruct (off <? size); [|eexists; split; [reflexivity|discriminate]].
  destruct (cl_sub_record data off) as [n|e] eqn:E.
  - apply (sub_record_ok _ _ _ Hb Ho) in E. destruct (Z.eqb_spec n 0); [eexists; split; [reflexivity|discriminate]|]. apply IH; lia.
  - eexists. split; [reflexivity|]. intros e' He. apply sub_record_errs in E; [congruence|exact Hb].
Qed.

(** Entries. *)
Definition seen (e : entry) : cl_entry := mkcl (e_type e) (e_flags e) (e_attributes e) (e_sequence e) (removelast (e_process e)).

Lemma slice_last {A} (s : list A) : pyslice_to s (-1) = removelast s.
Proof.
  destruct s as [|x s] using rev_ind; [reflexivity|]. rewrite removelast_last. change (-1) with (- (1)). apply pyslice_to_neg; [lia|reflexivity].
Qed.

Lemma entry_ok content pos e d fuel : entry_bytes e d -> stored_at content pos d -> (length content <= fuel)%nat ->
  cl_read_entry fuel content pos = Done (Ok (seen e, pos + len d)).
Proof.
  intros (t & subs & Z & S & H & ->) St Hf. unfold cl_read_entry.
  set (size := 76 + len t + len subs) in *. pose proof (len_head size e H) as Lh.
  pose proof St as St'. apply stored_at_app in St' as [S1 S2]. rewrite Lh in S2.
  rewrite entry_head_enc in S1. destruct S1 as (pre & post & Ec & Lp).
  rewrite Ec. rewrite read_struct_enc; [|apply head_vals_ok, H|lia]. rewrite <- Ec. unfold head_vals. cbn iota. change (negb (1 =? 1)) with false. rewrite Z.eqb_refl. cbn [negb].
  rewrite (read_here_stored _ _ _ _ S2) by (unfold size; rewrite !len_app, len_le_enc; lia).
  rewrite (utf16_cstr_ok _ t _ Z).
  assert (L : (length (e_subs e) <= fuel)%nat).
  { apply sub_len in S. apply stored_at_inside in S2. rewrite !len_app in S2. unfold len in S2. lia. }
  replace (size - 72 - 4) with (len t + len subs) by (unfold size; lia).
  rewrite (walk_ok _ _ S t (le_enc 4 size) (t ++ subs ++ le_enc 4 size) fuel); [|reflexivity|apply len_le_enc|exact L]. cbn [rbind].
  assert (C : cl_check_size (t ++ subs ++ le_enc 4 size) size = Ok tt).
  { unfold cl_check_size. rewrite app_assoc. change (-4) with (- (4)). rewrite pyslice_from_neg by (rewrite ?len_le_enc; lia).
    replace (le_enc 4 size) with (enc_struct [FU LE 4] [VI size] ++ []) by (cbn [enc_struct enc_field enc_int]; rewrite !app_nil_r; reflexivity).
    rewrite struct_bs_enc; [|constructor; [apply u32_ok, H|constructor]|cbn; lia]. cbn [as_parse_error bind]. rewrite Z.eqb_refl. reflexivity. }
  rewrite C, slice_last. unfold seen. rewrite (len_app (entry_head size e)), Lh, Z.add_assoc. reflexivity.
Qed.

Lemma entry_sound content pos fuel c pos' : is_bytes content -> 0 <= pos -> cl_read_entry fuel content pos = Done (Ok (c, pos')) ->
  exists size e data, c = seen e /\ entry_at content pos size e data /\ pos' = pos + 72 + len data /\
  (len data = size - 72 \/ pos' = len content /\ (size = 71 \/ len data < size - 72)).
Proof.
  intros Hb Ho. unfold cl_read_entry. destruct (read_struct content cl_layout pos) as [vs|] eqn:E; [|discriminate].
  apply read_struct_iff in E; [|exact Hb|apply layout_wf|cbn; lia]. destruct E as [St F]. unfold cl_layout in F. inv2 F.
  repeat match goal with H : fval_ok (FU _ _) ?v |- _ => is_var v; destruct v as [|]; [|contradiction] | H : fval_ok (FB _) ?v |- _ => is_var v; destruct v as [|]; [contradiction|] end.
  match goal with |- (if negb (?ty =? 1) then _ else if negb (?sg =? _) then _ else match read_here _ _ (?sz - 72) with _ => _ end) = _ -> _ =>
    destruct (Z.eqb_spec ty 1) as [E1|]; [cbn [negb]|discriminate]; destruct (Z.eqb_spec sg cl_signature) as [E2|]; [cbn [negb]|discriminate]; subst ty sg;
    destruct (read_here content (pos + 72) (sz - 72)) as [data|] eqn:R; [|discriminate]; rename sz into size end.
  destruct (utf16_cstr data) as [[name n]|] eqn:U; [|discriminate].
  destruct (cl_sub_records _ _ _ _) as [[[]|]|]; [|discriminate|discriminate]. cbn [rbind].
  destruct (cl_check_size data size) as [[]|] eqn:C; [|discriminate]. intros Eq.
  match type of Eq with Done (Ok (mkcl ?ty ?fl ?at_ ?sq _, _)) = _ => match type of St with stored_at _ _ (enc_struct _ [_; _; _; _; _; _; _; VB ?u1; VI ?ps; VI ?u2]) =>
    set (e := mkentry ty fl at_ sq u1 ps u2 name []) end end.
  assert (Hh : head_ok size e).
  { apply head_vals_ok. unfold cl_layout, head_vals, e. cbn [e_type e_flags e_attributes e_sequence e_unknown1 e_size e_unknown2]. repeat (apply Forall2_cons; [assumption|]). constructor. }
  assert (Sh : stored_at content pos (entry_head size e)) by (rewrite entry_head_enc; exact St).
  pose proof (stored_at_inside _ _ _ Sh) as [_ I]. rewrite (len_head _ _ Hh) in I.
  pose proof (read_here_data _ _ _ _ Hb R) as Hd. apply read_here_ok in R; [|lia]. destruct R as (Sd & _ & R).
  exists size, e, data. assert (Ep : pos' = pos + 72 + len data) by congruence. split; [|split; [|split; [exact Ep|]]].
  - assert (Ec : c = mkcl (e_type e) (e_flags e) (e_attributes e) (e_sequence e) (pyslice_to name (-1))) by (unfold e; cbn [e_type e_flags e_attributes e_sequence]; congruence).
    rewrite Ec, slice_last. reflexivity.
  - split; [exact Hh|]. split; [apply stored_at_app; rewrite (len_head _ _ Hh); split; assumption|]. split.
    + apply (utf16_cstr_iff _ _ _ Hd) in U as (t & rest & -> & Zt & _). exists t, rest. split; [exact Zt|reflexivity].
    + apply (check_iff _ _ Hd) in C as [_ C]. exact C.
  - destruct R as [R|R]; [left; exact R|right]. lia.
Qed.

Lemma entry_ends content pos fuel : is_bytes content -> 0 <= pos -> (length content < fuel)%nat ->
  exists r, cl_read_entry fuel content pos = Done r /\ (forall e, r = Err e -> e = ParseError \/ e = ValueError).
Proof.
  intros Hb Ho Hf. unfold cl_read_entry. destruct (read_struct content cl_layout pos) as [vs|x] eqn:E.
  2:{ eexists. split; [reflexivity|]. intros e H. apply read_struct_err in E; [|exact Ho]. left. congruence. }
  apply read_struct_fval in E; [|exact Hb|apply layout_wf]. unfold cl_layout in E. inv2 E.
  repeat match goal with H : fval_ok (FU _ _) ?v |- _ => is_var v; destruct v as [|]; [|contradiction] | H : fval_ok (FB _) ?v |- _ => is_var v; destruct v as [|]; [contradiction|] end.
  assert (P : exists r : result (cl_entry * Z), Done (Err ParseError) = Done r /\ (forall e, r = Err e -> e = ParseError \/ e = ValueError)).
  { eexists. split; [reflexivity|]. intros e H. left. congruence. }
  destruct (negb _); [exact P|]. destruct (negb _); [exact P|].
  destruct (read_here _ _ _) as [data|x] eqn:R.
  2:{ eexists. split; [reflexivity|]. intros e H. apply read_here_errs in R. assert (x = e) by congruence. subst x. exact R. }
  pose proof (read_here_data _ _ _ _ Hb R) as Hd.
  assert (Ld : (length data <= length content)%nat).
  { unfold read_here, f_try_read in R. destruct (_ <? -1) in R; [discriminate|]. unfold f_read in R. cbn [bind fpos fdata] in R. injection R as <-.
    match goal with |- (length (if ?b then ?x else ?y) <= _)%nat => assert (len (if b then x else y) <= len content); [|unfold len in *; lia] end.
    destruct (_ <? 0); rewrite ?len_zfirstn, len_zskipn; pose proof (len_nonneg content); lia. }
  destruct (utf16_cstr data) as [[name n]|x] eqn:U.
  2:{ eexists. split; [reflexivity|]. intros e H. apply utf16_cstr_err in U. left. congruence. }
  apply (utf16_cstr_iff _ _ _ Hd) in U as (t & rest & Et & _ & ->). pose proof (len_nonneg t).
  match goal with |- context [cl_sub_records fuel data (len t) ?sz] => destruct (walk_ends data sz fuel Hd (len t) ltac:(lia)) as (r & -> & Hr); [unfold len in *; lia|] end.
  destruct r as [[]|x]; cbn [rbind].
  - destruct (cl_check_size _ _) as [|x] eqn:C; [eexists; split; [reflexivity|discriminate]|]. eexists. split; [reflexivity|]. intros e He. left. apply check_err in C; [congruence|exact Hd].
  - eexists. split; [reflexivity|]. intros e He. left. apply Hr. congruence.
Qed.

Lemma entry_long e d : entry_bytes e d -> 72 <= len d.
Proof.
  intros (t & subs & _ & _ & H & ->). rewrite len_app, (len_head _ _ H). pose proof (len_nonneg (t ++ subs ++ le_enc 4 (76 + len t + len subs))). lia.
Qed.

Lemma entries_ok content : forall es ds, Forall2 entry_bytes es ds -> forall pre, content = pre ++ concat ds -> forall fuel, (length es <= fuel)%nat ->
  forall inner, (length content <= inner)%nat -> cl_entries fuel inner content (len pre) = Done (Ok (map seen es)).
Proof.
  induction es as [|e es IH]; intros ds F pre Ec fuel Hf inner Hi; inversion F as [|? d ? ds' E F']; subst ds; subst.
  - cbn [concat]. rewrite app_nil_r. destruct fuel; cbn [cl_entries]; rewrite Z.ltb_irrefl; reflexivity.
  - cbn [length] in Hf. destruct fuel as [|fuel]; [lia|]. cbn [concat cl_entries]. set (content := pre ++ d ++ concat ds') in *.
    pose proof (entry_long e d E) as Ld.
    destruct (Z.ltb_spec (len pre) (len content)) as [_|Hx]; [|unfold content in Hx; rewrite !len_app in Hx; pose proof (len_nonneg (concat ds')); lia].
    rewrite (entry_ok content (len pre) e d inner E); [|exists pre, (concat ds'); split; reflexivity|exact Hi]. cbn [rbind].
    replace (len pre + len d) with (len (pre ++ d)) by (rewrite len_app; lia).
    rewrite (IH ds' F' (pre ++ d)); [reflexivity|unfold content; rewrite <- app_assoc; reflexivity|lia|exact Hi].
Qed.

Lemma entry_at_inside content pos size e data : entry_at content pos size e data -> pos + 72 <= len content.
Proof.
  intros (H & S & _). apply stored_at_inside in S as [_ S]. rewrite len_app, (len_head _ _ H) in S. pose proof (len_nonneg data). lia.
Qed.

Lemma entries_sound content inner : is_bytes content -> forall fuel pos l, 0 <= pos -> cl_entries fuel inner content pos = Done (Ok l) ->
  exists es, l = map seen es /\ entries_at content pos es.
Proof.
  intros Hb. induction fuel as [|fuel IH]; intros pos l Hp; cbn [cl_entries]; destruct (Z.ltb_spec pos (len content)) as [Lt|Ge]; try discriminate.
  - intros E. injection E as <-. exists []. split; [reflexivity|]. constructor. exact Ge.
  - destruct (cl_read_entry inner content pos) as [[[c pos']|]|] eqn:E; cbn [rbind]; [|discriminate|discriminate].
    apply entry_sound in E; [|exact Hb|exact Hp]. destruct E as (size & e & data & -> & A & Ep & D). pose proof (len_nonneg data).
    destruct (cl_entries fuel inner content pos') as [[l'|]|] eqn:E2; cbn [rbind]; [|discriminate|discriminate]. intros El. injection El as <-.
    apply IH in E2; [|lia]. destruct E2 as (es & -> & En). exists (e :: es). split; [reflexivity|]. destruct D as [D|[D1 D2]].
    + eapply ea_whole; [exact A|exact D|]. replace (pos + size) with pos' by lia. exact En.
    + inversion En as [p Hle|p sz e' data' es' A'|p sz e' data' A']; subst.
      * eapply ea_cut; [exact A|exact D2|]. lia.
      * exfalso. apply entry_at_inside in A'. lia.
      * exfalso. apply entry_at_inside in A'. lia.
  - intros E. injection E as <-. exists []. split; [reflexivity|]. constructor. exact Ge.
Qed.

Lemma entries_ends content inner : is_bytes content -> (length content < inner)%nat -> forall fuel pos, 0 <= pos -> len content - pos < Z.of_nat fuel ->
  exists r, cl_entries fuel inner content pos = Done r /\ (forall e, r = Err e -> e = ParseError \/ e = ValueError).
Proof.
  intros Hb Hi. induction fuel as [|fuel IH]; intros pos Hp Hf; cbn [cl_entries]; destruct (Z.ltb_spec pos (len content)) as [Lt|Ge].
  - lia.
  - eexists. split; [reflexivity|discriminate].
  - destruct (entry_ends content pos inner Hb Hp Hi) as (r & E & Hr). rewrite E. destruct r as [[c pos']|x]; cbn [rbind].
    + apply entry_sound in E; [|exact Hb|exact Hp]. destruct E as (size & e & data & -> & A & Ep & _). pose proof (len_nonneg data).
      destruct (IH pos') as (r & -> & Hr'); [lia|lia|]. destruct r as [l|x]; cbn [rbind]; eexists; (split; [reflexivity|]); [discriminate|]. intros y Hy. apply Hr'. congruence.
    + eexists. split; [reflexivity|]. intros y Hy. apply Hr. congruence.
  - eexists. split; [reflexivity|discriminate].
Qed.

(** The file header. *)
Lemma utf16_app s d s' d' : utf16 s d -> utf16 s' d' -> utf16 (s ++ s') (d ++ d').
Proof. intros H H'. induction H; [exact H'| |]; cbn [app]; rewrite <- ?app_assoc; constructor; assumption. Qed.

Lemma header_ok path h rest : header path h -> cl_header (h ++ rest) = Ok (len h).
Proof.
  intros (t & Uz & Hs & ->). unfold cl_header. set (size := 28 + len t) in *.
  assert (Lt : 0 <= len t) by apply len_nonneg.
  set (body := le_enc 4 (8 + len t) ++ le_enc 4 2 ++ t ++ le_enc 4 size).
  match goal with |- context [read_struct (?h ++ rest)] => set (content := h ++ rest); set (hh := h) in * end.
  assert (Ec : content = [] ++ enc_struct [FU LE 4; FU LE 4; FU LE 4; FU LE 4] [VI size; VI 0; VI cl_signature; VI 2] ++ (body ++ rest)).
  { unfold content, hh, body. cbn [enc_struct enc_field enc_int]. rewrite <- signature_enc, !app_nil_r, <- !app_assoc. reflexivity. }
  assert (Sb : stored_at content 16 body).
  { exists (enc_struct [FU LE 4; FU LE 4; FU LE 4; FU LE 4] [VI size; VI 0; VI cl_signature; VI 2]), rest. split; [exact Ec|].
    cbn [enc_struct enc_field enc_int]. rewrite !len_app, !len_le_enc. reflexivity. }
  assert (Rh : read_struct content [FU LE 4; FU LE 4; FU LE 4; FU LE 4] 0 = Ok [VI size; VI 0; VI cl_signature; VI 2]).
  { rewrite Ec. apply (read_struct_enc [] _ _ (body ++ rest)); [|cbn; lia].
    repeat (apply Forall2_cons; [apply u32_ok; first [exact Hs|unfold is_u32, cl_signature; lia]|]). constructor. }
  rewrite Rh.
  cbn [bind]. change (cl_signature =? cl_signature) with true. change (0 =? 0) with true. change (2 =? 2) with true. cbn [guard bind].
  rewrite (read_here_stored _ _ _ _ Sb) by (unfold body, size; rewrite !len_app, !len_le_enc; lia). cbn [bind].
  assert (P : pyslice_to body (-4) = le_enc 4 (8 + len t) ++ le_enc 4 2 ++ t).
  { unfold body. replace (le_enc 4 (8 + len t) ++ le_enc 4 2 ++ t ++ le_enc 4 size) with ((le_enc 4 (8 + len t) ++ le_enc 4 2 ++ t) ++ le_enc 4 size) by (rewrite <- !app_assoc; reflexivity).
    change (-4) with (- (4)). apply pyslice_to_neg; rewrite ?len_le_enc; lia. }
  rewrite P. unfold cl_volume_path.
  replace (le_enc 4 (8 + len t) ++ le_enc 4 2 ++ t) with (enc_struct [FU LE 4; FU LE 4] [VI (8 + len t); VI 2] ++ t) by (cbn [enc_struct enc_field enc_int]; rewrite app_nil_r, <- app_assoc; reflexivity).
  rewrite struct_bs_enc; [|repeat (apply Forall2_cons; [apply u32_ok; unfold is_u32, size in *; lia|]); constructor|cbn; lia]. cbn [as_parse_error bind].
  rewrite zskipn_app_len by (cbn [enc_struct enc_field enc_int]; rewrite !len_app, !len_le_enc; reflexivity). rewrite zfirstn_all by lia.
  replace (len t =? 8 + len t - 8) with true by (symmetry; apply Z.eqb_eq; lia). cbn [guard bind].
  destruct Uz as [_ (t' & U & Et)].
  assert (U2 : utf16 (path ++ [0]) t).
  { rewrite Et. apply utf16_app; [exact U|]. change [0; 0] with (le_enc 2 0 ++ []). apply u_one; [lia|constructor]. }
  rewrite (utf16_decode_complete _ _ U2). cbn [guard bind].
  assert (C : cl_check_size body size = Ok tt).
  { unfold cl_check_size, body. replace (le_enc 4 (8 + len t) ++ le_enc 4 2 ++ t ++ le_enc 4 size) with ((le_enc 4 (8 + len t) ++ le_enc 4 2 ++ t) ++ le_enc 4 size) by (rewrite <- !app_assoc; reflexivity).
    change (-4) with (- (4)). rewrite pyslice_from_neg by (rewrite ?len_le_enc; lia).
    replace (le_enc 4 size) with (enc_struct [FU LE 4] [VI size] ++ []) by (cbn [enc_struct enc_field enc_int]; rewrite !app_nil_r; reflexivity).
    rewrite struct_bs_enc; [|constructor; [apply u32_ok, Hs|constructor]|cbn; lia]. cbn [as_parse_error bind]. rewrite Z.eqb_refl. reflexivity. }
  rewrite C. change (2 =? 2) with true. cbn [guard bind]. unfold hh, body. f_equal. rewrite !len_app, !len_le_enc. change (len signature) with 4. lia.
Qed.

Lemma header_sound content pos : is_bytes content -> cl_header content = Ok pos ->
  exists size path t rest, is_u32 size /\ utf16 path t /\
    stored_at content 0 (le_enc 4 size ++ le_enc 4 0 ++ signature ++ le_enc 4 2 ++
      (le_enc 4 (8 + len t) ++ le_enc 4 2 ++ t ++ rest ++ le_enc 4 size)) /\
    pos = 28 + len t + len rest /\ (pos = size \/ pos = len content /\ (size = 15 \/ pos < size)).
Proof.
  intros Hb. unfold cl_header. destruct (read_struct content _ 0) as [vs|] eqn:E; cbn [bind]; [|discriminate].
  apply read_struct_iff in E; [|exact Hb|repeat constructor; cbn; lia|cbn; lia]. destruct E as [St F]. inv2 F.
  repeat match goal with H : fval_ok (FU _ _) ?v |- _ => is_var v; destruct v as [|]; [|contradiction] end.
  match goal with |- bind (guard (?sg =? cl_signature) _) (fun _ => bind (guard (?ty =? 0) _) (fun _ => bind (guard (?ve =? 2) _) (fun _ => bind (read_here _ _ (?sz - 16)) _))) = _ -> _ =>
    destruct (Z.eqb_spec sg cl_signature) as [E1|]; [cbn [guard bind]|discriminate]; destruct (Z.eqb_spec ty 0) as [E2|]; [cbn [guard bind]|discriminate];
    destruct (Z.eqb_spec ve 2) as [E3|]; [cbn [guard bind]|discriminate]; subst sg ty ve; rename sz into size end.
  destruct (read_here content 16 (size - 16)) as [data|] eqn:R; cbn [bind]; [|discriminate].
  pose proof (read_here_data _ _ _ _ Hb R) as Hd.
  destruct (cl_volume_path _) as [path|] eqn:V; cbn [bind]; [|discriminate].
  destruct (cl_check_size data size) as [[]|] eqn:C; cbn [bind]; [|discriminate]. intros Ep. assert (Ep' : pos = 16 + len data) by congruence. clear Ep.
  apply (check_iff _ _ Hd) in C as [Hs (front & Ef)].
  assert (P : pyslice_to data (-4) = front) by (rewrite Ef; change (-4) with (- (4)); apply pyslice_to_neg; rewrite ?len_le_enc; lia).
  rewrite P in V. assert (Hf : is_bytes front) by (rewrite Ef in Hd; apply is_bytes_app in Hd; apply Hd).
  unfold cl_volume_path in V. destruct (struct_bs _ front) as [ws|] eqn:W; cbn [as_parse_error bind] in V; [|exfalso; clear - V; destruct e; discriminate].
  apply struct_bs_iff in W; [|exact Hf|repeat constructor; cbn; lia|cbn; lia]. destruct W as (rst & Ew & Fw). inv2 Fw.
  repeat match goal with H : fval_ok (FU _ _) ?v |- _ => is_var v; destruct v as [|]; [|contradiction] end.
  match type of Ew with _ = enc_struct _ [VI ?psz; VI ?pty] ++ _ => rename psz into psize; rename pty into ptype end.
  match type of V with context [zskipn 8 front] => assert (Es : zskipn 8 front = rst) by (rewrite Ew; apply zskipn_app_len; cbn [enc_struct enc_field enc_int]; rewrite !len_app, !len_le_enc; reflexivity) end.
  rewrite Es in V. set (t := zfirstn (psize - 8) rst) in *.
  destruct (Z.eqb_spec (len t) (psize - 8)) as [Lt|]; cbn [guard bind] in V; [|discriminate].
  destruct (utf16_decode t) as [path'|] eqn:U; [|discriminate].
  destruct (Z.eqb_spec ptype 2) as [->|]; cbn [guard bind] in V; [|discriminate].
  assert (Ht : is_bytes t) by (unfold t; rewrite <- Es; apply is_bytes_zfirstn, is_bytes_zskipn, Hf).
  apply (utf16_decode_sound _ _ Ht) in U.
  assert (Er : rst = t ++ zskipn (psize - 8) rst) by (unfold t; symmetry; apply zfirstn_zskipn).
  assert (Ed : data = le_enc 4 (8 + len t) ++ le_enc 4 2 ++ t ++ zskipn (psize - 8) rst ++ le_enc 4 size).
  { rewrite Ef, Ew. rewrite Er at 1. cbn [enc_struct enc_field enc_int]. rewrite ?app_nil_r, <- !app_assoc. replace (8 + len t) with psize by lia. reflexivity. }
  exists size, path', t, (zskipn (psize - 8) rst). split; [exact Hs|]. split; [exact U|].
  assert (I : 16 <= len content).
  { apply stored_at_inside in St as [_ St]. cbn [enc_struct enc_field enc_int] in St. rewrite !len_app, !len_le_enc in St. cbn in St. lia. }
  apply read_here_ok in R; [|lia]. destruct R as (Sd & _ & R).
  assert (Ld : len data = 12 + len t + len (zskipn (psize - 8) rst)) by (rewrite Ed, !len_app, !len_le_enc; lia).
  split; [|split; [lia|]].
  - rewrite <- Ed. cbn [enc_struct enc_field enc_int] in St. rewrite <- signature_enc in St.
    replace (le_enc 4 size ++ le_enc 4 0 ++ signature ++ le_enc 4 2 ++ data) with ((le_enc 4 size ++ le_enc 4 0 ++ signature ++ le_enc 4 2 ++ []) ++ data) by (rewrite ?app_nil_r, <- !app_assoc; reflexivity).
    apply stored_at_app. split; [exact St|]. replace (0 + len (le_enc 4 size ++ le_enc 4 0 ++ signature ++ le_enc 4 2 ++ [])) with 16 by (rewrite !len_app, !len_le_enc; reflexivity). exact Sd.
  - destruct R as [R|R]; lia.
Qed.

Lemma header_err content e : is_bytes content -> cl_header content = Err e -> e = ParseError \/ e = ValueError.
Proof.
  intros Hb. unfold cl_header. destruct (read_struct content _ 0) as [vs|x] eqn:E; cbn [bind].
  2:{ intros Ex. apply read_struct_err in E; [|lia]. left. congruence. }
  apply read_struct_fval in E; [|exact Hb|repeat constructor; cbn; lia]. inv2 E.
  repeat match goal with H : fval_ok (FU _ _) ?v |- _ => is_var v; destruct v as [|]; [|contradiction] end.
  unfold guard. destruct (_ =? _); cbn [bind]; [|intros Ex; left; congruence]. destruct (_ =? _); cbn [bind]; [|intros Ex; left; congruence]. destruct (_ =? _); cbn [bind]; [|intros Ex; left; congruence].
  destruct (read_here _ _ _) as [data|x] eqn:R; cbn [bind].
  2:{ intros Ex. apply read_here_errs in R. assert (x = e) by congruence. subst x. exact R. }
  pose proof (read_here_data _ _ _ _ Hb R) as Hd.
  destruct (cl_volume_path _) as [path|x] eqn:V; cbn [bind].
  - destruct (cl_check_size data _) as [|x] eqn:C; cbn [bind]; [discriminate|]. intros Ex. left. apply check_err in C; [congruence|exact Hd].
  - intros Ex. left. assert (x = e) by congruence. subst x. clear Ex. unfold cl_volume_path in V.
    destruct (as_parse_error _) as [ws|x] eqn:W; cbn [bind] in V.
    2:{ apply struct_ape in W. congruence. }
    rewrite as_parse_error_ok in W.
    apply struct_bs_fval in W; [|apply is_bytes_zfirstn, Hd|repeat constructor; cbn; lia]. inv2 W.
    repeat match goal with H : fval_ok (FU _ _) ?v |- _ => is_var v; destruct v as [|]; [|contradiction] end.
    unfold guard in V. destruct (_ =? _); cbn [bind] in V; [|congruence]. destruct (utf16_decode _); [|congruence]. destruct (_ =? _); cbn [bind] in V; congruence.
Qed.

(** Properties of the Firefox cache version 1 readers. *)

From Verif Require Import Base BaseFacts BitFacts StrModel StrFacts TextProofs CoreModel CoreProofs VarModel VarFacts SeqModel SeqSpec SeqFacts DictModel MemModel MemSpec MemFacts Ff1Model Ff1Spec Ff1Proofs.
From Coq Require String.
Import String.StringSyntax.

(** *** C63: Firefox cache version 1 *)

(** The parts of a location are disjoint bit fields that together determine it. The reserved
    value has the bits 26, 27 and 30 as its bits 0, 1 and 4. *)
Theorem C63_location : forall z, 0 <= z < 2 ^ 32 ->
  0 <= block_number z < 2 ^ 24 /\ 0 <= extra_blocks z < 4 /\ 0 <= location_selector z < 4 /\ 0 <= location_flag z < 2 /\
  exists low high, 0 <= low < 4 /\ 0 <= high < 2 /\ location_reserved z = low + 16 * high /\
    z = block_number z + 2 ^ 24 * extra_blocks z + 2 ^ 26 * low + 2 ^ 28 * location_selector z + 2 ^ 30 * high + 2 ^ 31 * location_flag z.
Proof.
  intros z Hz. rewrite block_number_div, extra_blocks_div, location_selector_div, location_flag_div, location_reserved_div.
  assert (M : forall a b, 0 < b -> 0 <= a mod b < b) by (intros; apply Z.mod_pos_bound; assumption).
  split; [apply M; lia|]. split; [apply M; lia|]. split; [apply M; lia|]. split; [apply M; lia|].
  exists ((z / 2 ^ 26) mod 4), ((z / 2 ^ 30) mod 2). split; [apply M; lia|]. split; [apply M; lia|]. split; [reflexivity|].
  assert (D : forall b c d, 0 < b -> 0 < c -> d = b * c -> z / b = c * (z / d) + (z / b) mod c).
  { intros b c d Hb Hc ->. rewrite <- Z.div_div by lia. apply Z.div_mod. lia. }
  pose proof (Z.div_mod z (2 ^ 24) ltac:(lia)) as E0. pose proof (D (2 ^ 24) 4 (2 ^ 26) eq_refl eq_refl eq_refl) as E1.
  pose proof (D (2 ^ 26) 4 (2 ^ 28) eq_refl eq_refl eq_refl) as E2. pose proof (D (2 ^ 28) 4 (2 ^ 30) eq_refl eq_refl eq_refl) as E3.
  pose proof (D (2 ^ 30) 2 (2 ^ 31) eq_refl eq_refl eq_refl) as E4. pose proof (D (2 ^ 31) 2 (2 ^ 32) eq_refl eq_refl eq_refl) as E5.
  assert (E6 : z / 2 ^ 32 = 0) by (apply Z.div_small; lia). clear M D.
  repeat match goal with E : context [?a mod ?b] |- _ => generalize dependent (a mod b); intros end.
  repeat match goal with E : context [?a / ?b] |- _ => generalize dependent (a / b); intros end. lia.
Qed.
Print Assumptions C63_location.

(** Every field value is the location of some field values. *)
Theorem C63_fields : forall block extra low selector high flag,
  0 <= block < 2 ^ 24 -> 0 <= extra < 4 -> 0 <= low < 4 -> 0 <= selector < 4 -> 0 <= high < 2 -> 0 <= flag < 2 ->
  let z := block + 2 ^ 24 * extra + 2 ^ 26 * low + 2 ^ 28 * selector + 2 ^ 30 * high + 2 ^ 31 * flag in
  block_number z = block /\ extra_blocks z = extra /\ location_selector z = selector /\ location_reserved z = low + 16 * high /\ location_flag z = flag.
Proof.
  intros block extra low selector high flag Hb He Hl Hs Hh Hf z.
  destruct (C63_location z ltac:(unfold z; lia)) as (B1 & B2 & B3 & B4 & lo & hi & B5 & B6 & -> & E). unfold z in E at 1. lia.
Qed.
Print Assumptions C63_fields.

(** Different locations are shown differently. *)
Theorem C63_location_text : forall a b, 0 <= a < 2 ^ 32 -> 0 <= b < 2 ^ 32 -> format_location a = format_location b -> a = b.
Proof.
  intros a b Ha Hb E. unfold format_location in E.
  apply app_inv_head in E. change (s2z ", extra blocks: ") with (44 :: s2z " extra blocks: ") in E. cbn [app] in E.
  unfold fmt_d in E. apply fmt_sep in E as [E1 E]; [|lia]. apply app_inv_head in E.
  change (s2z ", location selector: ") with (44 :: s2z " location selector: ") in E. cbn [app] in E. apply fmt_sep in E as [E2 E]; [|lia]. apply app_inv_head in E.
  change (s2z ", reserved: ") with (44 :: s2z " reserved: ") in E. cbn [app] in E. apply fmt_sep in E as [E3 E]; [|lia]. apply app_inv_head in E.
  change (s2z ", location flag: ") with (44 :: s2z " location flag: ") in E. cbn [app] in E. unfold fmt_x in E. apply fmt_sep in E as [E4 E]; [|lia]. apply app_inv_head in E.
  apply fmt_int_inj in E; [|lia].
  destruct (C63_location a Ha) as (A1 & A2 & A3 & A4 & la & ha & A5 & A6 & A7 & A8). destruct (C63_location b Hb) as (B1 & B2 & B3 & B4 & lb & hb & B5 & B6 & B7 & B8). lia.
Qed.
Print Assumptions C63_location_text.

Example C63_location_case : format_location 3992977663 = s2z "block number: 255, extra blocks: 2, location selector: 2, reserved: 13, location flag: 1".
Proof. vm_compute. reflexivity. Qed.

(** A map file is read, into its header and its records in order, exactly if it consists of
    these; everything else is a ParseError. *)
Theorem C63_map : forall content h l, is_bytes content ->
  (read_map_file (S (length content)) content = Done (Ok (h, l)) <-> ff_map h l content).
Proof.
  intros content h l Hb. rewrite ff_map_iff. unfold read_map_file. split.
  - destruct (read_map_header content) as [h'|] eqn:E; [|discriminate].
    apply (map_header_iff _ _ Hb) in E as (minor & data_size & rest & -> & F & S & L).
    destruct (read_map_records _ content 276) as [[l'|]|] eqn:E2; [|discriminate|discriminate]. cbn [rbind]. intros H.
    assert (h = VI 1 :: minor :: VI data_size :: rest /\ l = l') as [-> ->] by (split; congruence).
    assert (Lh : len (enc_struct ff_header_kinds (VI 1 :: minor :: VI data_size :: rest)) = 276) by (unfold len; rewrite (enc_struct_length _ _ F), header_size; reflexivity).
    pose proof (stored_at_inside _ _ _ S) as I. apply (map_records_iff _ Hb) in E2 as (R & S2 & L2); [|lia|unfold len; lia].
    assert (data_size = 16 * len l') as -> by lia. exists minor, rest. repeat (split; [first [reflexivity|assumption]|]).
    destruct S as (p1 & post & E & Lp). destruct p1; [|rewrite len_cons in Lp; pose proof (len_nonneg p1); lia]. cbn [app] in E.
    rewrite E at 1. f_equal. apply stored_at_iff in S2 as (_ & _ & S2). rewrite E in S2 at 1. rewrite zskipn_app_len in S2 by lia.
    change (post = concat (map enc_record l')). rewrite <- S2. symmetry. apply zfirstn_all.
    assert (LR : len (concat (map enc_record l')) = 16 * len l').
    { clear -R. induction R as [|r l R _ IH]; [reflexivity|]. cbn [map concat]. rewrite len_app, len_cons, IH, len_record by exact R. lia. }
    rewrite LR. apply (f_equal (@len Z)) in E. rewrite len_app in E. lia.
  - intros (minor & rest & -> & F & R & ->). change (fun r => concat (map (be_enc 4) r)) with enc_record. set (h := VI 1 :: minor :: VI (16 * len l) :: rest) in *.
    assert (Lh : len (enc_struct ff_header_kinds h) = 276) by (unfold len; rewrite (enc_struct_length _ _ F), header_size; reflexivity).
    assert (LR : len (concat (map enc_record l)) = 16 * len l).
    { clear -R. induction R as [|r l R _ IH]; [reflexivity|]. cbn [map concat]. rewrite len_app, len_cons, IH, len_record by exact R. lia. }
    change (fun r => concat (map (be_enc 4) r)) with enc_record in Hb.
    rewrite (proj2 (map_header_iff _ h Hb)).
    + match goal with |- context [read_map_records ?f ?c 276] => assert (E2 : read_map_records f c 276 = Done (Ok l)) end; [|rewrite E2; reflexivity].
      apply (map_records_iff _ Hb); [rewrite len_app, Lh; change (len (concat (map enc_record l)) = 16 * len l) in LR; pose proof (len_nonneg l); rewrite LR; lia|unfold len; lia|].
      split; [exact R|]. rewrite len_app, Lh, LR. split; [|lia]. exists (enc_struct ff_header_kinds h), []. rewrite app_nil_r. auto.
    + exists minor, (16 * len l), rest. split; [reflexivity|]. split; [exact F|]. rewrite len_app, Lh, LR. split; [|lia]. exists [], (concat (map enc_record l)). auto.
Qed.
Print Assumptions C63_map.

Theorem C63_map_errors : forall content r, is_bytes content -> read_map_file (S (length content)) content = r ->
  (exists h l, r = Done (Ok (h, l))) \/ r = Done (Err ParseError).
Proof.
  intros content r Hb <-. unfold read_map_file. destruct (read_map_header content) as [h|e] eqn:E.
  - apply (map_header_iff _ _ Hb) in E as (_ & _ & _ & _ & F & S0 & _). pose proof (stored_at_inside _ _ _ S0) as I.
    assert (Lh : len (enc_struct ff_header_kinds h) = 276) by (unfold len; rewrite (enc_struct_length _ _ F), header_size; reflexivity). rewrite Lh in I.
    assert (G : forall fuel off, 0 <= off -> len content - off < Z.of_nat fuel -> (exists l, read_map_records fuel content off = Done (Ok l)) \/ read_map_records fuel content off = Done (Err ParseError)).
    { induction fuel as [|fuel IH]; intros off Ho Hf; cbn [read_map_records]; (destruct (Z.ltb_spec off (len content)); [|eauto]); [lia|].
      destruct (read_struct content ff_record_kinds off) as [vs|x] eqn:E; [|right; apply (read_struct_err _ _ _ _ Ho) in E; subst; reflexivity].
      destruct (IH (off + 16) ltac:(lia) ltac:(lia)) as [[l ->]| ->]; cbn [rbind]; eauto. }
    destruct (G (S (length content)) 276 ltac:(lia) ltac:(unfold len; lia)) as [[l ->]| ->]; cbn [rbind]; eauto.
  - right. unfold read_map_header in E. destruct (read_struct content ff_header_kinds 0) as [vs|x] eqn:E2.
    + apply (read_struct_iff _ _ _ _ Hb header_kinds_wf ltac:(rewrite header_size; lia)) in E2 as [S F].
      change ff_header_kinds with (FU BE 2 :: FU BE 2 :: FU BE 4 :: [FS BE 4; FU BE 4; FS BE 4] ++ repeat (FU BE 4) 64) in F.
      apply F2_cons in F as (v1 & vs1 & -> & H1 & F). apply F2_cons in F as (v2 & vs2 & -> & H2 & F). apply F2_cons in F as (v3 & vs3 & -> & H3 & F).
      destruct v1 as [major|]; [|contradiction]. destruct v3 as [data_size|]; [|contradiction]. cbn [bind] in E.
      destruct (major =? 1); cbn [guard bind] in E; [|congruence]. destruct (data_size =? len content - 276); cbn [guard bind] in E; congruence.
    + apply read_struct_err in E2; [|lia]. cbn [bind] in E. congruence.
Qed.
Print Assumptions C63_map_errors.

Example C63_map_case : exists h l, len l = 3 /\ nth 1 l [] = [1; 2; 3; 4] /\ ff_map h l (enc_struct ff_header_kinds h ++ concat (map enc_record l)) /\
  read_map_file 400 (enc_struct ff_header_kinds h ++ concat (map enc_record l)) = Done (Ok (h, l)).
Proof.
  exists (VI 1 :: VI 19 :: VI 48 :: map VI (map Z.of_nat (seq 0 67))), [[5; 6; 7; 8]; [1; 2; 3; 4]; [4294967295; 0; 2717909247; 9]].
  split; [reflexivity|]. split; [reflexivity|]. split; [|vm_compute; reflexivity].
  apply ff_map_iff. exists (VI 19), (map VI (map Z.of_nat (seq 0 67))). split; [reflexivity|]. split; [|split; [repeat constructor; lia|reflexivity]].
  unfold ff_header_kinds. cbn [map app repeat seq]. repeat constructor; vm_compute; (discriminate || reflexivity || lia).
Qed.

(** A block file is read into the entries that start in the blocks that no earlier entry takes,
    in order; of these those with major version 1 are reported. *)
Theorem C63_blocks : forall content filename size, is_bytes content -> block_size_of filename = Ok size ->
  exists l, ff_blocks size content 0 l /\ read_block_file (S (length content)) filename content = Done (Ok (filter version_1 l)) /\
    forall l', ff_blocks size content 0 l' -> l' = l.
Proof.
  intros content filename size Hb E. unfold read_block_file. rewrite E.
  assert (Hs : 0 < size). { unfold block_size_of in E. repeat destruct (list_eqb _ _); congruence || (injection E as <-; lia). }
  destruct (blocks_done content size Hb Hs (S (length content)) 0 ltac:(lia) ltac:(unfold len; lia)) as [l L].
  exists l. pose proof (blocks_iff content size Hb Hs (S (length content)) 0) as B. split; [|split].
  - apply B; [lia|unfold len; lia|exact L].
  - rewrite L. cbn [rbind]. rewrite (filter_ext reported version_1); [reflexivity|]. intros [|[z| | |] e]; reflexivity.
  - intros l' L'. apply B in L'; [|lia|unfold len; lia]. congruence.
Qed.
Print Assumptions C63_blocks.

(** The block size is that of the file name; other names are refused. *)
Theorem C63_names : forall filename fuel content,
  (block_size_of filename = Ok 256 <-> filename = s2z "_CACHE_001_") /\ (block_size_of filename = Ok 1024 <-> filename = s2z "_CACHE_002_") /\
  (block_size_of filename = Ok 4096 <-> filename = s2z "_CACHE_003_") /\
  (~ In filename (map s2z ["_CACHE_001_"; "_CACHE_002_"; "_CACHE_003_"]%string) -> read_block_file fuel filename content = Done (Err ParseError)).
Proof.
  intros filename fuel content. unfold read_block_file, block_size_of.
  destruct (list_eqb filename (s2z "_CACHE_001_")) eqn:N1; [apply list_eqb_eq in N1; subst filename; repeat split; try discriminate; intros []; left; reflexivity|].
  destruct (list_eqb filename (s2z "_CACHE_002_")) eqn:N2; [apply list_eqb_eq in N2; subst filename; repeat split; try discriminate; intros []; right; left; reflexivity|].
  destruct (list_eqb filename (s2z "_CACHE_003_")) eqn:N3; [apply list_eqb_eq in N3; subst filename; repeat split; try discriminate; intros []; right; right; left; reflexivity|].
  apply list_eqb_neq in N1, N2, N3. repeat split; congruence || discriminate.
Qed.
Print Assumptions C63_names.

(** Entries that are written one after the other, each from the start of a block, are all read. *)
Theorem C63_written : forall size, 0 < size -> forall l, Forall (fun x => exists n, ff_entry_enc (fst x) (fst (snd x)) /\ 0 <= n * size - len (fst (snd x)) < size /\
    len (fst (snd x)) + len (snd (snd x)) = n * size) l ->
  ff_blocks size (concat (map (fun x => fst (snd x) ++ snd (snd x)) l)) 0 (map fst l).
Proof.
  intros size Hs l F. set (content := concat _).
  assert (G : forall l0 pre, pre ++ concat (map (fun x : list mval * (bytes * bytes) => fst (snd x) ++ snd (snd x)) l0) = content ->
    Forall (fun x => exists n, ff_entry_enc (fst x) (fst (snd x)) /\ 0 <= n * size - len (fst (snd x)) < size /\ len (fst (snd x)) + len (snd (snd x)) = n * size) l0 ->
    ff_blocks size content (len pre) (map fst l0)).
  { induction l0 as [|[e [d pad]] l0 IH]; intros pre E F0.
    - cbn [map concat] in E. rewrite app_nil_r in E. subst pre. apply fb_end. lia.
    - inversion F0 as [|? ? (n & M & Hn & Hp) F1]; subst. cbn [fst snd] in *. cbn [map concat fst snd] in *. assert (Ld := entry_len _ _ M).
      assert (Lc := f_equal (@len Z) E). rewrite !len_app in Lc. pose proof (len_nonneg pad). match type of Lc with context [len (concat ?x)] => pose proof (len_nonneg (concat x)) end.
      apply (fb_entry _ _ _ _ d n); [lia| |lia|].
      + split; [exact M|]. rewrite <- E. exists pre. eexists. split; [|reflexivity]. rewrite <- !app_assoc. reflexivity.
      + replace (len pre + n * size) with (len (pre ++ d ++ pad)) by (rewrite !len_app; lia). apply IH; [|exact F1]. rewrite <- E. rewrite <- !app_assoc. reflexivity. }
  apply (G l []); [reflexivity|exact F].
Qed.
Print Assumptions C63_written.

(** Two entries of 40 and 300 bytes in blocks of 256 bytes. *)
Definition case_entry (major : Z) (request : bytes) (information : bytes) : list mval :=
  [MI major; MI 19; MI 2717909247; MI 3; MI 10; MI 11; MI 12; MI 13; MI (len request); MI (len information); MB request; MB information].
Definition case_data (major : Z) (request information : bytes) : bytes :=
  be_enc 2 major ++ be_enc 2 19 ++ be_enc 4 2717909247 ++ be_enc 4 3 ++ be_enc 4 10 ++ be_enc 4 11 ++ be_enc 4 12 ++ be_enc 4 13
  ++ be_enc 4 (len request) ++ be_enc 4 (len information) ++ request ++ information.

Definition case_file : bytes :=
  case_data 1 [72; 84] [1; 2] ++ repeat 0 216 ++ case_data 1 (repeat 65 200) (repeat 0 64) ++ repeat 0 212 ++ case_data 0 [] [] ++ repeat 0 220.

Example C63_case : read_block_file 1500 (s2z "_CACHE_001_") case_file = Done (Ok [case_entry 1 [72; 84] [1; 2]; case_entry 1 (repeat 65 200) (repeat 0 64)]).
Proof. vm_compute. reflexivity. Qed.

(** Blocks that are not entries of version 1 can hide entries: the sizes in them are used. *)
Theorem C63_hidden_refuted : exists content e d, len content mod 256 = 0 /\ mint 0 e = 1 /\ entry_at content 512 e d /\ read_block_file (S (length content)) (s2z "_CACHE_001_") content = Done (Ok []).
Proof.
  set (c := case_data 0 [] (repeat 65 600) ++ repeat 0 132). set (d := case_data 1 [72; 84] [1; 2]).
  exists (zfirstn 512 c ++ d ++ repeat 0 216), (case_entry 1 [72; 84] [1; 2]), d.
  split; [vm_compute; reflexivity|]. split; [reflexivity|]. split; [|vm_compute; reflexivity].
  assert (B : is_bytes (zfirstn 512 c ++ d ++ repeat 0 216)) by (apply is_bytes_forallb; vm_compute; reflexivity).
  assert (E : read_mems (zfirstn 512 c ++ d ++ repeat 0 216) 512 [] ff_entry = Ok (case_entry 1 [72; 84] [1; 2], 552)) by (vm_compute; reflexivity).
  apply (entry_iff _ _ _ _ B) in E as (d' & A & L); [|vm_compute; split; discriminate].
  assert (d' = d) as <-; [|exact A]. destruct A as [_ A]. apply stored_at_iff in A as (_ & _ & A). assert (L' : len d' = 40) by lia. rewrite L' in A. rewrite <- A. vm_compute. reflexivity.
Qed.
Print Assumptions C63_hidden_refuted.

(** An entry with a request that is not ASCII is not reported. *)
Theorem C63_non_ascii_refuted : exists content, content = case_data 1 [72; 233] [1; 2] /\ read_block_file (S (length content)) (s2z "_CACHE_001_") content = Done (Ok []) /\
  read_block_file (S (length content)) (s2z "_CACHE_001_") (case_data 1 [72; 101] [1; 2]) = Done (Ok [case_entry 1 [72; 101] [1; 2]]).
Proof. eexists. split; [reflexivity|]. split; vm_compute; reflexivity. Qed.
Print Assumptions C63_non_ascii_refuted.

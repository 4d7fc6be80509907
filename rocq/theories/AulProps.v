(** Properties of the auxiliary files of Apple Unified Logging. *)

From Verif Require Import Base CoreModel StrModel BaseFacts AulModel AulSpec AulFloat AulProofs.

(** *** C41: lookups by range *)

(** A reference into a range that no earlier range contains or ends at is resolved with
    that range: the string is the NUL-terminated string at the corresponding position of the
    string data, and the image is the one of the range. *)
Theorem C41_image_values : forall utf8 content pre g post ref s t,
  Forall (fun h => ~ touches (dd_range_offset (dg_desc h)) (dd_range_size (dg_desc h)) ref) pre ->
  inside (dd_range_offset (dg_desc g)) (dd_range_size (dg_desc g)) ref ->
  cstring_at content (dd_data_offset (dg_desc g) + (ref - dd_range_offset (dg_desc g))) s -> utf8 s = Some t ->
  get_image_values utf8 content (pre ++ g :: post) ref false =
  Ok (Some (mkiv (du_id (dg_uuid g)) (du_path (dg_uuid g)) t (du_text_offset (dg_uuid g)))).
Proof.
  intros utf8 content pre g post ref s t Hpre Hg Hs Ht.
  rewrite (get_image_values_first utf8 content pre g post ref false Hpre) by (unfold inside, touches in *; cbn [look_start look_size]; lia).
  unfold dsc_hit. rewrite (read_string_at _ _ _ s t Hs Ht). reflexivity.
Qed.
Print Assumptions C41_image_values.

(** Dynamic strings are looked up in the image texts and always have the format "%s". *)
Theorem C41_image_values_dynamic : forall utf8 content pre g post ref,
  Forall (fun h => ~ touches (du_text_offset (dg_uuid h)) (du_text_size (dg_uuid h)) ref) pre ->
  inside (du_text_offset (dg_uuid g)) (du_text_size (dg_uuid g)) ref ->
  get_image_values utf8 content (pre ++ g :: post) ref true =
  Ok (Some (mkiv (du_id (dg_uuid g)) (du_path (dg_uuid g)) (s2z "%s") (du_text_offset (dg_uuid g)))).
Proof.
  intros utf8 content pre g post ref Hpre Hg.
  rewrite (get_image_values_first utf8 content pre g post ref true Hpre) by (unfold inside, touches in *; cbn [look_start look_size]; lia).
  reflexivity.
Qed.
Print Assumptions C41_image_values_dynamic.

(** Nothing is returned exactly when the reference is in no range and at the end of none. *)
Theorem C41_image_values_none : forall utf8 content ranges ref dyn,
  get_image_values utf8 content ranges ref dyn = Ok None <->
  Forall (fun h => ~ touches (look_start dyn h) (look_size dyn h) ref) ranges.
Proof. exact get_image_values_none. Qed.
Print Assumptions C41_image_values_none.

(** The first byte of a range that follows another range directly is resolved with the
    wrong range. *)
Theorem C41_boundary_refuted : forall utf8 content g1 g2 rest dyn,
  0 <= look_size dyn g1 -> 0 < look_size dyn g2 ->
  look_start dyn g2 = look_start dyn g1 + look_size dyn g1 ->
  let ref := look_start dyn g2 in
  inside (look_start dyn g2) (look_size dyn g2) ref /\
  ~ inside (look_start dyn g1) (look_size dyn g1) ref /\
  forall v, get_image_values utf8 content (g1 :: g2 :: rest) ref dyn = Ok v ->
    exists i, v = Some i /\ iv_id i = du_id (dg_uuid g1) /\ iv_path i = du_path (dg_uuid g1).
Proof.
  intros utf8 content g1 g2 rest dyn H1 H2 H3 ref. unfold inside. split; [unfold ref; lia|]. split; [unfold ref; lia|].
  intros v. change (g1 :: g2 :: rest) with ([] ++ g1 :: g2 :: rest).
  rewrite (get_image_values_first utf8 content [] g1 (g2 :: rest) ref dyn);
    [|constructor|unfold touches, ref; lia].
  unfold dsc_hit. destruct (if dyn then _ else _) as [s|]; [|discriminate]. cbn [bind]. intros [= <-].
  eexists. split; [reflexivity|]. split; reflexivity.
Qed.
Print Assumptions C41_boundary_refuted.

(** The same for the strings of uuidtext files. *)
Theorem C41_strings : forall utf8 content pre e post ref s t,
  Forall (fun h => ~ touches (ut_offset h) (ut_size h) ref) pre ->
  inside (ut_offset e) (ut_size e) ref ->
  cstring_at content (ut_file_offset e + (ref - ut_offset e)) s -> utf8 s = Some t ->
  get_string utf8 content (pre ++ e :: post) ref = Ok (Some t).
Proof.
  intros utf8 content pre e post ref s t Hpre He Hs Ht.
  rewrite get_string_first by (try assumption; unfold inside, touches in *; lia).
  rewrite (read_string_at _ _ _ s t Hs Ht). reflexivity.
Qed.
Print Assumptions C41_strings.

Theorem C41_strings_none : forall utf8 content entries ref,
  get_string utf8 content entries ref = Ok None <->
  Forall (fun h => ~ touches (ut_offset h) (ut_size h) ref) entries.
Proof. exact get_string_none. Qed.
Print Assumptions C41_strings_none.

(** Two blocks of strings that follow each other in the file: the first string of the
    second block is found when its references do not follow those of the first block. When
    they do, the code reads at the end of the first block; this is the same string only
    because the blocks follow each other in the file, too. *)
Theorem C41_strings_boundary : forall utf8 content pre e1 e2 post s t,
  Forall (fun h => ~ touches (ut_offset h) (ut_size h) (ut_offset e2)) pre ->
  0 <= ut_size e1 -> ut_offset e2 = ut_offset e1 + ut_size e1 ->
  ut_file_offset e2 = ut_file_offset e1 + ut_size e1 ->
  cstring_at content (ut_file_offset e2) s -> utf8 s = Some t ->
  get_string utf8 content (pre ++ e1 :: e2 :: post) (ut_offset e2) = Ok (Some t).
Proof.
  intros utf8 content pre e1 e2 post s t Hpre Hz He Hf Hs Ht.
  rewrite get_string_first by (try assumption; unfold touches; lia).
  replace (ut_file_offset e1 + (ut_offset e2 - ut_offset e1)) with (ut_file_offset e2) by lia.
  rewrite (read_string_at _ _ _ s t Hs Ht). reflexivity.
Qed.
Print Assumptions C41_strings_boundary.

(** Behind the last string of the references the code reads a string of another block. *)
Definition end_blocks : list ut_block := [mkub 100 (s2z "a" ++ [0]); mkub 900 (s2z "other" ++ [0])].

Theorem C41_strings_end_refuted :
  Forall (fun b => ~ inside (ub_offset b) (len (ub_data b)) 102) end_blocks /\
  exists entries, read_uuidtext Some (uuidtext_bytes end_blocks (s2z "/p") []) = Ok (entries, s2z "/p") /\
  get_string Some (uuidtext_bytes end_blocks (s2z "/p") []) entries 102 = Ok (Some (s2z "other")).
Proof.
  split; [|eexists; split; [vm_compute; reflexivity|vm_compute; reflexivity]].
  unfold end_blocks, inside. repeat constructor; cbn [ub_offset ub_data];
    intros H; vm_compute in H; destruct H as [H1 H2]; try discriminate H2; apply H1; reflexivity.
Qed.
Print Assumptions C41_strings_end_refuted.

Example C41_case :
  let u1 := mkdu (repeat 1 16) (s2z "/a") 4096 100 in
  let u2 := mkdu (repeat 2 16) (s2z "/b") 8192 100 in
  let g1 := mkdg (mkdd 0 1000 6 0) u1 in
  let g2 := mkdg (mkdd 6 1006 6 1) u2 in
  let content := s2z "first" ++ [0] ++ s2z "other" ++ [0] in
  get_image_values Some content [g1; g2] 1007 false = Ok (Some (mkiv (repeat 2 16) (s2z "/b") (s2z "ther") 8192)) /\
  get_image_values Some content [g1; g2] 1006 false = Ok (Some (mkiv (repeat 1 16) (s2z "/a") (s2z "other") 4096)) /\
  get_image_values Some content [g1; g2] 8200 true = Ok (Some (mkiv (repeat 2 16) (s2z "/b") (s2z "%s") 8192)) /\
  get_image_values Some content [g1; g2] 999 false = Ok None.
Proof. repeat split; vm_compute; reflexivity. Qed.

(** *** C42: timestamps *)

(** What the object knows after a tracev3 file of the boot [id] was opened next to a timesync
    directory whose first file that concerns the boot stores the boot record [b] followed by
    the sync records [sync]: every time is converted relative to the sync record in force,
    with the timebase of the boot record. *)
Theorem C42_timestamp : forall fuel lower ht hnum hden id before name l after c un num den btime tz dst pad sync,
  Forall (passed_over lower id fuel) before -> ends_with (lower name) (s2z ".timesync") = true ->
  Forall stored_ok l -> (length l < fuel)%nat ->
  boot_session id l (SBoot un id num den btime tz dst pad) sync ->
  0 <= num -> 0 < den -> hden <> 0 ->
  exists c', open_clock fuel lower ht hnum hden id (Some (before ++ (name, ts_file l) :: after)) c = Done (Ok c') /\
  (forall time i r, in_force (concat (map sync_view sync)) time i r ->
     exists n, get_timestamp c' time = sy_time r + n /\ close_to n (time - sy_kernel r) num den) /\
  (forall time, 0 <= time -> Forall (fun r => time < sy_kernel r) (concat (map sync_view sync)) ->
     exists n, get_timestamp c' time = btime + n /\ close_to n time num den).
Proof.
  intros fuel lower ht hnum hden id before name l after c un num den btime tz dst pad sync H1 H2 H3 H4 H5 Hn Hd Hh.
  unfold open_clock. assert (exists htb, fl_div hnum hden = Ok htb) as [htb ->].
  { unfold fl_div. destruct (Z.eqb_spec hden 0); [contradiction|]. eexists. reflexivity. }
  unfold read_timesync. rewrite (collect_files_boot fuel lower id before name l _ sync _ after H1 H2 H3 H4 H5 eq_refl).
  cbn [bt_num bt_den]. assert (exists tb, fl_div num den = Ok tb) as [tb Etb].
  { unfold fl_div. destruct (Z.eqb_spec den 0); [lia|]. eexists. reflexivity. }
  rewrite Etb. cbn [bind]. eexists. split; [reflexivity|].
  unfold get_timestamp. cbn [ck_sorted ck_timebase ck_boot bt_time]. fold (syncs sync). split.
  - intros time i r Hr. rewrite (get_in_force _ _ _ _ Hr). destruct Hr as (_ & Hk & _).
    eexists. split; [reflexivity|]. apply scale_close; try assumption; lia.
  - intros time Ht HF. rewrite (get_not_in_force _ _ HF).
    eexists. split; [reflexivity|]. apply scale_close; assumption.
Qed.
Print Assumptions C42_timestamp.

(** Without a directory, or with one that has no record of the boot, a new object converts
    times with the values of the file header. *)
Theorem C42_header_only : forall fuel lower ht hnum hden id dir,
  match dir with Some files => Forall (passed_over lower id fuel) files | None => True end ->
  0 <= hnum -> 0 < hden ->
  exists c', open_clock fuel lower ht hnum hden id dir clock_init = Done (Ok c') /\
  forall time, 0 <= time -> exists n, get_timestamp c' time = ht * 1000000000 + n /\ close_to n time hnum hden.
Proof.
  intros fuel lower ht hnum hden id dir Hdir Hn Hd.
  unfold open_clock. assert (exists htb, fl_div hnum hden = Ok htb) as [htb E].
  { unfold fl_div. destruct (Z.eqb_spec hden 0); [lia|]. eexists. reflexivity. }
  rewrite E. unfold read_timesync. destruct dir as [files|].
  - rewrite <- (app_nil_r files). rewrite collect_files_before by exact Hdir. cbn [collect_files].
    eexists. split; [reflexivity|]. intros time Ht. unfold get_timestamp.
    cbn [ck_sorted clock_init get_timesync_record ck_boot ck_header_time ck_header_timebase].
    eexists. split; [reflexivity|]. apply scale_close; assumption.
  - eexists. split; [reflexivity|]. intros time Ht. unfold get_timestamp.
    cbn [ck_sorted clock_init get_timesync_record ck_boot ck_header_time ck_header_timebase].
    eexists. split; [reflexivity|]. apply scale_close; assumption.
Qed.
Print Assumptions C42_header_only.

(** Times that are converted relative to the same record keep their order. *)
Theorem C42_monotone : forall boot sync sorted num den tb ht hnum hden htb x y,
  0 <= num -> 0 <= den -> fl_div num den = Ok tb ->
  0 <= hnum -> 0 <= hden -> fl_div hnum hden = Ok htb ->
  let c := mkclock boot sync sorted tb ht htb in
  0 <= x -> x <= y -> get_timesync_record sorted x = get_timesync_record sorted y ->
  get_timestamp c x <= get_timestamp c y.
Proof.
  intros boot sync sorted num den tb ht hnum hden htb x y Hn Hd E Hhn Hhd Eh c Hx Hxy Hr. unfold get_timestamp, c.
  cbn [ck_sorted ck_boot ck_timebase ck_header_time ck_header_timebase]. rewrite Hr.
  pose proof (fl_div_nonneg _ _ _ Hn Hd E). pose proof (fl_div_nonneg _ _ _ Hhn Hhd Eh).
  destruct (get_timesync_record sorted y) as [r|] eqn:G.
  - apply get_in in Hr. pose proof (scale_mono tb (x - sy_kernel r) (y - sy_kernel r) H ltac:(lia) ltac:(lia)). lia.
  - destruct boot as [b|].
    + pose proof (scale_mono tb x y H ltac:(lia) ltac:(lia)). lia.
    + pose proof (scale_mono htb x y H0 ltac:(lia) ltac:(lia)). lia.
Qed.
Print Assumptions C42_monotone.

(** With a timebase that is a whole number, such as 1/1, and up to 2^53 nanoseconds (104
    days) after the record the conversion is exact. *)
Theorem C42_exact : forall c k den time r,
  get_timesync_record (ck_sorted c) time = Some r -> sy_kernel r <= time ->
  0 < k <= 2 ^ 53 -> 0 < den -> fl_div (k * den) den = Ok (ck_timebase c) ->
  (time - sy_kernel r) * k <= 2 ^ 53 ->
  get_timestamp c time = sy_time r + (time - sy_kernel r) * k.
Proof.
  intros c k den time r Hr Hle Hk Hd Htb Hx. unfold get_timestamp. rewrite Hr.
  rewrite (scale_exact k den (time - sy_kernel r) (ck_timebase c)); [reflexivity|lia|exact Hd| |exact Hx|exact Htb].
  split; [lia|]. nia.
Qed.
Print Assumptions C42_exact.

(** Beyond that the floating-point multiplication loses nanoseconds, and different times
    get the same timestamp. *)
Theorem C42_rounding_refuted :
  let c := mkclock None [] [mksync 32 0 0] fl_one 0 fl_one in
  get_timestamp c (2 ^ 53 + 1) <> 2 ^ 53 + 1 /\
  get_timestamp c (2 ^ 53 + 1) = get_timestamp c (2 ^ 53).
Proof. vm_compute. split; [discriminate|reflexivity]. Qed.
Print Assumptions C42_rounding_refuted.

(** An object that is used for a second file for which there are no timesync records
    converts its times with the sync records of the first file. *)
Theorem C42_reopen_refuted : forall fuel lower ht hnum hden id c r time,
  hden <> 0 -> get_timesync_record (ck_sorted c) time = Some r ->
  exists c', open_clock fuel lower ht hnum hden id None c = Done (Ok c') /\
  ck_boot c' = None /\ ck_sync c' = [] /\
  get_timestamp c' time = get_timestamp c time.
Proof.
  intros fuel lower ht hnum hden id c r time Hh Hr. unfold open_clock.
  assert (exists htb, fl_div hnum hden = Ok htb) as [htb ->].
  { unfold fl_div. destruct (Z.eqb_spec hden 0); [contradiction|]. eexists. reflexivity. }
  eexists. split; [reflexivity|]. split; [reflexivity|]. split; [reflexivity|].
  unfold get_timestamp. cbn [ck_sorted ck_timebase]. rewrite Hr. reflexivity.
Qed.
Print Assumptions C42_reopen_refuted.

(** A denominator of 0 in the file header, or in the boot record, is a ZeroDivisionError
    instead of a parse error. *)
Theorem C42_zero_denominator_refuted :
  (forall fuel lower ht hnum id dir c,
     open_clock fuel lower ht hnum 0 id dir c = Done (Err ZeroDivisionError)) /\
  (forall fuel lower ht hnum hden id before name l after c un num btime tz dst pad sync,
     Forall (passed_over lower id fuel) before -> ends_with (lower name) (s2z ".timesync") = true ->
     Forall stored_ok l -> (length l < fuel)%nat ->
     boot_session id l (SBoot un id num 0 btime tz dst pad) sync ->
     open_clock fuel lower ht hnum hden id (Some (before ++ (name, ts_file l) :: after)) c =
     Done (Err ZeroDivisionError)).
Proof.
  split; [reflexivity|].
  intros fuel lower ht hnum hden id before name l after c un num btime tz dst pad sync H1 H2 H3 H4 H5.
  unfold open_clock. destruct (fl_div hnum hden) as [htb|e] eqn:E.
  - unfold read_timesync. rewrite (collect_files_boot fuel lower id before name l _ sync _ after H1 H2 H3 H4 H5 eq_refl). reflexivity.
  - unfold fl_div in E. destruct (hden =? 0); [|discriminate]. injection E as <-. reflexivity.
Qed.
Print Assumptions C42_zero_denominator_refuted.

Example C42_case :
  let id := repeat 7 16 in
  let l := [SBoot 0 (repeat 8 16) 1 1 5 0 0 []; SSync 0 9 9 0 0 [];
            SBoot 0 id 125 3 1000 0 0 []; SSync 0 40 3000 0 0 []; SSync 0 10 2000 0 0 []; SSync 0 40 3500 0 0 [];
            SBoot 0 (repeat 9 16) 1 1 5 0 0 []; SSync 0 60 9 0 0 []] in
  match open_clock 9 (fun s => s) 1 1 1 id (Some [(s2z "x.txt", []); (s2z "0.timesync", ts_file l)]) clock_init with
  | Done (Ok c) => map (get_timestamp c) [3; 10; 39; 40; 70] = [1125; 2000; 3208; 3000; 4250]
  | _ => False
  end.
Proof. vm_compute. reflexivity. Qed.

(** *** C43: trace identifiers *)

Theorem C43_trace_identifier : forall r f l t r' f' l' t',
  u 4 r -> u 2 f -> u 1 l -> u 1 t -> u 4 r' -> u 2 f' -> u 1 l' -> u 1 t' ->
  trace_identifier r f l t = trace_identifier r' f' l' t' -> r = r' /\ f = f' /\ l = l' /\ t = t'.
Proof.
  intros r f l t r' f' l' t' H1 H2 H3 H4 H5 H6 H7 H8. rewrite !trace_identifier_sum by assumption.
  unfold u in *. change (256 ^ Z.of_nat 4) with (2 ^ 32) in *. change (256 ^ Z.of_nat 2) with (2 ^ 16) in *.
  change (256 ^ Z.of_nat 1) with (2 ^ 8) in *. lia.
Qed.
Print Assumptions C43_trace_identifier.

(** The identifier is a 64-bit value in which the fields are readable in hexadecimal. *)
Theorem C43_trace_identifier_fields : forall r f l t, u 4 r -> u 2 f -> u 1 l -> u 1 t ->
  let i := trace_identifier r f l t in
  u 8 i /\ i / 2 ^ 32 = r /\ i / 2 ^ 16 mod 2 ^ 16 = f /\ i / 2 ^ 8 mod 2 ^ 8 = l /\ i mod 2 ^ 8 = t.
Proof.
  intros r f l t H1 H2 H3 H4. cbv zeta. rewrite trace_identifier_sum by assumption.
  unfold u in *. change (256 ^ Z.of_nat 4) with (2 ^ 32) in *. change (256 ^ Z.of_nat 2) with (2 ^ 16) in *.
  change (256 ^ Z.of_nat 1) with (2 ^ 8) in *. change (256 ^ Z.of_nat 8) with (2 ^ 64).
  replace (r * 2 ^ 32 + f * 2 ^ 16 + l * 2 ^ 8 + t) with (t + 2 ^ 8 * (l + 2 ^ 8 * (f + 2 ^ 16 * r))) by lia.
  repeat split; lia.
Qed.
Print Assumptions C43_trace_identifier_fields.

Example C43_case : trace_identifier 4660 514 16 4 = 20014581288964.
Proof. vm_compute. reflexivity. Qed.

(** *** C44: reading timesync records *)

Theorem C44_records : forall l fuel, Forall stored_ok l -> (length l < fuel)%nat ->
  read_records fuel (ts_file l) 0 = (map stored_view l, GStop).
Proof. intros. apply read_records_ok; assumption. Qed.
Print Assumptions C44_records.

(** Reading ends, normally or with a parse error, for every content in which no record
    declares the size 0. *)
Theorem C44_terminates : forall content, is_bytes content ->
  (forall off r, read_record content off = Ok r -> rec_size r <> 0) ->
  snd (read_records (length content + 1) content 0) = GStop \/
  snd (read_records (length content + 1) content 0) = GErr ParseError.
Proof.
  intros content Hb Hz. apply read_records_ends; try assumption; [lia|]. unfold len. lia.
Qed.
Print Assumptions C44_terminates.

(** A record that declares the size 0 is yielded again and again: whatever the number of
    records one asks for, the reader does not come to an end. *)
Theorem C44_size_zero_refuted : forall l unknown kernel time tz dst rest n,
  Forall stored_ok l -> u 4 unknown -> u 8 kernel -> s64 time -> s32 tz -> u 4 dst ->
  read_records (length l + n)
    (ts_file l ++ (s2z "Ts" ++ le_enc 2 0 ++ le_enc 4 unknown ++ le_enc 8 kernel ++ s_enc 8 time ++ s_enc 4 tz ++ le_enc 4 dst) ++ rest) 0 =
  (map stored_view l ++ repeat (Sync (mksync 0 kernel time)) n, GFuel).
Proof.
  intros l unknown kernel time tz dst rest n Hl H1 H2 H3 H4 H5.
  set (z := s2z "Ts" ++ _).
  pose proof (read_records_prefix l [] (z ++ rest) n Hl) as E. cbn [app] in E.
  rewrite (len_nil (A := Z)), Z.add_0_l in E. rewrite E.
  assert (Ez : z = enc_struct sync_layout [VB (s2z "Ts"); VI 0; VI unknown; VI kernel; VI time; VI tz; VI dst]).
  { unfold z, s_enc. cbn [enc_struct enc_field enc_int sync_layout]. rewrite app_nil_r. reflexivity. }
  assert (R : read_record (ts_file l ++ z ++ rest) (len (ts_file l)) = Ok (Sync (mksync 0 kernel time))).
  { unfold read_record.
    destruct (read_data_app (ts_file l) (s2z "Ts")
       ((le_enc 2 0 ++ le_enc 4 unknown ++ le_enc 8 kernel ++ s_enc 8 time ++ s_enc 4 tz ++ le_enc 4 dst) ++ rest)
       (len (ts_file l)) 2 eq_refl eq_refl) as [f F].
    rewrite app_assoc with (l := s2z "Ts") in F. fold z in F. rewrite F. cbn [bind].
    change (list_eqb (s2z "Ts") boot_signature) with false. change (list_eqb (s2z "Ts") sync_signature) with true. cbn match.
    rewrite Ez. rewrite CoreProofs.read_struct_enc; [reflexivity| |reflexivity].
    unfold sync_layout. fields_ok; try (split; [reflexivity|apply is_bytes_forallb; reflexivity]); try (split; [lia|assumption]).
    change (256 ^ Z.of_nat 2) with 65536. lia. }
  rewrite (read_records_loop _ _ _ n) with (2 := R); [reflexivity| |reflexivity].
  rewrite !len_app. pose proof (len_nonneg rest). unfold z. rewrite len_app. change (len (s2z "Ts")) with 2.
  match goal with |- context [2 + ?x] => pose proof (len_nonneg (le_enc 2 0 ++ le_enc 4 unknown ++ le_enc 8 kernel ++ s_enc 8 time ++ s_enc 4 tz ++ le_enc 4 dst)) end.
  lia.
Qed.
Print Assumptions C44_size_zero_refuted.

Example C44_case :
  read_records 4 (ts_file [SBoot 0 (repeat 7 16) 125 3 (-5) (-60) 1 [1; 2]; SSync 0 40 3000 0 0 []]) 0 =
  ([Boot (mkboot 50 (repeat 7 16) 125 3 (-5)); Sync (mksync 32 40 3000)], GStop).
Proof. vm_compute. reflexivity. Qed.

(** *** C77: uuidtext files *)

(** The string at a reference of a block is read whatever other blocks there are, as long as
    no earlier block contains the reference or ends at it. *)
Theorem C77_uuidtext : forall utf8 pre b post path p trailing a s z t,
  let blocks := pre ++ b :: post in
  Forall block_ok blocks -> u 4 (len blocks) -> ~ In 0 path -> utf8 path = Some p ->
  ub_data b = a ++ s ++ 0 :: z -> ~ In 0 s -> utf8 s = Some t ->
  Forall (fun b' => ~ touches (ub_offset b') (len (ub_data b')) (ub_offset b + len a)) pre ->
  exists entries, read_uuidtext utf8 (uuidtext_bytes blocks path trailing) = Ok (entries, p) /\
    get_string utf8 (uuidtext_bytes blocks path trailing) entries (ub_offset b + len a) = Ok (Some t).
Proof.
  intros utf8 pre b post path p trailing a s z t blocks H1 H2 H3 H4 H5 H6 H7 H8.
  eexists. split; [apply read_uuidtext_ok; eassumption|]. eapply uuidtext_string; eassumption.
Qed.
Print Assumptions C77_uuidtext.

Example C77_case :
  let file := uuidtext_bytes [mkub 100 (s2z "a" ++ [0] ++ s2z "bc" ++ [0]); mkub 900 (s2z "other" ++ [0])] (s2z "/p") [] in
  match read_uuidtext Some file with
  | Ok (entries, path) => path = s2z "/p" /\ get_string Some file entries 102 = Ok (Some (s2z "bc")) /\
      get_string Some file entries 900 = Ok (Some (s2z "other")) /\ get_string Some file entries 906 = Ok (Some (s2z "/p"))
  | Err _ => False
  end.
Proof. vm_compute. repeat split; reflexivity. Qed.

(** *** C78: DSC files *)

(** Every range is reported with the image that its descriptor refers to. *)
Theorem C78_ranges : forall utf8 version descs uuids data images ranges,
  version = 1 \/ version = 2 -> u 4 (len descs) -> u 4 (len uuids) ->
  Forall (desc_ok version) descs -> Forall (uuid_ok version) uuids ->
  Forall2 (image_of utf8 (dsc_bytes version descs uuids data)) uuids images ->
  Forall2 (fun d g => dg_desc g = d /\ nth_error images (Z.to_nat (dd_uuid_index d)) = Some (dg_uuid g)) descs ranges ->
  read_dsc utf8 (dsc_bytes version descs uuids data) = Ok ranges.
Proof.
  intros utf8 version descs uuids data images ranges H1 H2 H3 H4 H5 H6 H7.
  rewrite (read_dsc_parts utf8 version descs uuids data images) by assumption. apply resolve_ranges_ok.
  clear H6. induction H7 as [|d g descs ranges [E1 E2] _ IH]; constructor.
  - split; [|split; assumption]. inversion H4 as [|? ? (_ & _ & _ & B) _]; subst. unfold u in B. lia.
  - apply IH; [|inversion H4; assumption]. rewrite len_cons in H2. unfold u in *. pose proof (len_nonneg descs). lia.
Qed.
Print Assumptions C78_ranges.

(** A descriptor that refers to an image that is not in the table makes the whole file
    unreadable, with IndexError instead of a parse error. *)
Theorem C78_image_index_refuted : forall utf8 version descs uuids data images,
  version = 1 \/ version = 2 -> u 4 (len descs) -> u 4 (len uuids) ->
  Forall (desc_ok version) descs -> Forall (uuid_ok version) uuids ->
  Forall2 (image_of utf8 (dsc_bytes version descs uuids data)) uuids images ->
  Exists (fun d => len uuids <= dd_uuid_index d) descs ->
  read_dsc utf8 (dsc_bytes version descs uuids data) = Err IndexError.
Proof.
  intros utf8 version descs uuids data images H1 H2 H3 H4 H5 H6 H7.
  rewrite (read_dsc_parts utf8 version descs uuids data images) by assumption. apply resolve_ranges_err.
  - eapply Forall_impl; [|exact H4]. intros d (_ & _ & _ & B). unfold u in B. lia.
  - replace (len images) with (len uuids); [exact H7|]. clear - H6. unfold len.
    induction H6; cbn [length]; [reflexivity|lia].
Qed.
Print Assumptions C78_image_index_refuted.

Example C78_case :
  let file := dsc_bytes 2 [mkdd 96 1000 6 0] [mkud 4096 100 (repeat 1 16) 72] (s2z "/usr/lib/libobjc.A.dylib" ++ [0] ++ s2z "first" ++ [0]) in
  read_dsc Some file = Ok [mkdg (mkdd 96 1000 6 0) (mkdu (repeat 1 16) (s2z "/usr/lib/libobjc.A.dylib") 4096 100)] /\
  read_dsc Some (dsc_bytes 1 [mkdd 0 0 0 1] [mkud 0 0 (repeat 1 16) 60] [0]) = Err IndexError.
Proof. vm_compute. split; reflexivity. Qed.

(** Properties of how a tracev3 file is opened. *)

From Verif Require Import Base BaseFacts CoreModel StrModel TextModel TextProofs SeqSpec RdModel TvModel TvSpec TvProofs FhSpec AulModel AulSpec AulProofs AulProps SdModel SdSpec TvoModel TvoSpec TvoProofs.
From Coq Require String.
Import String.StringSyntax.

(** *** C106: opening a tracev3 file *)

(** The strings of a file in a log archive, at most two directories below it, are those of the archive, and
    its timesync records those of the directory timesync, or else of diagnostics/timesync. *)
Theorem C106_archive : forall lower there p dirs name base, Forall name_ok (dirs ++ [name]) -> in_archive lower dirs base -> there (abs_path (base ++ [s2z "dsc"%string])) = true ->
  exists sync, first_there there (pl_sync p) (timesync_of base) sync /\ locate lower there (abs_path (dirs ++ [name])) p = Ok (mkplace (Some (abs_path base)) sync).
Proof.
  intros lower there p dirs name base F A D. exists (sync_in there p base). split; [apply sync_in_first|]. eapply locate_archive; [apply split_abs, F|exact A|exact D].
Qed.
Print Assumptions C106_archive.

(** The strings of a file that is not in a log archive, such as /private/var/db/diagnostics/Persist/x, are
    those of the directory uuidtext two directories above, and so for the timesync records. *)
Theorem C106_database : forall lower there p dirs name base, Forall name_ok (dirs ++ [name]) -> in_database lower dirs base ->
  exists text sync, first_there there (pl_text p) [base ++ [s2z "uuidtext"%string]] text /\ first_there there (pl_sync p) (timesync_of base) sync /\
    locate lower there (abs_path (dirs ++ [name])) p = Ok (mkplace text sync).
Proof.
  intros lower there p dirs name base F A. destruct (locate_database lower there _ p dirs name base (split_abs _ F) A) as (text & H & E). exists text, (sync_in there p base).
  split; [exact H|]. split; [apply sync_in_first|exact E].
Qed.
Print Assumptions C106_database.

(** A file is opened if and only if its places can be determined, it begins with a header chunk whose flags
    are supported and whose timebase is not a division by zero, the position of the next chunk is one that
    the file accepts, and the timesync records can be read. The identifier of the boot is that of the
    header, and reading goes on with the next chunk. *)
Theorem C106_opened : forall fuel w path content p c t, is_bytes content ->
  (open_trace fuel w path content p c = Done (Ok t) <->
   exists p' h next dir c', locate (w_lower w) (w_there w) path p = Ok p' /\ begins (w_utf8 w) content h next /\ Z.odd (hd_flags h) = true /\ w_seek w next = Ok tt /\ hd_den h <> 0 /\
     match pl_sync p' with None => dir = None | Some d => exists l, w_list w d = Ok l /\ dir = Some l end /\
     open_clock fuel (w_lower w) (hd_time h) (hd_num h) (hd_den h) (hd_boot h) dir c = Done (Ok c') /\ t = mktrace p' (hd_boot h) c' next).
Proof.
  intros fuel w path content p c t Hb. split.
  - intros H. apply open_inv in H as (p' & h & next & dir & c' & H1 & H2 & H3 & H4 & H5 & H6 & H7 & H8); [|exact Hb]. exists p', h, next, dir, c'. repeat (split; [assumption|]). split; [|auto].
    unfold sync_dir in H6. destruct (pl_sync p') as [d|]; [|congruence]. destruct (w_list w d) as [l|]; [|discriminate]. injection H6 as <-. eauto.
  - intros (p' & h & next & dir & c' & H1 & H2 & H3 & H4 & H5 & H6 & H7 & ->). rewrite (open_eq fuel w path content p c p' h next dir Hb H1 H2 H3 H4 H5); [now rewrite H7|].
    unfold sync_dir. destruct (pl_sync p') as [d|]; [|congruence]. destruct H6 as (l & -> & ->). reflexivity.
Qed.
Print Assumptions C106_opened.

(** A file that does not begin with such a header is a ParseError. *)
Theorem C106_not_a_header : forall fuel w path content p c p', is_bytes content -> locate (w_lower w) (w_there w) path p = Ok p' ->
  (forall h next, begins (w_utf8 w) content h next -> Z.odd (hd_flags h) = false) -> open_trace fuel w path content p c = Done (Err ParseError).
Proof.
  intros fuel w path content p c p' Hb L N. unfold open_trace. rewrite L. cbn [bind]. pose proof (start_errors (w_utf8 w) content) as X.
  destruct (rd_chunk content 0) as [[[tag size] q]|e] eqn:C; cbn [bind] in X |- *; [|now rewrite (X e Hb eq_refl)].
  destruct (read_header (w_utf8 w) content 16) as [h|e] eqn:R; cbn [bind] in X |- *; [|now rewrite (X e Hb eq_refl)]. exfalso.
  pose proof (chunk_pos _ _ _ _ Hb C) as ->. destruct (proj1 (read_start (w_utf8 w) content h (tv_align (16 + size)) Hb)) as [B O]; [exists tag, size; auto|]. rewrite (N _ _ B) in O. discriminate.
Qed.
Print Assumptions C106_not_a_header.

(** From the path to the log entries. A file is opened next to a timesync directory whose first file that
    concerns the boot of the header has the boot record and then the sync records [sync]: the strings are
    looked for where they are, all times are converted with these records, and the log entries are one for
    the boot, one for each of the sync records in the order of the file, and then those of the chunks. *)
Theorem C106_session : forall {E S} text upper lz4 (calls : tv_calls E S) st es r fuel w path content p c ptext dir h next before name l after un num den btime tz dst pad sync,
  is_bytes content -> locate (w_lower w) (w_there w) path p = Ok (mkplace ptext (Some dir)) ->
  begins (w_utf8 w) content h next -> Z.odd (hd_flags h) = true -> w_seek w next = Ok tt -> hd_den h <> 0 ->
  w_list w dir = Ok (before ++ (name, ts_file l) :: after) ->
  Forall (passed_over (w_lower w) (hd_boot h) fuel) before -> ends_with (w_lower w name) (s2z ".timesync") = true -> Forall stored_ok l -> (length l < fuel)%nat ->
  boot_session (hd_boot h) l (SBoot un (hd_boot h) num den btime tz dst pad) sync -> 0 <= num -> 0 < den ->
  tv_entries lz4 calls content next st = Some (es, r) ->
  exists t, open_trace fuel w path content p c = Done (Ok t) /\ pl_text (tr_place t) = ptext /\
    (forall time i x, in_force (concat (map sync_view sync)) time i x -> exists n, get_timestamp (tr_clock t) time = sy_time x + n /\ close_to n (time - sy_kernel x) num den) /\
    (forall time, 0 <= time -> Forall (fun x => time < sy_kernel x) (concat (map sync_view sync)) -> exists n, get_timestamp (tr_clock t) time = btime + n /\ close_to n time num den) /\
    log_entries text upper lz4 calls content t st =
      Some (inl (mktimed (hd_boot h) (s2z "=== system boot: "%string ++ upper (text (hd_boot h))) (s2z "timesyncEvent"%string) 0 None 0 btime 0) ::
            map (fun x => inl (mktimed (hd_boot h) (s2z "=== system wallclock time adjusted"%string) (s2z "timesyncEvent"%string) (sy_kernel x) (Some 0) 0 (sy_time x) 0)) (concat (map sync_view sync)) ++
            map inr es, r).
Proof.
  intros E S text upper lz4 calls st es r fuel w path content p c ptext dir h next before name l after un num den btime tz dst pad sync Hb L B O Sk D Ld H1 H2 H3 H4 H5 Hn Hd Tv.
  destruct (C42_timestamp fuel (w_lower w) (hd_time h) (hd_num h) (hd_den h) (hd_boot h) before name l after c un num den btime tz dst pad sync H1 H2 H3 H4 H5 Hn Hd D) as (c' & Oc & T1 & T2).
  exists (mktrace (mkplace ptext (Some dir)) (hd_boot h) c' next).
  rewrite (open_eq fuel w path content p c _ h next (Some (before ++ (name, ts_file l) :: after)) Hb L B O Sk D); [|unfold sync_dir; cbn [pl_sync]; now rewrite Ld].
  rewrite Oc. split; [reflexivity|]. split; [reflexivity|]. split; [exact T1|]. split; [exact T2|].
  assert (X : ck_boot c' = Some (mkboot (stored_size (SBoot un (hd_boot h) num den btime tz dst pad)) (hd_boot h) num den btime) /\ ck_sync c' = concat (map sync_view sync)).
  { unfold open_clock in Oc. destruct (fl_div (hd_num h) (hd_den h)) as [htb|]; [|discriminate]. unfold read_timesync in Oc.
    rewrite (collect_files_boot fuel (w_lower w) (hd_boot h) before name l _ sync _ after H1 H2 H3 H4 H5 eq_refl) in Oc. cbn [bt_num bt_den] in Oc. destruct (fl_div num den) as [tb|]; [|discriminate].
    cbn [bind] in Oc. injection Oc as <-. split; reflexivity. }
  destruct X as [X1 X2]. unfold log_entries, time_entries. cbn [tr_tell tr_clock tr_boot]. rewrite Tv, X1, X2. cbn [app map]. now rewrite map_map.
Qed.
Print Assumptions C106_session.

(** Without a timesync directory, or with one that does not know the boot, there are the log entries of the
    chunks only, and a new object converts times with the values of the header. *)
Theorem C106_no_session : forall {E S} text upper lz4 (calls : tv_calls E S) st es r fuel w path content p p' h next,
  is_bytes content -> locate (w_lower w) (w_there w) path p = Ok p' -> begins (w_utf8 w) content h next -> Z.odd (hd_flags h) = true -> w_seek w next = Ok tt -> 0 < hd_den h ->
  match pl_sync p' with None => True | Some d => exists l, w_list w d = Ok l /\ Forall (passed_over (w_lower w) (hd_boot h) fuel) l end ->
  tv_entries lz4 calls content next st = Some (es, r) ->
  exists t, open_trace fuel w path content p clock_init = Done (Ok t) /\ log_entries text upper lz4 calls content t st = Some (map inr es, r) /\
    (forall time, 0 <= time -> exists n, get_timestamp (tr_clock t) time = hd_time h * 1000000000 + n /\ close_to n time (hd_num h) (hd_den h)).
Proof.
  intros E S text upper lz4 calls st es r fuel w path content p p' h next Hb L B O Sk D Ld Tv.
  assert (exists dir, sync_dir w p' = Ok dir /\ match dir with Some files => Forall (passed_over (w_lower w) (hd_boot h) fuel) files | None => True end) as (dir & Ed & Fd).
  { unfold sync_dir. destruct (pl_sync p') as [d|]; [|now exists None]. destruct Ld as (l & -> & F). now exists (Some l). }
  assert (Hn : 0 <= hd_num h). { destruct B as (? & ? & ? & ? & ? & _ & Hh & _). apply FhProofs.fields_cons in Hh as (? & ? & [? _] & _). unfold n32 in *. lia. }
  destruct (C42_header_only fuel (w_lower w) (hd_time h) (hd_num h) (hd_den h) (hd_boot h) dir Fd Hn D) as (c' & Oc & T).
  exists (mktrace p' (hd_boot h) c' next). rewrite (open_eq fuel w path content p clock_init p' h next dir Hb L B O Sk ltac:(lia) Ed), Oc. split; [reflexivity|]. split; [|exact T].
  assert (X : ck_boot c' = None /\ ck_sync c' = []).
  { unfold open_clock in Oc. destruct (fl_div (hd_num h) (hd_den h)) as [htb|]; [|discriminate]. unfold read_timesync in Oc. destruct dir as [files|]; [|injection Oc as <-; split; reflexivity].
    rewrite <- (app_nil_r files) in Oc. rewrite collect_files_before in Oc by exact Fd. cbn [collect_files] in Oc. injection Oc as <-. split; reflexivity. }
  destruct X as [X1 X2]. unfold log_entries, time_entries. cbn [tr_tell tr_clock tr_boot]. rewrite Tv, X1, X2. reflexivity.
Qed.
Print Assumptions C106_no_session.

(** Not all files can be opened: one that is not in a log archive and has fewer than two directories above
    it is an IndexError, whatever it contains. All other paths have places. *)
Theorem C106_short_path_refuted : forall lower there path p,
  (locate lower there path p = Err IndexError /\ forall fuel w content c, w_lower w = lower -> w_there w = there -> open_trace fuel w path content p c = Done (Err IndexError)) <->
  (forall dirs name, split_path path = dirs ++ [name] -> Forall (fun s => ~ archive_name lower s) dirs /\ (length dirs < 2)%nat).
Proof.
  intros lower there path p. split.
  - intros [E _] dirs name Hp. destruct (home_cases lower dirs) as [[base A]|[[base A]|H]]; [| |exact H].
    + destruct (there (abs_path (base ++ [s2z "dsc"%string]))) eqn:D; [rewrite (locate_archive _ _ _ _ _ _ _ Hp A D) in E|rewrite (locate_archive_none _ _ _ _ _ _ _ Hp A D) in E]; discriminate.
    + destruct (locate_database lower there path p dirs name base Hp A) as (text & _ & X). congruence.
  - intros H. assert (X := locate_short lower there path p H). split; [exact X|]. intros fuel w content c E1 E2. unfold open_trace. rewrite E1, E2, X. reflexivity.
Qed.
Print Assumptions C106_short_path_refuted.

(** A relative path is taken as if it began at the root directory: the places are the same as those of the
    absolute path with the same names, in whatever directory the file is. *)
Theorem C106_relative_path_refuted : forall lower there path p, locate lower there path p = locate lower there (47 :: path) p.
Proof. intros lower there path p. rewrite !locate_eq. change (47 :: path) with ([] ++ 47 :: path). rewrite split_path_sep. reflexivity. Qed.
Print Assumptions C106_relative_path_refuted.

(** In a log archive without the directory dsc neither the strings nor the timesync records are found, even
    if there are some. *)
Theorem C106_no_dsc_refuted : forall lower there dirs name base, Forall name_ok (dirs ++ [name]) -> closed there -> in_archive lower dirs base ->
  there (abs_path (base ++ [s2z "dsc"%string])) = false -> locate lower there (abs_path (dirs ++ [name])) place_init = Ok (mkplace None None).
Proof.
  intros lower there dirs name base F Cl A D. rewrite (locate_archive_none lower there _ place_init dirs name base (split_abs _ F) A D). f_equal. f_equal.
  set (b := base ++ [s2z "dsc"%string]) in *. assert (Nb : b <> []) by (unfold b; destruct base; discriminate).
  apply (first_fun there None (timesync_of b)); [exact (sync_in_first there place_init b)|]. unfold timesync_of.
  apply ft_next; [|apply ft_next; [|apply ft_none]].
  - apply not_true_is_false. intros T. apply Cl in T; [congruence|exact Nb].
  - apply not_true_is_false. intros T. change [s2z "diagnostics"%string; s2z "timesync"%string] with ([s2z "diagnostics"%string] ++ [s2z "timesync"%string]) in T. rewrite app_assoc in T.
    apply Cl in T; [apply Cl in T; [congruence|exact Nb]|]. destruct b; discriminate.
Qed.
Print Assumptions C106_no_dsc_refuted.

(** An object that is used for a second file for which there are no strings and no timesync records uses
    those of the first file. *)
Theorem C106_reopen_refuted : forall lower there p dirs name base, Forall name_ok (dirs ++ [name]) -> in_database lower dirs base ->
  there (abs_path (base ++ [s2z "uuidtext"%string])) = false -> Forall (fun x => there (abs_path x) = false) (timesync_of base) ->
  locate lower there (abs_path (dirs ++ [name])) p = Ok p.
Proof.
  intros lower there p dirs name base F A T1 T2. destruct (C106_database lower there p dirs name base F A) as (text & sync & H1 & H2 & ->). unfold timesync_of in T2. inversion T2 as [|? ? A1 A2]; subst. inversion A2 as [|? ? A3 _]; subst.
  replace text with (pl_text p); [replace sync with (pl_sync p); [now destruct p|]|].
  - eapply first_fun; [|exact H2]. unfold timesync_of. apply ft_next; [exact A1|]. apply ft_next; [exact A3|]. apply ft_none.
  - eapply first_fun; [|exact H1]. apply ft_next; [exact T1|]. apply ft_none.
Qed.
Print Assumptions C106_reopen_refuted.

(** The tag of the first chunk, which is documented as 0x1000, is not looked at: any other tag gives the
    same. *)
Theorem C106_tag_refuted : forall fuel w path tag tag' rest p c, is_bytes rest -> n32 tag -> n32 tag' ->
  open_trace fuel w path (le_enc 4 tag ++ rest) p c = open_trace fuel w path (le_enc 4 tag' ++ rest) p c.
Proof.
  assert (Bg : forall w tag tag' rest h next, n32 tag' -> begins (w_utf8 w) (le_enc 4 tag ++ rest) h next -> begins (w_utf8 w) (le_enc 4 tag' ++ rest) h next).
  { intros w tag tag' rest h next Ht (t & size & c & d & more & (N1 & N2 & sub & N3 & ->) & Hd & E & N). exists tag', size. eexists. exists d, more. split; [split; [exact Ht|split; [exact N2|exists sub; split; [exact N3|reflexivity]]]|].
    split; [exact Hd|]. split; [|exact N]. rewrite <- !app_assoc in *. f_equal. apply RpProofs.app_split in E as [_ E]; [exact E|]. now rewrite !le_enc_length. }
  assert (Odd : forall w tag tag' rest p c, is_bytes rest -> n32 tag -> n32 tag' -> forall h next, begins (w_utf8 w) (le_enc 4 tag ++ rest) h next -> Z.odd (hd_flags h) = true ->
    forall fuel path, open_trace fuel w path (le_enc 4 tag ++ rest) p c = open_trace fuel w path (le_enc 4 tag' ++ rest) p c).
  { intros w tag tag' rest p c Hr Ht Ht' h next B O fuel path. assert (Hb : forall t, is_bytes (le_enc 4 t ++ rest)) by (intros t; apply Forall_app; split; [apply le_enc_bytes|exact Hr]).
    destruct (proj2 (read_start (w_utf8 w) _ h next (Hb tag)) (conj B O)) as (t1 & s1 & C1 & R1 & A1).
    destruct (proj2 (read_start (w_utf8 w) _ h next (Hb tag')) (conj (Bg _ _ _ _ _ _ Ht' B) O)) as (t2 & s2 & C2 & R2 & A2).
    unfold open_trace. destruct (locate _ _ path p) as [p'|]; [|reflexivity]. cbn [bind]. rewrite C1, C2. cbn [bind]. rewrite R1, R2. cbn [bind]. cbv zeta. rewrite A1, A2. reflexivity. }
  intros fuel w path tag tag' rest p c Hr Ht Ht'. assert (Hb : forall t, is_bytes (le_enc 4 t ++ rest)) by (intros t; apply Forall_app; split; [apply le_enc_bytes|exact Hr]).
  pose proof (start_errors (w_utf8 w)) as X. destruct (locate (w_lower w) (w_there w) path p) as [p'|e] eqn:L; [|unfold open_trace; rewrite L; reflexivity].
  assert (K : forall t, n32 t -> (exists h next, begins (w_utf8 w) (le_enc 4 t ++ rest) h next /\ Z.odd (hd_flags h) = true) \/ (forall h next, begins (w_utf8 w) (le_enc 4 t ++ rest) h next -> Z.odd (hd_flags h) = false)).
  { intros t Hn. set (content := le_enc 4 t ++ rest) in *. assert (Hc : is_bytes content) by apply Hb.
    destruct (rd_chunk content 0) as [[[ta si] q]|e] eqn:C.
    - pose proof (chunk_pos _ _ _ _ Hc C) as ->. destruct (read_header (w_utf8 w) content 16) as [h|e] eqn:R.
      + left. exists h, (tv_align (16 + si)). apply read_start; [exact Hc|]. exists ta, si. auto.
      + right. intros h next B. destruct (Z.odd (hd_flags h)) eqn:O; [|reflexivity]. destruct (proj2 (read_start (w_utf8 w) _ h next Hc) (conj B O)) as (? & ? & _ & Y & _). congruence.
    - right. intros h next B. destruct (Z.odd (hd_flags h)) eqn:O; [|reflexivity]. destruct (proj2 (read_start (w_utf8 w) _ h next Hc) (conj B O)) as (? & ? & Y & _). congruence. }
  destruct (K tag Ht) as [(h & next & B & O)|N]; [eapply Odd; eassumption|].
  rewrite (C106_not_a_header fuel w path _ p c p' (Hb tag) L N). symmetry. apply (C106_not_a_header fuel w path _ p c p' (Hb tag') L).
  intros h next B. apply (N h next). eapply Bg; [exact Ht|exact B].
Qed.
Print Assumptions C106_tag_refuted.

Definition sample_header : bytes :=
  le_enc 4 125 ++ le_enc 4 3 ++ le_enc 8 7 ++ le_enc 4 5 ++ repeat 0 16 ++ le_enc 4 1 ++
  le_enc 4 0x6100 ++ le_enc 4 8 ++ le_enc 8 9 ++ le_enc 4 0x6101 ++ le_enc 4 56 ++ repeat 0 8 ++ (s2z "20A1"%string ++ repeat 0 12) ++ (s2z "Mac"%string ++ repeat 0 29) ++
  le_enc 4 0x6102 ++ le_enc 4 24 ++ repeat 7 16 ++ repeat 0 8 ++ le_enc 4 0x6103 ++ le_enc 4 48 ++ repeat 0 48.

Example C106_case :
  let arch := map s2z ["x"; "A.logarchive"]%string in
  let path := abs_path (arch ++ map s2z ["Persist"; "1.tracev3"]%string) in
  let id := repeat 7 16 in
  let files := [(s2z "0.timesync"%string, ts_file [SBoot 0 id 125 3 1000 0 0 []; SSync 0 40 3000 0 0 []])] in
  let there s := existsb (list_eqb s) (map abs_path [arch ++ [s2z "dsc"%string]; arch ++ [s2z "timesync"%string]]) in
  let w := mkworld (fun s => s) Some there (fun d => if list_eqb d (abs_path (arch ++ [s2z "timesync"%string])) then Ok files else Err OSError) (fun _ => Ok tt) in
  let content := le_enc 4 0x1000 ++ le_enc 4 0 ++ le_enc 8 208 ++ sample_header in
  len sample_header = 208 /\
  match open_trace 9 w path content place_init clock_init with
  | Done (Ok t) => tr_place t = mkplace (Some (abs_path arch)) (Some (abs_path (arch ++ [s2z "timesync"%string]))) /\ tr_boot t = id /\ tr_tell t = 224 /\ get_timestamp (tr_clock t) 43 = 3125 /\
      map (fun e => (te_mach e, te_time e)) (time_entries (fun _ => []) (fun s => s) t) = [(0, 1000); (40, 3000)]
  | _ => False
  end.
Proof. vm_compute. repeat split; reflexivity. Qed.

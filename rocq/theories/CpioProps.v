(** Properties C17 - C20: CPIO archives. *)

From Verif Require Import Base BaseFacts CoreModel CoreProofs StrModel StrFacts
  CpioModel CpioSpec CpioProofs.

(** C17: an archive with a trailer, followed by anything; the file size is known or 0. *)
Theorem C17_archive_read_exactly : forall f ms tr off body tail fsz fuel,
  stored f 0 (ms ++ [(tr, off)]) body ->
  Forall (fun p => m_path (fst p) <> trailer_name) ms -> m_path tr = trailer_name ->
  fsz = len (body ++ tail) \/ fsz = 0 -> (length ms < fuel)%nat ->
  exists t, cpio_read fuel (body ++ tail) fsz = Done (Ok (f, t, len body)) /\
            Forall2 matches t (first_of_each ms).
Proof. exact cpio_read_trailer. Qed.
Print Assumptions C17_archive_read_exactly.

(** C17: an archive without a trailer that ends with the file. *)
Theorem C17_archive_without_trailer : forall f p ms body fuel,
  stored f 0 (p :: ms) body ->
  Forall (fun p => m_path (fst p) <> trailer_name) (p :: ms) ->
  (length (p :: ms) < fuel)%nat ->
  exists t, cpio_read fuel body (len body) = Done (Ok (f, t, len body)) /\
            Forall2 matches t (first_of_each (p :: ms)).
Proof. exact cpio_read_no_trailer. Qed.
Print Assumptions C17_archive_without_trailer.

(** A binary archive with a member "a" holding 5 bytes and a trailer. *)
Definition C17_member := mkmember 1 2 33188 4 5 1 0 0 0 65537 0 (s2z "a") [] [1; 2; 3; 4; 5].
Definition C17_trailer := mkmember 0 0 0 0 0 1 0 0 0 0 0 (s2z "TRAILER!!!") [] [].
Definition C17_bytes (e : endian) : bytes :=
  words e [29127; 1; 2; 33188; 4; 5; 1; 0; 1; 1; 2; 0; 5] ++ s2z "a" ++ [0] ++ [1; 2; 3; 4; 5] ++ [0] ++
  words e [29127; 0; 0; 0; 0; 0; 1; 0; 0; 0; 11; 0; 0] ++ s2z "TRAILER!!!" ++ [0] ++ [0].

Example C17_case : forall e,
  stored (CBin e) 0 [(C17_member, 28); (C17_trailer, 72)] (C17_bytes e).
Proof.
  intros e. pose (h1 := words e [29127; 1; 2; 33188; 4; 5; 1; 0; 1; 1; 2; 0; 5]).
  pose (h2 := words e [29127; 0; 0; 0; 0; 0; 1; 0; 0; 0; 11; 0; 0]).
  assert (L1 : len h1 = 26) by (destruct e; reflexivity).
  assert (L2 : len h2 = 26) by (destruct e; reflexivity).
  assert (H2 : stored (CBin e) 34 [(C17_trailer, 72)] (h2 ++ name_field C17_trailer ++ [0] ++ m_data C17_trailer ++ [] ++ [])).
  { replace 72 with (34 + len (h2 ++ name_field C17_trailer ++ [0])) by (rewrite len_app, L2; reflexivity).
    apply st_cons; [| | | |constructor].
    - cbn [header_of]. split; [reflexivity|]. split; [repeat constructor; vm_compute; congruence|].
      split; vm_compute; intuition congruence.
    - split; repeat constructor; vm_compute; congruence.
    - rewrite L2. reflexivity.
    - rewrite L2. reflexivity. }
  replace 28 with (0 + len (h1 ++ name_field C17_member ++ [])) by (rewrite len_app, L1; reflexivity).
  replace (C17_bytes e) with (h1 ++ name_field C17_member ++ [] ++ m_data C17_member ++ [0] ++
    (h2 ++ name_field C17_trailer ++ [0] ++ m_data C17_trailer ++ [] ++ [])) by reflexivity.
  apply st_cons.
  - cbn [header_of]. split; [reflexivity|]. split; [repeat constructor; vm_compute; congruence|].
    split; vm_compute; intuition congruence.
  - split; repeat constructor; vm_compute; congruence.
  - rewrite L1. reflexivity.
  - rewrite L1. reflexivity.
  - replace (0 + len (h1 ++ name_field C17_member ++ [] ++ m_data C17_member ++ [0])) with 34; [exact H2|].
    rewrite len_app, L1. reflexivity.
Qed.

(** The same member in the new ASCII layout, mixed letter case. *)
Definition C17_newc : bytes :=
  s2z "070701" ++ s2z "00000002000081a4000000040000000500000001000100010000000500000001000000000000000000000000000000020000ABcd".

Example C17_case_newc :
  header_of CNewc (mkmember 1 2 33188 4 5 1 0 0 0 65537 43981 (s2z "a") [] [1; 2; 3; 4; 5]) C17_newc.
Proof.
  eexists. split; [reflexivity|]. apply text_check_ok; [lia|reflexivity].
Qed.

(** C18: the data range of a member holds the archived bytes. *)
Theorem C18_member_data : forall f ms body tail e m o pos,
  stored f 0 ms body -> In (m, o) ms -> describes e (m, o) ->
  exists r' f', dr_read (cpio_member_range e) (mkfile (body ++ tail) pos) None =
                (Ok (m_data m), r', f').
Proof. exact member_range_read. Qed.
Print Assumptions C18_member_data.

(** C18 for the entries that reading yields. *)
Theorem C18_read_then_member_data : forall f ms tr off body tail fuel pos,
  stored f 0 (ms ++ [(tr, off)]) body ->
  Forall (fun p => m_path (fst p) <> trailer_name) ms -> m_path tr = trailer_name ->
  (length ms < fuel)%nat ->
  exists t,
    cpio_read fuel (body ++ tail) (len (body ++ tail)) = Done (Ok (f, t, len body)) /\
    forall path e, cpio_get (Some t) path = GEntry e ->
      exists m o, In (m, o) ms /\ m_path m = path /\
        fst (fst (dr_read (cpio_member_range e) (mkfile (body ++ tail) pos) None)) = Ok (m_data m).
Proof.
  intros f ms tr off body tail fuel pos Hst Hn Htr Hfuel.
  destruct (cpio_read_trailer f ms tr off body tail _ fuel Hst Hn Htr (or_introl eq_refl) Hfuel)
    as (t & E & Ht).
  exists t. split; [exact E|]. intros path e Hg.
  assert (Hin : In (path, e) t).
  { unfold cpio_get in Hg. destruct t as [|x t']; [discriminate|].
    destruct (ct_get path (x :: t')) as [e'|] eqn:Eg; [|discriminate]. injection Hg as ->.
    clear - Eg. induction (x :: t') as [|[p y] l IH]; [discriminate|]. cbn [ct_get] in Eg.
    destruct (list_eqb p path) eqn:El; [|right; auto].
    apply list_eqb_eq in El. injection Eg as ->. left. congruence. }
  assert (Hm : exists p, In p (first_of_each ms) /\ matches (path, e) p).
  { clear - Ht Hin. induction Ht as [|a b l l' Hab Hl IH]; [contradiction|].
    destruct Hin as [->|Hin]; [exists b; split; [now left|exact Hab]|].
    destruct (IH Hin) as (p & H1 & H2). exists p. split; [now right|exact H2]. }
  destruct Hm as ([m o] & Hp & Hmt & Hd). apply first_of_each_in in Hp.
  exists m, o. split; [exact Hp|]. split.
  - destruct Hd as [Hd _]. cbn [fst snd] in Hmt, Hd. congruence.
  - destruct (member_range_read f (ms ++ [(tr, off)]) body tail e m o pos Hst) as (r' & f' & Er).
    + apply in_or_app. now left.
    + exact Hd.
    + rewrite Er. reflexivity.
Qed.
Print Assumptions C18_read_then_member_data.

Example C18_case : forall e,
  stored (CBin e) 0 ([(C17_member, 28)] ++ [(C17_trailer, 72)]) (C17_bytes e) /\
  m_path C17_trailer = trailer_name /\
  Forall (fun p => m_path (fst p) <> trailer_name) [(C17_member, 28)] /\
  cpio_read 9 (C17_bytes e ++ [7; 7]) (len (C17_bytes e ++ [7; 7])) =
  Done (Ok (CBin e, [(s2z "a", mkce (s2z "a") 28 5 34 33188 65537 4 5 2)], 72)).
Proof.
  intros e. split; [exact (C17_case e)|]. split; [reflexivity|].
  split; [repeat constructor; discriminate|]. destruct e; vm_compute; reflexivity.
Qed.

(** C19: for any file that is read successfully (well-formed or not). *)
Theorem C19_table_well_formed : forall fuel content fsz f t size,
  cpio_read fuel content fsz = Done (Ok (f, t, size)) ->
  NoDup (map fst t) /\ Forall (fun pe => fst pe = ce_path (snd pe) /\ fst pe <> trailer_name) t.
Proof.
  intros fuel content fsz f t size. unfold cpio_read.
  destruct (cpio_format content) as [f'|]; [|discriminate].
  destruct (read_file_entries fuel content fsz f' 0 []) as [[[t' s']|]|] eqn:E; try discriminate.
  intros H. injection H as <- <- <-.
  apply read_file_entries_table in E; [|constructor|constructor]. tauto.
Qed.
Print Assumptions C19_table_well_formed.

(** Existence, lookup and enumeration agree: they are the same relation. *)
Theorem C19_lookups_agree : forall fuel content fsz f t size,
  cpio_read fuel content fsz = Done (Ok (f, t, size)) ->
  forall path,
    (cpio_exists (Some t) path = true <-> exists e, cpio_get (Some t) path = GEntry e) /\
    (forall e, cpio_get (Some t) path = GEntry e <->
               In e (cpio_entries (Some t) []) /\ ce_path e = path) /\
    (forall prefix e, In e (cpio_entries (Some t) prefix) <->
               (exists rest, ce_path e = prefix ++ rest) /\ cpio_get (Some t) (ce_path e) = GEntry e) /\
    cpio_exists (Some t) trailer_name = false.
Proof.
  intros fuel content fsz f t size H path.
  destruct (C19_table_well_formed _ _ _ _ _ _ H) as [Hnd Hk]. clear H.
  assert (Hget : forall p e, cpio_get (Some t) p = GEntry e <-> In (p, e) t).
  { intros p e. rewrite <- ct_get_in by exact Hnd. unfold cpio_get.
    destruct t as [|x t']; [cbn; split; discriminate|].
    destruct (ct_get p (x :: t')); split; congruence. }
  assert (Hents : forall prefix e, In e (cpio_entries (Some t) prefix) <->
            In (ce_path e, e) t /\ exists rest, ce_path e = prefix ++ rest).
  { intros prefix e.
    assert (E : cpio_entries (Some t) prefix =
                map snd (filter (fun pe => starts_with prefix (fst pe)) t)) by (destruct t; reflexivity).
    rewrite E, in_map_iff. rewrite Forall_forall in Hk. split.
    - intros ([p x] & Ex & Hin). cbn [snd] in Ex. subst x. apply filter_In in Hin. destruct Hin as [Hin Hs].
      destruct (Hk _ Hin) as [Ep _]. cbn [fst snd] in *. subst p. split; [exact Hin|].
      apply starts_with_spec. exact Hs.
    - intros [Hin Hs]. exists (ce_path e, e). split; [reflexivity|]. apply filter_In. split; [exact Hin|].
      apply starts_with_spec. exact Hs. }
  assert (Hex : forall p, cpio_exists (Some t) p = true <-> exists e, In (p, e) t).
  { intros p. unfold cpio_exists. destruct t as [|x t']; [split; [discriminate|intros [? []]]|].
    destruct (ct_get p (x :: t')) as [e|] eqn:Eg.
    - split; [|reflexivity]. intros _. exists e. apply ct_get_in; assumption.
    - split; [discriminate|]. intros [e He]. apply ct_get_in in He; [congruence|exact Hnd]. }
  split; [|split; [|split]].
  - rewrite Hex. split; intros [e He]; exists e; apply Hget; exact He.
  - intros e. rewrite Hget, Hents. rewrite Forall_forall in Hk. split.
    + intros Hin. destruct (Hk _ Hin) as [Ep _]. cbn [fst snd] in Ep. subst path.
      split; [split; [exact Hin|eexists; reflexivity]|reflexivity].
    + intros [[Hin _] <-]. exact Hin.
  - intros prefix e. rewrite Hents, Hget. tauto.
  - apply not_true_iff_false. rewrite Hex. intros [e Hin]. rewrite Forall_forall in Hk.
    apply (proj2 (Hk _ Hin)). reflexivity.
Qed.
Print Assumptions C19_lookups_agree.

(** Before reading and after Close there are no entries. *)
Theorem C19_no_table : forall path prefix,
  cpio_exists None path = false /\ cpio_get None path = GFalse /\ cpio_entries None prefix = [].
Proof. auto. Qed.
Print Assumptions C19_no_table.

(** Any other path of an archive that has entries yields None (never False) and does not
    exist. *)
Theorem C19_unknown_path : forall fuel content fsz f t size path,
  cpio_read fuel content fsz = Done (Ok (f, t, size)) ->
  t <> [] ->
  (forall e, In e (cpio_entries (Some t) []) -> ce_path e <> path) ->
  cpio_get (Some t) path = GNone /\ cpio_exists (Some t) path = false.
Proof.
  intros fuel content fsz f t size path H Hne Hno.
  destruct (C19_lookups_agree _ _ _ _ _ _ H path) as (Hex & Hget & _).
  assert (Hnot : forall e, cpio_get (Some t) path <> GEntry e).
  { intros e E. apply Hget in E. destruct E as [Hin Hp]. exact (Hno e Hin Hp). }
  split.
  - destruct t as [|x t']; [congruence|]. revert Hnot. unfold cpio_get.
    destruct (ct_get path (x :: t')) as [e|]; [|reflexivity]. intros Hnot. destruct (Hnot e). reflexivity.
  - destruct (cpio_exists (Some t) path); [|reflexivity].
    destruct (proj1 Hex eq_refl) as [e E]. destruct (Hnot e E).
Qed.
Print Assumptions C19_unknown_path.

(** GetFileEntryByPath is documented to return an entry or None, but returns False
    for every path of an archive without entries. *)
Theorem C19_empty_archive_returns_false_refuted :
  exists fuel content f t size,
    cpio_read fuel content (len content) = Done (Ok (f, t, size)) /\
    forall path, cpio_get (Some t) path = GFalse.
Proof.
  exists 2%nat, (words LE [29127; 0; 0; 0; 0; 0; 1; 0; 0; 0; 11; 0; 0] ++ s2z "TRAILER!!!" ++ [0] ++ [0]).
  exists (CBin LE), [], 38. split; [vm_compute; reflexivity|reflexivity].
Qed.
Print Assumptions C19_empty_archive_returns_false_refuted.

Definition C19_dup : bytes :=
  words LE [29127; 1; 2; 33188; 4; 5; 1; 0; 1; 1; 2; 0; 1] ++ s2z "a" ++ [0] ++ [9] ++ [0] ++ C17_bytes LE.

Example C19_case : exists t,
  cpio_read 9 C19_dup (len C19_dup) = Done (Ok (CBin LE, t, 102)) /\
  cpio_get (Some t) (s2z "a") = GEntry (mkce (s2z "a") 28 1 30 33188 65537 4 5 2) /\ length t = 1%nat.
Proof. eexists. split; [vm_compute; reflexivity|split; reflexivity]. Qed.

(** C20 *)
Theorem C20_terminates : forall content fsz fuel,
  (forall f off vs h, cpio_format content = Some f -> 0 <= off ->
     read_struct content (cpio_layout f) off = Ok vs -> cpio_header f vs = Ok h ->
     0 <= h_path_size h /\ 0 <= h_file_size h) ->
  (Z.to_nat (len content) < fuel)%nat ->
  cpio_read fuel content fsz <> OutOfFuel.
Proof. exact cpio_read_terminates. Qed.
Print Assumptions C20_terminates.

(** The binary layouts cannot express negative sizes. *)
Theorem C20_binary_terminates : forall content fsz fuel e,
  is_bytes content -> cpio_format content = Some (CBin e) ->
  (Z.to_nat (len content) < fuel)%nat ->
  cpio_read fuel content fsz <> OutOfFuel.
Proof. exact cpio_binary_terminates. Qed.
Print Assumptions C20_binary_terminates.

Example C20_case : is_bytes (C17_bytes BE) /\ cpio_format (C17_bytes BE) = Some (CBin BE).
Proof. split; [apply is_bytes_forallb|]; reflexivity. Qed.

(** A portable ASCII header with the file size "-0000000114" (octal, -76). *)
Definition C20_loop : bytes :=
  s2z "070707" ++ repeat 48 42 ++ repeat 48 11 ++ repeat 48 6 ++ s2z "-0000000114".

Lemma C20_loop_entry : exists e, read_file_entry C20_loop COdc 0 = Ok e /\ ce_size e = 0 /\ ce_path e = [].
Proof. eexists. split; [vm_compute; reflexivity|split; reflexivity]. Qed.

Lemma C20_loop_runs fuel : forall e t,
  read_file_entry C20_loop COdc 0 = Ok e -> ce_size e = 0 -> ce_path e = [] ->
  read_file_entries fuel C20_loop (len C20_loop) COdc 0 t = OutOfFuel.
Proof.
  induction fuel as [|fuel IH]; intros e t E Hs Hp; [reflexivity|].
  cbn [read_file_entries]. change (0 <? len C20_loop) with true. cbn [orb].
  rewrite E, Hs, Hp. change (list_eqb [] (s2z "TRAILER!!!")) with false. cbn iota.
  change (0 + 0) with 0. destruct (ct_get [] t); eapply IH; eauto.
Qed.

Theorem C20_termination_refuted :
  exists content, is_bytes content /\ forall fuel, cpio_read fuel content (len content) = OutOfFuel.
Proof.
  exists C20_loop. split; [apply is_bytes_forallb; reflexivity|]. intros fuel.
  destruct C20_loop_entry as (e & E & Hs & Hp).
  unfold cpio_read. change (cpio_format C20_loop) with (Some COdc). cbv iota beta.
  rewrite (C20_loop_runs fuel e [] E Hs Hp). reflexivity.
Qed.
Print Assumptions C20_termination_refuted.

(** C20: every failure is a ParseError, except a name that is not ASCII and (with a
    negative size field) a negative file position. *)
Theorem C20_entry_errors : forall content f off e,
  read_file_entry content f off = Err e ->
  e = ParseError \/ e = UnicodeDecodeError \/ (e = OSError /\ off < 0).
Proof. exact read_file_entry_err. Qed.
Print Assumptions C20_entry_errors.

(** Proofs about the hashes of the files of a CPIO archive. *)

From Verif Require Import Base BaseFacts CoreModel CoreSpec CoreProofs StrModel DictModel CpioModel CpioSpec CpioProofs CphModel CphSpec.

Lemma chunks_view : forall fuel r f, usable r -> (length (zskipn (dr_cur r) (view (fdata f) (dr_offset r) (dr_size r))) < fuel)%nat ->
  read_chunks fuel r f = Done (Ok (zskipn (dr_cur r) (view (fdata f) (dr_offset r) (dr_size r)))).
Proof.
  induction fuel as [|fuel IH]; intros r f U L; [lia|]. cbn [read_chunks].
  destruct (dr_read_view r f (Some 4096) U) as (f' & E & Ef); [cbn; lia|]. rewrite E. clear E. cbn [mem_read]. cbv zeta.
  set (v := zskipn (dr_cur r) (view (fdata f) (dr_offset r) (dr_size r))) in *.
  destruct (zfirstn 4096 v) as [|c d] eqn:Ed.
  - destruct v as [|x v']; [reflexivity|]. cbn in Ed. discriminate.
  - assert (Ev : v = (c :: d) ++ zskipn (len (c :: d)) v).
    { rewrite <- Ed. rewrite len_zfirstn. rewrite zfirstn_firstn, zskipn_skipn. pose proof (firstn_skipn (Z.to_nat 4096) v) as S. 
      replace (skipn (Z.to_nat (Z.min (Z.max 0 4096) (len v))) v) with (skipn (Z.to_nat 4096) v); [symmetry; exact S|].
      destruct (Z.leb_spec 4096 (len v)); [f_equal; lia|]. unfold len in *. rewrite !skipn_all2 by lia. reflexivity. }
    assert (U' : usable (mkrange (dr_offset r) (dr_size r) (dr_cur r + len (c :: d)))).
    { destruct U as (U1 & U2 & U3). pose proof (len_nonneg (c :: d)). unfold usable. cbn [dr_offset dr_size dr_cur]. lia. }
    assert (En : zskipn (dr_cur r + len (c :: d)) (view (fdata f) (dr_offset r) (dr_size r)) = zskipn (len (c :: d)) v).
    { unfold v. destruct U as (_ & _ & U3). pose proof (len_nonneg (c :: d)). rewrite zskipn_zskipn by lia. reflexivity. }
    rewrite IH; cbn [dr_offset dr_size dr_cur]; rewrite ?Ef, ?En.
    + cbn [rbind]. rewrite <- Ev. reflexivity.
    + exact U'.
    + rewrite Ev in L. rewrite app_length in L. cbn [length] in L. lia.
Qed.

Lemma member_chunks f ms body tail e m o fuel : stored f 0 ms body -> In (m, o) ms -> describes e (m, o) -> (length (m_data m) < fuel)%nat ->
  read_chunks fuel (cpio_member_range e) (mkfile (body ++ tail) 0) = Done (Ok (m_data m)).
Proof.
  intros S I D L. destruct (member_range_read f ms body tail e m o 0 S I D) as (r' & f' & E).
  destruct (stored_data _ _ _ _ _ _ S I) as [Ho _]. destruct D as (_ & Eo & Es & _). pose proof (len_nonneg (m_data m)).
  assert (U : usable (cpio_member_range e)) by (unfold usable, cpio_member_range, dr_new; cbn [dr_offset dr_size dr_cur]; lia).
  destruct (dr_read_view (cpio_member_range e) (mkfile (body ++ tail) 0) None U Logic.I) as (f2 & E2 & _).
  rewrite E2 in E. cbv zeta in E. cbn [mem_read] in E.
  assert (Ev : zskipn (dr_cur (cpio_member_range e)) (view (fdata (mkfile (body ++ tail) 0)) (dr_offset (cpio_member_range e)) (dr_size (cpio_member_range e))) = m_data m) by congruence.
  rewrite chunks_view; rewrite ?Ev; [reflexivity|exact U|exact L].
Qed.

Lemma first_in ms p : In p (first_of_each ms) -> In p ms.
Proof.
  revert p. induction ms as [|q ms IH]; intros p; cbn [first_of_each]; [intros []|]. intros [->|I]; [left; reflexivity|]. apply filter_In in I as [I _]. right. apply IH. exact I.
Qed.

Lemma format_piece content f : cpio_format content = Some f -> piece_type (zfirstn 6 content) = Some PCpio.
Proof.
  unfold cpio_format, piece_type. destruct (2 <? len (zfirstn 6 content)); [|discriminate]. cbv zeta.
  destruct (list_eqb _ [113; 199]); [reflexivity|]. destruct (list_eqb _ [199; 113]); [reflexivity|].
  destruct (list_eqb _ (s2z "070707"%string)); [reflexivity|]. destruct (list_eqb _ (s2z "070701"%string)); [reflexivity|]. destruct (list_eqb _ (s2z "070702"%string)); [reflexivity|]. discriminate.
Qed.

Lemma all_entries t : cpio_entries (Some t) [] = map snd t.
Proof.
  unfold cpio_entries. destruct t as [|x t]; [reflexivity|]. f_equal. induction (x :: t) as [|y l IH]; [reflexivity|]. cbn [filter starts_with]. f_equal. exact IH.
Qed.

(** What is written of an archive. *)
Definition archive_written (sha : bytes -> str) (ms : list (member * Z)) (size : Z) : written * Z :=
  match first_of_each ms with
  | [] => (([], Done (Ok tt)), size)
  | [(m, _)] => ((member_line sha m, Done (Ok tt)), size)
  | _ => (([], Done (Err TypeError)), 0)
  end.

Lemma archive_hashed sha ms body tail fuel : archive ms body -> (length ms < fuel)%nat -> (length body < fuel)%nat ->
  piece_type (zfirstn 6 (body ++ tail)) = Some PCpio /\
  match cpio_read fuel (body ++ tail) 0 with
  | OutOfFuel => (([], OutOfFuel), 0)
  | Done (Err e) => (([], Done (Err e)), 0)
  | Done (Ok (_, table, size)) =>
      match sorted_entries (cpio_entries (Some table) []) with
      | Err e => (([], Done (Err e)), 0)
      | Ok l => (hash_entries sha fuel (body ++ tail) l, size)
      end
  end = archive_written sha ms (len body).
Proof.
  intros (f & tr & off & S & N & T) L1 L2. destruct (cpio_read_trailer f ms tr off body tail 0 fuel S N T (or_intror eq_refl) L1) as (t & E & M).
  split.
  { unfold cpio_read in E. destruct (cpio_format (body ++ tail)) as [f'|] eqn:F; [|discriminate]. exact (format_piece _ _ F). }
  rewrite E. unfold archive_written.
  rewrite all_entries. pose proof (first_in ms) as FI. destruct (first_of_each ms) as [|[m o] [|q l]].
  - inversion M; subst. reflexivity.
  - inversion M as [|[p e] ? ? ? [Mp Md] M']; subst. inversion M'; subst. cbn [map sorted_entries snd hash_entries]. cbn [fst snd] in *.
    destruct Md as (D1 & D2 & D3 & D4). 
    destruct (Z.eqb_spec (ce_dsize e) 0) as [Ez|Nz].
    + unfold member_line. assert (m_data m = []) as -> by (destruct (m_data m) as [|? l0]; [reflexivity|]; rewrite len_cons in D3; pose proof (len_nonneg l0); lia). reflexivity.
    + assert (I : In (m, o) (ms ++ [(tr, off)])) by (apply in_or_app; left; apply FI; left; reflexivity).
      rewrite (member_chunks f _ body tail e m o fuel S I).
      * unfold member_line. destruct (m_data m) as [|c d] eqn:Ed; [exfalso; apply Nz; rewrite D3; reflexivity|]. cbn [then_ fst snd app]. rewrite D1. reflexivity.
      * unfold describes. auto.
      * destruct (stored_data _ _ _ _ _ _ S I) as [_ Hd]. apply Nat.le_lt_trans with (length body); [|exact L2].
        specialize (Hd [] [] eq_refl). cbn [app] in Hd. rewrite app_nil_r in Hd. pose proof (len_zfirstn (zskipn o body) (len (m_data m))) as Hl.
        rewrite Hd, len_zskipn in Hl. unfold len in *. lia.
  - inversion M as [|? ? ? ? ? M']; subst. inversion M'; subst. reflexivity.
Qed.

Definition closed (w : written) : written := then_ w close_archive.

Lemma hash_one sha unpack n fuel content : content <> [] ->
  hash_file sha unpack (S n) fuel content 0 =
  match piece_type (zfirstn 6 content) with
  | None => ([unsupported 0], Done (Ok tt))
  | Some t => closed (fst (hash_piece sha unpack fuel content 0 t))
  end.
Proof.
  intros N. destruct content as [|c content]; [contradiction|]. cbn [hash_file]. 
  assert (0 <? len (c :: content) = true) as -> by (apply Z.ltb_lt; rewrite len_cons; pose proof (len_nonneg content); lia).
  unfold f_seek. cbn [Z.ltb Z.compare]. rewrite zskipn_0 by lia. destruct (piece_type _); [|reflexivity].
  destruct (hash_piece _ _ _ _ _ _) as [w size]. reflexivity.
Qed.

Lemma hash_archive sha unpack n fuel content data ms body tail : archive_data unpack content data -> data = body ++ tail -> archive ms body ->
  (length ms < fuel)%nat -> (length body < fuel)%nat ->
  hash_file sha unpack (S n) fuel content 0 = closed (fst (archive_written sha ms (len body))).
Proof.
  intros D -> A L1 L2. destruct (archive_hashed sha ms body tail fuel A L1 L2) as [P H].
  assert (K : content <> [] /\ exists t, piece_type (zfirstn 6 content) = Some t /\ match t with PCpio => Ok content | _ => unpack t (zskipn 0 content) end = Ok (body ++ tail)).
  { rewrite zskipn_0 by lia. destruct D as [<-|[(L & E & U)|[(L & E & U)|(E & U)]]].
    - split; [intros E; rewrite E in P; discriminate|]. exists PCpio. auto.
    - destruct content as [|a [|b [|c r]]]; try discriminate; try (exfalso; cbn in L; lia). split; [discriminate|]. cbn in E. injection E as -> ->. exists PGzip. split; [|exact U].
      clear. unfold piece_type. 
      assert (2 <? len (31 :: 139 :: zfirstn 4 (c :: r)) = true) as K by (apply Z.ltb_lt; cbn; pose proof (len_nonneg (zfirstn 3 r)); unfold len in *; cbn [length]; lia).
      cbn in K |- *. rewrite K. reflexivity.
    - destruct content as [|a [|b [|c r]]]; try discriminate; try (exfalso; cbn in L; lia). split; [discriminate|]. cbn in E. injection E as -> ->. exists PBzip. split; [|exact U].
      clear. unfold piece_type.
      assert (2 <? len (31 :: 139 :: zfirstn 4 (c :: r)) = true) as K by (apply Z.ltb_lt; cbn; pose proof (len_nonneg (zfirstn 3 r)); unfold len in *; cbn [length]; lia).
      cbn in K |- *. rewrite K. reflexivity.
    - split; [intros ->; discriminate|]. exists PXz. rewrite E. split; [reflexivity|exact U]. }
  destruct K as (N & t & Et & Ed). rewrite hash_one by exact N. rewrite Et. unfold hash_piece. rewrite Ed, H. reflexivity.
Qed.

Lemma piece_recognised content t : piece_type (zfirstn 6 content) = Some t -> recognised content.
Proof.
  unfold piece_type, recognised. destruct (Z.ltb_spec 2 (len (zfirstn 6 content))) as [L|]; [|discriminate]. rewrite len_zfirstn in L. intros H. split; [lia|].
  assert (T : zfirstn 2 (zfirstn 6 content) = zfirstn 2 content).
  { rewrite !zfirstn_firstn, firstn_firstn. reflexivity. }
  rewrite T in H. cbn [In].
  repeat match goal with H : context [list_eqb ?a ?b] |- _ => let E := fresh "E" in destruct (list_eqb a b) eqn:E; [apply list_eqb_eq in E|clear E]; cbn [orb] in H end; try discriminate;
    repeat match goal with E : _ = ?x |- _ => match x with s2z _ => let v := eval vm_compute in x in change x with v in E | _ :: s2z _ ++ _ => let v := eval vm_compute in x in change x with v in E end end; 
    rewrite ?E, ?E0, ?E1, ?E2; tauto.
Qed.

Lemma unrecognised content : recognised content -> piece_type (zfirstn 6 content) <> None.
Proof.
  unfold piece_type, recognised. intros (L & H). 
  assert (2 <? len (zfirstn 6 content) = true) as -> by (rewrite len_zfirstn; apply Z.ltb_lt; lia).
  assert (T : zfirstn 2 (zfirstn 6 content) = zfirstn 2 content).
  { rewrite !zfirstn_firstn, firstn_firstn. reflexivity. }
  rewrite T. cbn [In] in H.
  repeat match goal with |- context [list_eqb ?a ?b] => let E := fresh "E" in destruct (list_eqb a b) eqn:E; [cbn [orb]; discriminate|]; cbn [orb] end.
  exfalso. destruct H as [H|H]; repeat (destruct H as [H|H]; [rewrite <- H in *; try discriminate|]); try contradiction.
Qed.

Lemma hash_entries_lines sha fuel data l : (length (fst (hash_entries sha fuel data l)) <= length l)%nat.
Proof.
  induction l as [|e l IH]; [cbn; lia|]. cbn [hash_entries length]. destruct (_ =? 0); [lia|]. destruct (read_chunks _ _ _) as [[d|x]|]; cbn [then_ fst app length]; lia.
Qed.

Lemma piece_lines sha unpack fuel content off t : (length (fst (fst (hash_piece sha unpack fuel content off t))) <= 1)%nat.
Proof.
  unfold hash_piece. destruct (match t with PCpio => _ | _ => _ end) as [d|]; [|cbn; lia]. destruct (cpio_read _ _ _) as [[[[? tb] ?]|]|]; try (cbn; lia).
  unfold sorted_entries. destruct (cpio_entries _ _) as [|a [|b l]]; cbn [fst]; try (cbn; lia). apply (hash_entries_lines sha fuel d [a]).
Qed.

Lemma closed_fails w : snd (closed w) <> Done (Ok tt) /\ length (fst (closed w)) = length (fst w).
Proof.
  destruct w as [l [[[]|]|]]; cbn; rewrite ?app_nil_r; split; (discriminate || reflexivity).
Qed.

From Verif Require Import Base BaseFacts CoreModel CoreSpec CoreProofs StrModel StrFacts BitFacts
  CpioModel CpioSpec.

(** ** Numerals *)

Lemma digit_of_py c d base : 0 <= d < base -> base <= 16 -> digit_of c d ->
  py_digit c = d /\ 48 <= c <= 102 /\ (c <= 57 \/ 65 <= c <= 70 \/ 97 <= c).
Proof.
  unfold digit_of, py_digit. intros Hd Hb H.
  destruct (Z.leb_spec 48 c), (Z.leb_spec c 57), (Z.leb_spec 97 c), (Z.leb_spec c 122),
    (Z.leb_spec 65 c), (Z.leb_spec c 90); cbn [andb]; lia.
Qed.

Lemma numeral_digits base v s :
  base <= 16 -> numeral base v s ->
  forall acc seen t,
  py_int_digits base (s ++ t) acc seen false =
  py_int_digits base t (acc * base ^ len s + v)
    (seen || match s with [] => false | _ => true end) false.
Proof.
  intros Hb. induction 1 as [|v s d c Hs IH Hd Hc]; intros acc seen t.
  - cbn [app]. rewrite len_nil, Z.pow_0_r, orb_false_r. f_equal; lia.
  - rewrite <- app_assoc. cbn [app]. rewrite IH. cbn [py_int_digits].
    destruct (digit_of_py c d base Hd Hb Hc) as (E & R & R').
    destruct (Z.eqb_spec c 95); [lia|]. rewrite E.
    destruct (Z.ltb_spec d base); [|lia].
    rewrite len_app, len_cons, len_nil, Z.pow_add_r by (pose proof (len_nonneg s); lia).
    change (base ^ (1 + 0)) with (base ^ 1). rewrite Z.pow_1_r.
    replace (match s ++ [c] with [] => false | _ => true end) with true by (destruct s; reflexivity).
    rewrite orb_true_r. f_equal. lia.
Qed.

Lemma numeral_chars base v s :
  base <= 16 -> numeral base v s ->
  Forall (fun c => (48 <= c <= 57 \/ 65 <= c <= 70 \/ 97 <= c <= 102)) s.
Proof.
  intros Hb. induction 1 as [|v s d c Hs IH Hd Hc]; [constructor|].
  apply Forall_app; split; [exact IH|]. constructor; [|constructor].
  destruct (digit_of_py c d base Hd Hb Hc) as (E & R & R'). lia.
Qed.

Lemma numeral_bytes base v s : base <= 16 -> numeral base v s -> is_bytes s.
Proof.
  intros Hb H. eapply Forall_impl; [|exact (numeral_chars base v s Hb H)].
  cbn beta. intros c Hc. unfold is_byte. lia.
Qed.

Lemma numeral_nonneg base v s : 0 <= base -> numeral base v s -> 0 <= v.
Proof. intros Hb. induction 1; nia. Qed.

Lemma py_int_numeral base v s :
  base = 8 \/ base = 16 -> numeral base v s -> s <> [] -> py_int base s = Some v.
Proof.
  intros Hb H Hne.
  assert (Hb16 : base <= 16) by lia.
  pose proof (numeral_chars base v s Hb16 H) as Hc.
  pose proof (numeral_digits base v s Hb16 H 0 false []) as Hd.
  rewrite app_nil_r in Hd. cbn [py_int_digits orb] in Hd.
  unfold py_int. destruct s as [|c s]; [contradiction|].
  pose proof (Forall_inv Hc) as Hc1. pose proof (Forall_inv_tail Hc) as Hc2. cbn beta in Hc1.
  assert (Es : lstrip_space (c :: s) = c :: s).
  { cbn [lstrip_space]. unfold py_isspace.
    destruct (Z.eqb_spec c 32), (Z.leb_spec 9 c), (Z.leb_spec c 13); cbn [orb andb]; try lia; reflexivity. }
  rewrite Es.
  assert (Em : py_int_sign (c :: s) = (false, c :: s)).
  { unfold py_int_sign. destruct (Z.eqb_spec c 43); [lia|]. destruct (Z.eqb_spec c 45); [lia|reflexivity]. }
  rewrite Em.
  assert (Ep : py_int_prefix base (c :: s) = c :: s).
  { unfold py_int_prefix. destruct s as [|c2 s]; [reflexivity|].
    pose proof (Forall_inv Hc2) as Hc3. cbn beta in Hc3.
    destruct (Z.eqb_spec c2 120); [lia|]. destruct (Z.eqb_spec c2 88); [lia|].
    destruct (Z.eqb_spec c2 111); [lia|]. destruct (Z.eqb_spec c2 79); [lia|].
    cbn [orb]. rewrite !andb_false_r. reflexivity. }
  rewrite Ep. destruct (Z.eqb_spec c 95); [lia|]. rewrite Hd. cbn [andb negb]. f_equal; lia.
Qed.

Lemma to_int_numeral base v s w :
  base = 8 \/ base = 16 -> numeral base v s -> length s = S w -> to_int base s = Ok v.
Proof.
  intros Hb H Hl. unfold to_int. rewrite (py_int_numeral base v s Hb H); [reflexivity|].
  intros ->; discriminate.
Qed.

(** ** Headers *)

Ltac inv_text H :=
  repeat match type of H with
  | text_fields _ (_ :: _) _ =>
      let H1 := fresh "Hn" in let H2 := fresh "Hl" in let H3 := fresh "Ht" in
      inversion H as [|? ? ? ? ? H1 H2 H3]; clear H; subst; rename H3 into H
  end.

Lemma header_of_struct f m h :
  header_of f m h ->
  exists vs, h = enc_struct (cpio_layout f) vs /\
    cpio_header f vs = Ok (mkchdr (m_ino m) (m_mode m) (m_uid m) (m_gid m) (m_mtime m)
                             (len (name_field m)) (len (m_data m))) /\
    Forall2 fval_ok (cpio_layout f) vs.
Proof.
  destruct f as [e| | |]; cbn [header_of].
  - intros (-> & Hw & Hm & Hd).
    pose proof (len_nonneg (m_data m)) as Hd0.
    pose proof (len_nonneg (name_field m)) as Hn0.
    repeat match goal with H : Forall word_ok (_ :: _) |- _ =>
      let A := fresh "Hw" in pose proof (Forall_inv H) as A; apply Forall_inv_tail in H end.
    unfold word_ok in *.
    eexists [VI _; VI _; VI _; VI _; VI _; VI _; VI _; VI _; VI _; VI _; VI _; VI _; VI _].
    split; [|split].
    + cbn [cpio_layout enc_struct enc_field]. unfold words. cbn [map concat]. reflexivity.
    + cbn [cpio_header]. rewrite !lor_shiftl by (change (2 ^ 16) with 65536; lia).
      change (2 ^ 16) with 65536. f_equal. f_equal; lia.
    + cbn [cpio_layout]. repeat (apply Forall2_cons); try apply Forall2_nil; cbn [fval_ok];
        change (256 ^ Z.of_nat 2) with 65536; lia.
  - intros (t & -> & H). inv_text H. inversion H; subst.
    eexists [VB _; VB _; VB _; VB _; VB _; VB _; VB _; VB _; VB _; VB _; VB _].
    split; [|split].
    + cbn [cpio_layout enc_struct enc_field]. reflexivity.
    + cbn [cpio_header].
      repeat (erewrite to_int_numeral by (try eassumption; try (left; reflexivity)); cbn [bind]).
      reflexivity.
    + cbn [cpio_layout]. repeat (apply Forall2_cons); try apply Forall2_nil; cbn [fval_ok];
        (split; [first [assumption|reflexivity]|first [eapply numeral_bytes; [|eassumption]; lia|apply is_bytes_forallb; reflexivity]]).
  - intros (t & -> & H). inv_text H. inversion H; subst.
    eexists [VB _; VB _; VB _; VB _; VB _; VB _; VB _; VB _; VB _; VB _; VB _; VB _; VB _; VB _].
    split; [|split].
    + cbn [cpio_layout enc_struct enc_field]. reflexivity.
    + cbn [cpio_header].
      repeat (erewrite to_int_numeral by (try eassumption; try (right; reflexivity)); cbn [bind]).
      reflexivity.
    + cbn [cpio_layout]. repeat (apply Forall2_cons); try apply Forall2_nil; cbn [fval_ok];
        (split; [first [assumption|reflexivity]|first [eapply numeral_bytes; [|eassumption]; lia|apply is_bytes_forallb; reflexivity]]).
  - intros (t & -> & H). inv_text H. inversion H; subst.
    eexists [VB _; VB _; VB _; VB _; VB _; VB _; VB _; VB _; VB _; VB _; VB _; VB _; VB _; VB _].
    split; [|split].
    + cbn [cpio_layout enc_struct enc_field]. reflexivity.
    + cbn [cpio_header].
      repeat (erewrite to_int_numeral by (try eassumption; try (right; reflexivity)); cbn [bind]).
      reflexivity.
    + cbn [cpio_layout]. repeat (apply Forall2_cons); try apply Forall2_nil; cbn [fval_ok];
        (split; [first [assumption|reflexivity]|first [eapply numeral_bytes; [|eassumption]; lia|apply is_bytes_forallb; reflexivity]]).
Qed.

(** ** Entries *)

Lemma len_name_field m : 0 < len (name_field m).
Proof.
  unfold name_field. rewrite len_app. cbn [app]. rewrite len_cons.
  pose proof (len_nonneg (m_path m)). pose proof (len_nonneg (m_extra m)). lia.
Qed.

Lemma cpio_padding_spec f off : cpio_padding f off = (- off) mod alignment f.
Proof.
  destruct f; unfold cpio_padding, alignment; cbn [alignment].
  - destruct (Z.ltb_spec 0 (off mod 2)); lia.
  - rewrite Z.mod_1_r. reflexivity.
  - destruct (Z.ltb_spec 0 (off mod 4)); lia.
  - destruct (Z.ltb_spec 0 (off mod 4)); lia.
Qed.

Lemma before_nul_app a b : Forall (fun c => 0 < c < 128) a -> before_nul (a ++ [0] ++ b) = a.
Proof.
  induction 1 as [|c a Hc Ha IH]; [reflexivity|].
  cbn [app before_nul]. destruct (Z.eqb_spec c 0); [lia|]. f_equal. exact IH.
Qed.

Lemma decode_ascii_ok b : Forall (fun c => 0 <= c < 128) b -> decode_ascii b = Ok b.
Proof.
  intros H. unfold decode_ascii. replace (forallb _ b) with true; [reflexivity|].
  symmetry. apply forallb_forall. intros c Hc. rewrite Forall_forall in H. specialize (H c Hc). lia.
Qed.

Definition entry_of (f : cfmt) (m : member) (off size : Z) : centry :=
  mkce (m_path m) off (len (m_data m)) size (m_mode m) (m_mtime m) (m_uid m) (m_gid m) (m_ino m).

Lemma read_file_entry_stored f pre m h p1 p2 rest :
  header_of f m h -> good_name m ->
  len p1 = (- (len pre + len h + len (name_field m))) mod alignment f ->
  len p2 = (- (len pre + len h + len (name_field m) + len p1 + len (m_data m))) mod alignment f ->
  read_file_entry (pre ++ h ++ name_field m ++ p1 ++ m_data m ++ p2 ++ rest) f (len pre) =
  Ok (entry_of f m (len pre + len (h ++ name_field m ++ p1))
        (len (h ++ name_field m ++ p1 ++ m_data m ++ p2))).
Proof.
  intros Hh [Hg1 Hg2] Hp1 Hp2.
  destruct (header_of_struct f m h Hh) as (vs & Eh & Ec & Hok).
  pose proof (enc_struct_length _ _ Hok) as Hlen. rewrite <- Eh in Hlen.
  assert (Hl : Z.of_nat (struct_size (cpio_layout f)) = len h) by (unfold len; lia).
  unfold read_file_entry. rewrite Eh at 1. rewrite read_struct_enc by (auto; lia).
  cbn [bind]. rewrite Ec. cbn [bind h_path_size h_file_size h_mode h_mtime h_uid h_gid h_ino].
  rewrite Hl.
  replace (pre ++ h ++ name_field m ++ p1 ++ m_data m ++ p2 ++ rest)
    with ((pre ++ h) ++ name_field m ++ (p1 ++ m_data m ++ p2 ++ rest)) by (rewrite <- !app_assoc; reflexivity).
  rewrite read_at_app by (rewrite ?len_app; lia).
  cbn [bind]. rewrite decode_ascii_ok.
  2:{ unfold name_field. apply Forall_app; split; [|constructor; [lia|exact Hg2]].
      eapply Forall_impl; [|exact Hg1]. cbn beta. intros; lia. }
  cbn [bind]. rewrite !cpio_padding_spec. unfold name_field at 1. rewrite before_nul_app by exact Hg1.
  rewrite <- Hp1, <- Hp2. unfold entry_of. f_equal. pose proof (len_nonneg p2).
  f_equal; rewrite ?len_app; destruct (Z.ltb_spec 0 (len p2)); lia.
Qed.

(** ** The entry loop *)

Definition pmember := (member * Z)%type.
Definition mpath (p : pmember) : str := m_path (fst p).

Fixpoint keep_new (seen : list str) (l : list pmember) : list pmember :=
  match l with
  | [] => []
  | p :: r => if existsb (list_eqb (mpath p)) seen then keep_new seen r
              else p :: keep_new (seen ++ [mpath p]) r
  end.

Lemma keep_new_filter l : forall seen,
  keep_new seen l = filter (fun x => negb (existsb (list_eqb (mpath x)) seen)) (first_of_each l).
Proof.
  induction l as [|p l IH]; intros seen; [reflexivity|].
  cbn [keep_new first_of_each filter].
  destruct (existsb (list_eqb (mpath p)) seen) eqn:E; cbn [negb].
  - rewrite IH. 
    assert (G : forall q, filter (fun x => negb (existsb (list_eqb (mpath x)) seen)) q =
      filter (fun x => negb (existsb (list_eqb (mpath x)) seen))
         (filter (fun x => negb (list_eqb (m_path (fst x)) (m_path (fst p)))) q)).
    { induction q as [|x q IHq]; [reflexivity|]. cbn [filter].
      destruct (list_eqb (m_path (fst x)) (m_path (fst p))) eqn:Ex; cbn [negb].
      - apply list_eqb_eq in Ex. unfold mpath in *. rewrite Ex, E. cbn [negb]. exact IHq.
      - cbn [filter]. rewrite IHq. reflexivity. }
    apply G.
  - f_equal. rewrite IH.
    assert (G : forall q, filter (fun x => negb (existsb (list_eqb (mpath x)) (seen ++ [mpath p]))) q =
      filter (fun x => negb (existsb (list_eqb (mpath x)) seen))
         (filter (fun x => negb (list_eqb (m_path (fst x)) (m_path (fst p)))) q)).
    { induction q as [|x q IHq]; [reflexivity|]. cbn [filter].
      rewrite existsb_app. cbn [existsb]. rewrite orb_false_r. unfold mpath at 2 3.
      destruct (list_eqb (m_path (fst x)) (m_path (fst p))) eqn:Ex; cbn [negb].
      - rewrite orb_true_r. exact IHq.
      - rewrite orb_false_r. cbn [filter].  rewrite IHq. reflexivity. }
    apply G.
Qed.

Lemma keep_new_nil l : keep_new [] l = first_of_each l.
Proof.
  rewrite keep_new_filter. cbn [existsb negb]. induction (first_of_each l) as [|x q IH]; [reflexivity|].
  cbn [filter]. f_equal. exact IH.
Qed.

Lemma ct_get_existsb path (t : ctable) :
  (match ct_get path t with Some _ => true | None => false end) =
  existsb (list_eqb path) (map fst t).
Proof.
  induction t as [|[p e] t IH]; [reflexivity|]. cbn [ct_get map existsb fst].
  destruct (list_eqb p path) eqn:E.
  - apply list_eqb_eq in E. subst. rewrite list_eqb_refl. reflexivity.
  - apply list_eqb_neq in E. replace (list_eqb path p) with false; [exact IH|].
    symmetry. apply list_eqb_neq. congruence.
Qed.

Definition matches (pe : str * centry) (p : pmember) : Prop :=
  fst pe = ce_path (snd pe) /\ describes (snd pe) p.

(** The loop over stored members, up to the trailer or the end of the file. *)
Lemma read_file_entries_stored f fsz ms : forall fuel pre t body rest,
  stored f (len pre) ms body ->
  Forall (fun p => m_path (fst p) <> trailer_name) ms ->
  (length ms < fuel)%nat ->
  (fsz = len (pre ++ body ++ rest) \/ fsz = 0) ->
  exists t',
    Forall2 matches t' (keep_new (map fst t) ms) /\
    read_file_entries fuel (pre ++ body ++ rest) fsz f (len pre) t =
    read_file_entries (fuel - length ms) (pre ++ body ++ rest) fsz f (len (pre ++ body)) (t ++ t').
Proof.
  induction ms as [|p ms IH]; intros fuel pre t body rest Hst Hnt Hfuel Hfsz.
  - inversion Hst; subst. exists []. cbn [keep_new app length].
    rewrite !app_nil_r, Nat.sub_0_r. split; [constructor|reflexivity].
  - inversion Hst as [|off m ms' h p1 p2 rest' Hh Hg Hp1 Hp2 Hst']; subst.
    pose proof (Forall_inv Hnt) as Hn. cbn [fst] in Hn. apply Forall_inv_tail in Hnt.
    destruct fuel as [|fuel]; [lia|]. cbn [length] in Hfuel.
    cbn [read_file_entries].
    set (body1 := h ++ name_field m ++ p1 ++ m_data m ++ p2).
    assert (Eb : h ++ name_field m ++ p1 ++ m_data m ++ p2 ++ rest' = body1 ++ rest')
      by (unfold body1; rewrite <- !app_assoc; reflexivity).
    set (content := pre ++ (h ++ name_field m ++ p1 ++ m_data m ++ p2 ++ rest') ++ rest).
    assert (Ec : content = pre ++ h ++ name_field m ++ p1 ++ m_data m ++ p2 ++ (rest' ++ rest))
      by (unfold content; rewrite <- !app_assoc; reflexivity).
    assert (Ec2 : content = (pre ++ body1) ++ rest' ++ rest)
      by (unfold content; rewrite Eb, <- !app_assoc; reflexivity).
    assert (Hlb : 0 < len body1).
    { unfold body1. rewrite !len_app. pose proof (len_nonneg h). pose proof (len_name_field m).
      pose proof (len_nonneg p1). pose proof (len_nonneg p2). pose proof (len_nonneg (m_data m)). lia. }
    replace ((len pre <? fsz) || (fsz =? 0)) with true.
    2:{ symmetry. destruct Hfsz as [-> | ->]; [|apply orb_true_r].
        fold content. rewrite Ec2, !len_app. pose proof (len_nonneg rest'). pose proof (len_nonneg rest).
        destruct (Z.ltb_spec (len pre) (len pre + len body1 + (len rest' + len rest))); [reflexivity|lia]. }
    rewrite Ec. rewrite read_file_entry_stored by assumption. rewrite <- Ec.
    fold body1. cbn [entry_of ce_path ce_size].
    replace (list_eqb (m_path m) (s2z "TRAILER!!!")) with false by (symmetry; apply list_eqb_neq; exact Hn).
    replace (len pre + len body1) with (len (pre ++ body1)) by apply len_app.
    assert (Hst2 : stored f (len (pre ++ body1)) ms rest') by (rewrite len_app; exact Hst').
    assert (Hfsz2 : fsz = len ((pre ++ body1) ++ rest' ++ rest) \/ fsz = 0)
      by (rewrite <- Ec2; exact Hfsz).
    assert (Emb : forall x : str, existsb (list_eqb x) (map fst t) =
              match ct_get x t with Some _ => true | None => false end)
      by (intros x; symmetry; apply ct_get_existsb).
    cbn [keep_new]. unfold mpath at 1. cbn [fst]. rewrite Emb.
    destruct (ct_get (m_path m) t) as [e0|] eqn:Eg.
    + destruct (IH fuel (pre ++ body1) t rest' rest Hst2 Hnt ltac:(lia) Hfsz2) as (t' & Ht' & E).
      exists t'. split; [exact Ht'|]. rewrite Ec2, E. cbn [length Nat.sub].
      rewrite Eb, (app_assoc pre body1 rest'). reflexivity.
    + set (e := entry_of f m (len pre + len (h ++ name_field m ++ p1)) (len body1)).
      destruct (IH fuel (pre ++ body1) (t ++ [(m_path m, e)]) rest' rest Hst2 Hnt ltac:(lia) Hfsz2)
        as (t' & Ht' & E).
      exists ((m_path m, e) :: t'). split.
      * constructor; [|rewrite map_app in Ht'; exact Ht'].
        split; [reflexivity|]. cbn [snd describes]. repeat split.
      * rewrite Ec2. change (entry_of f m (len pre + len (h ++ name_field m ++ p1)) (len body1)) with e.
        rewrite E, <- (app_assoc t [_] t'). cbn [app length Nat.sub].
        rewrite Eb, (app_assoc pre body1 rest'). reflexivity.
Qed.

Lemma header_of_signature f m h tail : header_of f m h -> cpio_format (h ++ tail) = Some f.
Proof.
  destruct f as [e| | |]; cbn [header_of].
  - intros (-> & _). unfold words. cbn [map concat]. rewrite <- !app_assoc.
    generalize (m_dev m), (m_ino m). intros a b.
    destruct e; unfold cpio_format, enc_int; cbn; reflexivity.
  - intros (t & -> & _). rewrite <- app_assoc. unfold cpio_format.
    rewrite zfirstn_app_len by reflexivity. reflexivity.
  - intros (t & -> & _). rewrite <- app_assoc. unfold cpio_format.
    rewrite zfirstn_app_len by reflexivity. reflexivity.
  - intros (t & -> & _). rewrite <- app_assoc. unfold cpio_format.
    rewrite zfirstn_app_len by reflexivity. reflexivity.
Qed.

Lemma stored_app f ms1 : forall off ms2 b,
  stored f off (ms1 ++ ms2) b <->
  exists b1 b2, b = b1 ++ b2 /\ stored f off ms1 b1 /\ stored f (off + len b1) ms2 b2.
Proof.
  induction ms1 as [|p ms1 IH]; intros off ms2 b; cbn [app].
  - split.
    + intros H. exists [], b. rewrite len_nil, Z.add_0_r. repeat split; [constructor|exact H].
    + intros (b1 & b2 & -> & H1 & H2). inversion H1; subst. rewrite len_nil, Z.add_0_r in H2. exact H2.
  - split.
    + intros H. inversion H as [|off' m ms' h p1 p2 rest' Hh Hg Hp1 Hp2 Hst']; subst.
      apply IH in Hst'. destruct Hst' as (b1 & b2 & -> & H1 & H2).
      exists (h ++ name_field m ++ p1 ++ m_data m ++ p2 ++ b1), b2.
      split; [rewrite <- !app_assoc; reflexivity|]. split; [constructor; assumption|].
      replace (len (h ++ name_field m ++ p1 ++ m_data m ++ p2 ++ b1))
        with (len (h ++ name_field m ++ p1 ++ m_data m ++ p2) + len b1)
        by (rewrite !len_app; lia).
      rewrite Z.add_assoc. exact H2.
    + intros (b1 & b2 & -> & H1 & H2).
      inversion H1 as [|off' m ms' h p1 p2 rest' Hh Hg Hp1 Hp2 Hst']; subst.
      replace ((h ++ name_field m ++ p1 ++ m_data m ++ p2 ++ rest') ++ b2)
        with (h ++ name_field m ++ p1 ++ m_data m ++ p2 ++ (rest' ++ b2)) by (rewrite <- !app_assoc; reflexivity).
      constructor; try assumption. apply IH. exists rest', b2. split; [reflexivity|]. split; [assumption|].
      replace (len (h ++ name_field m ++ p1 ++ m_data m ++ p2 ++ rest'))
        with (len (h ++ name_field m ++ p1 ++ m_data m ++ p2) + len rest') in H2
        by (rewrite !len_app; lia).
      rewrite Z.add_assoc in H2. exact H2.
Qed.

Lemma stored_signature f p ms b tail : stored f 0 (p :: ms) b -> cpio_format (b ++ tail) = Some f.
Proof.
  intros H. inversion H as [|off' m ms' h p1 p2 rest' Hh]; subst.
  rewrite <- !app_assoc. exact (header_of_signature f m h _ Hh).
Qed.

(** Archive with a trailer, followed by anything. *)
Lemma cpio_read_trailer f ms tr off body tail fsz fuel :
  stored f 0 (ms ++ [(tr, off)]) body ->
  Forall (fun p => m_path (fst p) <> trailer_name) ms -> m_path tr = trailer_name ->
  fsz = len (body ++ tail) \/ fsz = 0 -> (length ms < fuel)%nat ->
  exists t, cpio_read fuel (body ++ tail) fsz = Done (Ok (f, t, len body)) /\
            Forall2 matches t (first_of_each ms).
Proof.
  intros Hst Hn Htr Hfsz Hfuel.
  assert (Hsig : cpio_format (body ++ tail) = Some f).
  { destruct ms; eapply stored_signature; exact Hst. }
  apply stored_app in Hst. destruct Hst as (b1 & b2 & -> & H1 & H2).
  unfold cpio_read. rewrite Hsig. rewrite <- app_assoc in *.
  destruct (read_file_entries_stored f fsz ms fuel [] [] b1 (b2 ++ tail) H1 Hn Hfuel Hfsz) as (t & Ht & E).
  cbn [app] in E. change (len []) with 0 in E. rewrite E. clear E.
  destruct (fuel - length ms)%nat as [|k] eqn:Ek; [lia|]. cbn [read_file_entries].
  cbn [map] in Ht. rewrite keep_new_nil in Ht.
  change (0 + len b1) with (len b1) in H2.
  inversion H2 as [|off' m ms' h p1 p2 rest' Hh Hg Hp1 Hp2 Hst']; subst.
  inversion Hst'; subst. rewrite <- !app_assoc. cbn [app].
  replace ((len b1 <? fsz) || (fsz =? 0)) with true.
  2:{ symmetry. destruct Hfsz as [-> | ->]; [|apply orb_true_r].
      rewrite !len_app.
      pose proof (len_nonneg h). pose proof (len_name_field tr).
      pose proof (len_nonneg p1). pose proof (len_nonneg p2). pose proof (len_nonneg (m_data tr)).
      pose proof (len_nonneg tail). rewrite ?len_nil.
      match goal with |- (?a <? ?b) || _ = _ => destruct (Z.ltb_spec a b); [reflexivity|lia] end. }
  rewrite read_file_entry_stored by assumption. cbn [entry_of ce_path ce_size].
  rewrite Htr. change (list_eqb trailer_name (s2z "TRAILER!!!")) with true. cbn iota.
  exists t. split; [|exact Ht]. do 3 f_equal. rewrite !len_app, len_nil. lia.
Qed.

(** Archive without a trailer that ends with the file. *)
Lemma cpio_read_no_trailer f p ms body fuel :
  stored f 0 (p :: ms) body ->
  Forall (fun p => m_path (fst p) <> trailer_name) (p :: ms) ->
  (length (p :: ms) < fuel)%nat ->
  exists t, cpio_read fuel body (len body) = Done (Ok (f, t, len body)) /\
            Forall2 matches t (first_of_each (p :: ms)).
Proof.
  intros Hst Hn Hfuel.
  pose proof (stored_signature f p ms body [] Hst) as Hsig. rewrite app_nil_r in Hsig.
  unfold cpio_read. rewrite Hsig.
  destruct (read_file_entries_stored f (len body) (p :: ms) fuel [] [] body [] Hst Hn Hfuel)
    as (t & Ht & E).
  { left. cbn [app]. rewrite app_nil_r. reflexivity. }
  cbn [app] in E. rewrite app_nil_r in E. change (len []) with 0 in E. rewrite E. clear E.
  destruct (fuel - length (p :: ms))%nat as [|k] eqn:Ek; [lia|]. cbn [read_file_entries].
  assert (Hpos : 0 < len body).
  { inversion Hst as [|off' m ms' h p1 p2 rest' Hh]; subst.
    rewrite !len_app.
    pose proof (len_nonneg h). pose proof (len_name_field m).
    pose proof (len_nonneg p1). pose proof (len_nonneg p2). pose proof (len_nonneg (m_data m)).
    pose proof (len_nonneg rest'). lia. }
  destruct (Z.ltb_spec (len body) (len body)); [lia|].
  destruct (Z.eqb_spec (len body) 0); [lia|]. cbn [orb].
  exists t. cbn [map] in Ht. rewrite keep_new_nil in Ht. split; [reflexivity|exact Ht].
Qed.

(** ** Member data *)

Lemma stored_data f ms : forall off body m o,
  stored f off ms body -> In (m, o) ms ->
  off <= o /\ forall pre tail, len pre = off ->
    zfirstn (len (m_data m)) (zskipn o (pre ++ body ++ tail)) = m_data m.
Proof.
  induction ms as [|p ms IH]; intros off body m o Hst Hin; [contradiction|].
  inversion Hst as [|off' m' ms' h p1 p2 rest' Hh Hg Hp1 Hp2 Hst']; subst.
  destruct Hin as [E|Hin].
  - injection E as -> <-. split; [pose proof (len_nonneg (h ++ name_field m ++ p1)); lia|].
    intros pre tail Hpre.
    replace (pre ++ (h ++ name_field m ++ p1 ++ m_data m ++ p2 ++ rest') ++ tail)
      with ((pre ++ h ++ name_field m ++ p1) ++ m_data m ++ (p2 ++ rest' ++ tail))
      by (rewrite <- !app_assoc; reflexivity).
    rewrite zskipn_app_len by (rewrite !len_app; lia). apply zfirstn_app_len. reflexivity.
  - destruct (IH _ _ _ _ Hst' Hin) as [H1 H2].
    split; [pose proof (len_nonneg (h ++ name_field m' ++ p1 ++ m_data m' ++ p2)); lia|].
    intros pre tail Hpre.
    replace (pre ++ (h ++ name_field m' ++ p1 ++ m_data m' ++ p2 ++ rest') ++ tail)
      with ((pre ++ h ++ name_field m' ++ p1 ++ m_data m' ++ p2) ++ rest' ++ tail)
      by (rewrite <- !app_assoc; reflexivity).
    apply H2. rewrite len_app. lia.
Qed.

Lemma first_of_each_in l p : In p (first_of_each l) -> In p l.
Proof.
  induction l as [|q l IH]; [intros []|]. cbn [first_of_each]. intros [->|H]; [now left|].
  right. apply IH. apply filter_In in H. tauto.
Qed.

Lemma member_range_read f ms body tail e m o pos :
  stored f 0 ms body -> In (m, o) ms -> describes e (m, o) ->
  exists r' f', dr_read (cpio_member_range e) (mkfile (body ++ tail) pos) None =
                (Ok (m_data m), r', f').
Proof.
  intros Hst Hin Hd. destruct (stored_data _ _ _ _ _ _ Hst Hin) as [Ho Hdata].
  destruct Hd as (_ & Eo & Es & _).
  pose proof (len_nonneg (m_data m)) as Hnn.
  destruct (dr_read_view (cpio_member_range e) (mkfile (body ++ tail) pos) None) as (f' & E & _).
  - unfold usable, cpio_member_range, dr_new. cbn [dr_offset dr_size dr_cur]. lia.
  - exact I.
  - rewrite E. unfold cpio_member_range, dr_new, mem_read, view. cbn [dr_offset dr_size dr_cur fdata].
    rewrite Eo, Es. specialize (Hdata [] tail eq_refl). cbn [app] in Hdata. rewrite Hdata.
    rewrite zskipn_0 by lia. eauto.
Qed.

(** ** Lookup *)

Lemma read_file_entries_table fuel : forall content fsz f off t t' size,
  NoDup (map fst t) -> Forall (fun pe => fst pe = ce_path (snd pe) /\ fst pe <> trailer_name) t ->
  read_file_entries fuel content fsz f off t = Done (Ok (t', size)) ->
  NoDup (map fst t') /\ Forall (fun pe => fst pe = ce_path (snd pe) /\ fst pe <> trailer_name) t' /\
  exists ext, t' = t ++ ext.
Proof.
  induction fuel as [|fuel IH]; intros content fsz f off t t' size Hnd Hk; [discriminate|].
  cbn [read_file_entries]. destruct (_ || _).
  2:{ injection 1 as <- <-. split; [exact Hnd|]. split; [exact Hk|]. exists []. symmetry. apply app_nil_r. }
  destruct (read_file_entry content f off) as [e|] eqn:Ee; [|discriminate].
  destruct (list_eqb (ce_path e) _) eqn:Et.
  { injection 1 as <- <-. split; [exact Hnd|]. split; [exact Hk|]. exists []. symmetry. apply app_nil_r. }
  pose proof (ct_get_existsb (ce_path e) t) as Hx.
  destruct (ct_get (ce_path e) t) eqn:Eg.
  { apply IH; assumption. }
  intros H. apply IH in H.
  - destruct H as (H1 & H2 & ext & ->). split; [exact H1|]. split; [exact H2|].
    rewrite <- app_assoc. eexists. reflexivity.
  - rewrite map_app. cbn [map fst]. 
    apply NoDup_rev in Hnd. rewrite <- (rev_involutive (map fst t ++ [ce_path e])).
    apply NoDup_rev. rewrite rev_app_distr. cbn [rev app]. constructor; [|exact Hnd].
    rewrite <- in_rev. intros Hin. symmetry in Hx. rewrite <- not_true_iff_false in Hx. apply Hx.
    apply existsb_exists. exists (ce_path e). split; [exact Hin|apply list_eqb_refl].
  - apply Forall_app. split; [exact Hk|]. constructor; [|constructor]. split; [reflexivity|].
    cbn [fst]. apply list_eqb_neq. exact Et.
Qed.

Lemma ct_get_in path (t : ctable) e :
  NoDup (map fst t) -> (ct_get path t = Some e <-> In (path, e) t).
Proof.
  induction t as [|[p e'] t IH]; intros Hnd; cbn [ct_get]; [split; [discriminate|intros []]|].
  inversion Hnd as [|? ? Hni Hnd']; subst.
  destruct (list_eqb p path) eqn:E.
  - apply list_eqb_eq in E. subst p. split.
    + injection 1 as ->. now left.
    + intros [H|H]; [congruence|]. exfalso. apply Hni. apply (in_map fst) in H. exact H.
  - apply list_eqb_neq in E. rewrite IH by exact Hnd'. split; [now right|].
    intros [H|H]; [congruence|exact H].
Qed.

(** ** Termination *)

Lemma read_file_entry_inside content f off e :
  read_file_entry content f off = Ok e ->
  0 <= off /\ off + Z.of_nat (struct_size (cpio_layout f)) <= len content.
Proof.
  unfold read_file_entry. destruct (read_struct content (cpio_layout f) off) as [vs|] eqn:E; [|discriminate].
  intros _. apply read_struct_ok in E. destruct E as (H1 & _ & H3).
  rewrite len_zfirstn, len_zskipn in H3. split; [exact H1|]. 
  assert (0 < Z.of_nat (struct_size (cpio_layout f))) by (destruct f; cbn; lia). lia.
Qed.

Lemma read_file_entries_progress content f fsz fuel : forall off t,
  (forall o e, 0 <= o -> read_file_entry content f o = Ok e -> 0 < ce_size e) ->
  0 <= off ->
  (Z.to_nat (len content - off) < fuel)%nat ->
  read_file_entries fuel content fsz f off t <> OutOfFuel.
Proof.
  induction fuel as [|fuel IH]; intros off t Hpos Hoff Hfuel; [lia|].
  cbn [read_file_entries]. destruct (_ || _); [|discriminate].
  destruct (read_file_entry content f off) as [e|] eqn:Ee; [|discriminate].
  pose proof (read_file_entry_inside _ _ _ _ Ee) as [_ Hin].
  assert (0 < Z.of_nat (struct_size (cpio_layout f))) by (destruct f; cbn; lia).
  specialize (Hpos off e Hoff Ee) as Hp.
  destruct (list_eqb _ _); [discriminate|].
  destruct (ct_get (ce_path e) t); apply IH; auto; lia.
Qed.

Lemma read_file_entry_size content f off e :
  read_file_entry content f off = Ok e -> 
  exists vs h, read_struct content (cpio_layout f) off = Ok vs /\ cpio_header f vs = Ok h /\
    (0 <= h_path_size h -> 0 <= h_file_size h ->
     Z.of_nat (struct_size (cpio_layout f)) <= ce_size e).
Proof.
  unfold read_file_entry. destruct (read_struct content (cpio_layout f) off) as [vs|] eqn:E; [|discriminate].
  cbn [bind]. destruct (cpio_header f vs) as [h|] eqn:Eh; [|discriminate]. cbn [bind].
  destruct (read_at _ _ _); [|discriminate]. cbn [bind].
  destruct (decode_ascii _); [|discriminate]. cbn [bind]. intros H0.
  exists vs, h. split; [reflexivity|]. split; [exact Eh|]. intros H1 H2.
  injection H0 as <-. cbn [ce_size]. rewrite !cpio_padding_spec.
  assert (forall o, 0 <= (- o) mod alignment f) by (intros; apply Z.mod_pos_bound; destruct f; reflexivity).
  specialize (H (off + Z.of_nat (struct_size (cpio_layout f)) + h_path_size h)).
  destruct (Z.ltb_spec 0 ((- (off + Z.of_nat (struct_size (cpio_layout f)) + h_path_size h +
       (- (off + Z.of_nat (struct_size (cpio_layout f)) + h_path_size h)) mod alignment f +
       h_file_size h)) mod alignment f)); lia.
Qed.

Lemma cpio_read_terminates content fsz fuel :
  (forall f off vs h, cpio_format content = Some f -> 0 <= off ->
     read_struct content (cpio_layout f) off = Ok vs -> cpio_header f vs = Ok h ->
     0 <= h_path_size h /\ 0 <= h_file_size h) ->
  (Z.to_nat (len content) < fuel)%nat ->
  cpio_read fuel content fsz <> OutOfFuel.
Proof.
  intros Hnn Hfuel. unfold cpio_read. destruct (cpio_format content) as [f|] eqn:Ef; [|discriminate].
  pose proof (read_file_entries_progress content f fsz fuel 0 []) as H.
  destruct (read_file_entries fuel content fsz f 0 []) as [[[t s]|e]|]; try discriminate.
  exfalso. apply H; [|lia|lia|reflexivity].
  intros o e Ho Ee. destruct (read_file_entry_size _ _ _ _ Ee) as (vs & h & E1 & E2 & E3).
  destruct (Hnn f o vs h eq_refl Ho E1 E2) as [H1 H2].
  specialize (E3 H1 H2). assert (0 < Z.of_nat (struct_size (cpio_layout f))) by (destruct f; cbn; lia). lia.
Qed.

Lemma map_struct_words_range e n d vs v :
  is_bytes d -> map_struct (repeat (FU e 2) n) d = Some vs -> In (VI v) vs -> 0 <= v < 65536.
Proof.
  revert d vs; induction n as [|n IH]; intros d vs Hd; cbn [repeat map_struct].
  - injection 1 as <-. intros [].
  - cbn [fsize]. destruct (Nat.ltb_spec (length d) 2) as [|Hl]; [discriminate|].
    destruct (map_struct _ _) as [ws|] eqn:E; [|discriminate]. injection 1 as <-.
    intros [H|H].
    + cbn [map_field] in H. injection H as <-.
      assert (Hb : is_bytes (firstn 2 d)).
      { replace (firstn 2 d) with (zfirstn 2 d) by (rewrite zfirstn_firstn; reflexivity).
        apply is_bytes_zfirstn. exact Hd. }
      assert (Hlen : len (firstn 2 d) = 2) by (unfold len; rewrite firstn_length; lia).
      destruct e; cbn [endian_int].
      * pose proof (le_int_bounds _ Hb) as Hbd. rewrite Hlen in Hbd. exact Hbd.
      * pose proof (be_int_bounds _ Hb) as Hbd. rewrite Hlen in Hbd. exact Hbd.
    + apply (IH (skipn 2 d) ws); auto.
      replace (skipn 2 d) with (zskipn 2 d) by (rewrite zskipn_skipn; reflexivity).
      apply is_bytes_zskipn. exact Hd.
Qed.

Lemma cpio_binary_terminates content fsz fuel e :
  is_bytes content -> cpio_format content = Some (CBin e) ->
  (Z.to_nat (len content) < fuel)%nat ->
  cpio_read fuel content fsz <> OutOfFuel.
Proof.
  intros Hb Hf Hfuel. apply cpio_read_terminates; [|exact Hfuel].
  intros f off vs h Ef Hoff Ev Eh. rewrite Hf in Ef. injection Ef as <-.
  apply read_struct_ok in Ev. destruct Ev as (_ & Em & _).
  change (cpio_layout (CBin e)) with (repeat (FU e 2) 13) in Em at 2.
  set (d := zfirstn _ _) in Em.
  assert (Hd : is_bytes d) by (apply is_bytes_zfirstn, is_bytes_zskipn, Hb).
  pose proof (fun v => map_struct_words_range e 13 d vs v Hd Em) as R.
  cbn [cpio_header] in Eh.
  do 13 (destruct vs as [|[?z|?b] vs]; try discriminate). destruct vs; [|discriminate].
  apply (f_equal (fun r => match r with Ok x => x | Err _ => h end)) in Eh. cbn beta iota in Eh.
  rewrite <- Eh. cbn [h_path_size h_file_size].
  split; [apply R; cbn; tauto|]. apply Z.lor_nonneg. split; [|apply R; cbn; tauto].
  apply Z.shiftl_nonneg. apply R; cbn; tauto.
Qed.

(** ** Errors *)

Lemma cpio_header_err f ks vs e :
  ks = cpio_layout f -> (exists d, map_struct ks d = Some vs) -> cpio_header f vs = Err e -> e = ParseError.
Proof.
  intros -> (d & Em). 
  destruct f as [en| | |]; cbn [cpio_layout map_struct fsize] in Em;
    repeat (match type of Em with context [Nat.ltb ?a ?b] => destruct (Nat.ltb a b); [discriminate|] end);
    cbn [map_field] in Em; injection Em as <-; cbn [cpio_header]; try discriminate;
    unfold to_int;
    repeat (match goal with |- context [py_int ?b ?s] => destruct (py_int b s) end; cbn [bind]; [|now injection 1]);
    discriminate.
Qed.

Lemma read_file_entry_err content f off e :
  read_file_entry content f off = Err e ->
  e = ParseError \/ e = UnicodeDecodeError \/ (e = OSError /\ off < 0).
Proof.
  unfold read_file_entry. destruct (read_struct content (cpio_layout f) off) as [vs|e1] eqn:E; cbn [bind].
  2:{ injection 1 as <-. apply read_struct_errors in E. destruct E as [[-> H]|[-> _]]; auto. }
  apply read_struct_ok in E. destruct E as (Hoff & Em & _).
  destruct (cpio_header f vs) as [h|e2] eqn:Eh; cbn [bind].
  2:{ injection 1 as <-. left. eapply cpio_header_err; [reflexivity| |exact Eh]. eexists; exact Em. }
  unfold read_at. destruct (Z.ltb_spec (off + Z.of_nat (struct_size (cpio_layout f))) 0); [lia|]. cbn [bind].
  unfold decode_ascii. destruct (forallb _ _); cbn [bind]; [discriminate|]. injection 1 as <-. auto.
Qed.

(** ** Building well-formed archives (used for the concrete cases) *)

Fixpoint numr (base : Z) (rs : list Z) : option Z :=
  match rs with
  | [] => Some 0
  | c :: r => match numr base r with
              | Some v => if py_digit c <? base then Some (v * base + py_digit c) else None
              | None => None
              end
  end.

Lemma numr_numeral base rs v : base <= 16 -> numr base rs = Some v -> numeral base v (rev rs).
Proof.
  intros Hb; revert v; induction rs as [|c r IH]; intros v; cbn [numr rev].
  - injection 1 as <-. constructor.
  - destruct (numr base r) as [u|]; [|discriminate].
    destruct (Z.ltb_spec (py_digit c) base) as [H|]; [|discriminate]. injection 1 as <-.
    apply num_snoc; [apply IH; reflexivity| |].
    + revert H. unfold py_digit.
      destruct (Z.leb_spec 48 c), (Z.leb_spec c 57), (Z.leb_spec 97 c), (Z.leb_spec c 122),
        (Z.leb_spec 65 c), (Z.leb_spec c 90); cbn [andb]; lia.
    + revert H. unfold py_digit, digit_of.
      destruct (Z.leb_spec 48 c), (Z.leb_spec c 57), (Z.leb_spec 97 c), (Z.leb_spec c 122),
        (Z.leb_spec 65 c), (Z.leb_spec c 90); cbn [andb]; lia.
Qed.

Definition text_check (base : Z) (l : list (nat * Z)) (s : bytes) : bool :=
  (fix go l s := match l with
     | [] => match s with [] => true | _ => false end
     | (w, v) :: r =>
         Nat.eqb (length (firstn w s)) w &&
         match numr base (rev (firstn w s)) with Some u => u =? v | None => false end &&
         go r (skipn w s)
     end) l s.

Lemma text_check_ok base l s : base <= 16 -> text_check base l s = true -> text_fields base l s.
Proof.
  intros Hb; revert s; induction l as [|[w v] l IH]; intros s H.
  - destruct s; [constructor|discriminate].
  - cbn in H. apply andb_true_iff in H. destruct H as [H H3].
    apply andb_true_iff in H. destruct H as [H1 H2]. apply Nat.eqb_eq in H1.
    destruct (numr base (rev (firstn w s))) as [u|] eqn:E; [|discriminate].
    apply Z.eqb_eq in H2. subst u. rewrite <- (firstn_skipn w s). constructor.
    + apply numr_numeral in E; [|exact Hb]. rewrite rev_involutive in E. exact E.
    + exact H1.
    + apply IH. exact H3.
Qed.

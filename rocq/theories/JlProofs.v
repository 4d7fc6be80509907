From Verif Require Import Base BaseFacts CoreModel CoreProofs StrModel StrFacts TextModel SeqModel SeqSpec SeqFacts MemFacts DictModel Utf16Model Utf16Spec Utf16Facts RdModel RdSpec RdFacts RbProofs KcModel BookSpec BookProofs JlModel JlSpec.
From Coq Require String.
Import String.StringSyntax.

Lemma reads_j16 : reads (rd_int (FU LE 2)) (fun v d => n16 v /\ d = le_enc 2 v).
Proof. apply reads_int. cbn; lia. Qed.
Lemma reads_j32 : reads (rd_int (FU LE 4)) (fun v d => n32 v /\ d = le_enc 4 v).
Proof. apply reads_int. cbn; lia. Qed.
Lemma reads_j64 : reads (rd_int (FU LE 8)) (fun v d => n64 v /\ d = le_enc 8 v).
Proof. apply reads_int. cbn; lia. Qed.
Lemma reads_i32 : reads (rd_int (FS LE 4)) i32.
Proof.
  eapply reads_iff; [apply (reads_sle 4); lia|]. intros v d _. unfold sle, i32. change (8 * Z.of_nat 4 - 1) with 31. change (256 ^ Z.of_nat 4) with (2 ^ 32).
  assert (E : - 2 ^ 31 <= v < 2 ^ 31 -> v mod 2 ^ 32 = if v <? 0 then v + 2 ^ 32 else v).
  { intros H. change (2 ^ 31) with 2147483648 in H. change (2 ^ 32) with 4294967296. destruct (Z.ltb_spec v 0); [|rewrite Z.mod_small; lia].
    symmetry. apply Z.mod_unique with (-1); lia. }
  split; intros [H ->]; rewrite E by exact H; auto.
Qed.

Lemma reads_path : reads rd_path sized_path.
Proof.
  eapply reads_iff; [unfold rd_path; eapply reads_bind; [apply reads_j16|intros n; reads_tac eauto]|]. intros s d Hd. unfold sized_path. split.
  - intros (n & d1 & r & [Hn ->] & (w & d2 & d3 & [L ->] & [C ->] & ->) & ->). rewrite app_nil_r in *. exists n, w. split; [exact Hn|]. split; [exact L|]. split; [|reflexivity].
    apply Forall_app in Hd as [_ Hw]. apply utf16_decode_iff; assumption.
  - intros (n & w & Hn & L & U & ->). exists n, (le_enc 2 n), w. split; [auto|]. split; [|reflexivity]. exists w, w, []. split; [auto|]. rewrite app_nil_r. split; [|reflexivity].
    split; [|reflexivity]. apply Forall_app in Hd as [_ Hw]. apply utf16_decode_iff; assumption.
Qed.

Ltac jl_reads := match goal with
  | |- reads (rd_bind _ _) _ => eapply reads_bind; [jl_reads|intros ?; jl_reads]
  | |- reads (rd_int (FU LE 2)) _ => apply reads_j16
  | |- reads (rd_int (FU LE 4)) _ => apply reads_j32
  | |- reads (rd_int (FU LE 8)) _ => apply reads_j64
  | |- reads (rd_int (FS LE 4)) _ => apply reads_i32
  | |- reads rd_path _ => apply reads_path
  | |- _ => reads_tac eauto
  end.

Lemma is_ascii_iff s : is_ascii s = true <-> Forall (fun c => 0 <= c < 128) s.
Proof. unfold is_ascii. rewrite forallb_forall, Forall_forall. split; intros H c Hc; specialize (H c Hc); rewrite andb_true_iff in *; lia. Qed.

Ltac put x := eexists x, _, _; split; [first [exact (conj eq_refl eq_refl) | (split; [eassumption|reflexivity]) | eassumption]|split; [|reflexivity]].

Lemma reads_dest version : 1 <= version -> reads (rd_dest_entry (negb (version =? 1))) (dest_bytes version).
Proof.
  intros Hv. destruct (Z.eqb_spec version 1) as [-> |N]; cbn [negb]; (eapply reads_iff; [unfold rd_dest_entry; jl_reads|]); intros e d _; unfold dest_bytes, dest_head.
  - split.
    + intros H. rel_out. cbn [de_unknown1 de_volume de_file de_birth_volume de_birth_file de_hostname de_number de_unknown2 de_unknown3 de_time de_pin de_more de_path].
      match goal with H : is_ascii _ = true |- _ => apply is_ascii_iff in H end.
      eexists _, _. split; [repeat (split; [eassumption|]); eexists; split; [eassumption|reflexivity]|]. split; [eassumption|]. left. split; [reflexivity|]. split; [reflexivity|].
      rewrite ?app_nil_l, app_nil_r, <- !app_assoc. reflexivity.
    + destruct e as [u1 a b c d' host number u2 u3 time pin more path]. cbn [de_unknown1 de_volume de_file de_birth_volume de_birth_file de_hostname de_number de_unknown2 de_unknown3 de_time de_pin de_more de_path].
      intros (h & p & (A1 & A2 & A3 & A4 & A5 & A6 & A7 & A8 & A9 & A10 & A11 & q & Q & ->) & P & [(_ & -> & ->) | (V & _)]); [|lia]. apply is_ascii_iff in A7.
      rewrite <- !app_assoc. put u1. put a. put b. put c. put d'. put host. exists tt, []. eexists. split; [auto|]. split; [|reflexivity]. put number. put u2. put u3. put time. put pin. exists path, p, []. rewrite app_nil_r. auto.
  - split.
    + intros H. rel_out. cbn [de_unknown1 de_volume de_file de_birth_volume de_birth_file de_hostname de_number de_unknown2 de_unknown3 de_time de_pin de_more de_path].
      match goal with H : is_ascii _ = true |- _ => apply is_ascii_iff in H end.
      eexists _, _. split; [repeat (split; [eassumption|]); eexists; split; [eassumption|reflexivity]|]. split; [eassumption|]. right. split; [lia|]. eexists _, _, _, _, _. split; [reflexivity|].
      repeat (split; [eassumption|]). rewrite ?app_nil_l, app_nil_r, <- !app_assoc. reflexivity.
    + destruct e as [u1 a b c d' host number u2 u3 time pin more path]. cbn [de_unknown1 de_volume de_file de_birth_volume de_birth_file de_hostname de_number de_unknown2 de_unknown3 de_time de_pin de_more de_path].
      intros (h & p & (A1 & A2 & A3 & A4 & A5 & A6 & A7 & A8 & A9 & A10 & A11 & q & Q & ->) & P & [(V & _) | (_ & u4 & u5 & u6 & u7 & s & -> & B4 & B5 & B6 & B7 & ->)]); [lia|]. apply is_ascii_iff in A7.
      rewrite <- !app_assoc. put u1. put a. put b. put c. put d'. put host. exists tt, []. eexists. split; [auto|]. split; [|reflexivity]. put number. put u2. put u3. put time. put pin. put u4. put u5. put u6. put path.
      exists u7, (le_enc 4 u7), []. rewrite app_nil_r. auto.
Qed.

Lemma dest_pos version e d : dest_bytes version e d -> 0 < len d.
Proof.
  intros (h & p & H & _ & D). unfold dest_head in H. rel_out. assert (8 <= len (le_enc 8 (de_unknown1 e))) by (rewrite len_le_enc; lia).
  destruct D as [(_ & _ & ->) | (_ & u4 & u5 & u6 & u7 & s & _ & _ & _ & _ & _ & ->)]; rewrite !len_app; match goal with |- _ < ?t => idtac end;
    repeat match goal with |- context [len ?x] => lazymatch goal with H : 0 <= len x |- _ => fail | _ => pose proof (len_nonneg x) end end; lia.
Qed.

Lemma reads_header : reads rd_dest_header (fun h d => exists v c p u1 l u2 r u3, h = [v; c; p; u1; l; u2; r; u3] /\ Forall n32 h /\
  d = le_enc 4 v ++ le_enc 4 c ++ le_enc 4 p ++ le_enc 4 u1 ++ le_enc 4 l ++ le_enc 4 u2 ++ le_enc 4 r ++ le_enc 4 u3).
Proof.
  eapply reads_iff; [apply reads_ints; cbn; lia|]. intros h d _. cbv beta. split.
  - intros (L & O & ->). do 8 (destruct h as [|? h]; [discriminate|]). destruct h; [|discriminate]. eexists _, _, _, _, _, _, _, _. split; [reflexivity|]. split; [exact O|]. cbn [enc_ints map concat enc_field enc_int]. rewrite app_nil_r. reflexivity.
  - intros (v & c & p & u1 & l & u2 & r & u3 & -> & F & ->). split; [reflexivity|]. split; [exact F|]. cbn [enc_ints map concat enc_field enc_int]. rewrite app_nil_r. reflexivity.
Qed.

Lemma dest_list_iff fuel content h l : is_bytes content -> len content < Z.of_nat fuel ->
  (read_dest_list fuel (Some content) = Done (Ok (Some (h, l))) <-> dest_list h l content).
Proof.
  intros Hb Hf. pose proof (len_nonneg content). unfold read_dest_list, dest_list. destruct (Z.ltb_spec 0 (len content)) as [L|L].
  - destruct (reads_header content 0 Hb ltac:(lia)) as [R1 R2]. destruct (rd_dest_header content 0) as [[g q]|x] eqn:E.
    + destruct (proj1 (R1 g q) eq_refl) as (d & (v & c & p & u1 & t & u2 & r & u3 & -> & F & Ed) & S & ->). cbn [nth].
      apply stored_at_0 in S as [rest ->]. assert (Ld : len d = 32) by (subst d; rewrite !len_app, !len_le_enc; reflexivity).
      assert (Uniq : forall v' c' p' u1' t' u2' r' u3' rest', Forall n32 [v'; c'; p'; u1'; t'; u2'; r'; u3'] ->
                d ++ rest = le_enc 4 v' ++ le_enc 4 c' ++ le_enc 4 p' ++ le_enc 4 u1' ++ le_enc 4 t' ++ le_enc 4 u2' ++ le_enc 4 r' ++ le_enc 4 u3' ++ rest' ->
                [v'; c'; p'; u1'; t'; u2'; r'; u3'] = [v; c; p; u1; t; u2; r; u3] /\ rest' = rest).
      { intros v' c' p' u1' t' u2' r' u3' rest' F' Q. set (d' := le_enc 4 v' ++ le_enc 4 c' ++ le_enc 4 p' ++ le_enc 4 u1' ++ le_enc 4 t' ++ le_enc 4 u2' ++ le_enc 4 r' ++ le_enc 4 u3').
        assert (Ld' : len d' = 32) by (unfold d'; rewrite !len_app, !len_le_enc; reflexivity). assert (Q' : d ++ rest = d' ++ rest') by (rewrite Q; unfold d'; rewrite <- !app_assoc; reflexivity).
        assert (P : Ok ([v; c; p; u1; t; u2; r; u3], 0 + len d) = Ok ([v'; c'; p'; u1'; t'; u2'; r'; u3'], 0 + len d')).
        { apply R1. exists d'. split; [eexists _, _, _, _, _, _, _, _; split; [reflexivity|]; split; [exact F'|reflexivity]|]. split; [|reflexivity]. exists [], rest'. split; [exact Q'|reflexivity]. }
        split; [congruence|]. apply (f_equal (zskipn 32)) in Q'. rewrite !zskipn_app_len in Q' by congruence. congruence. }
      rewrite Z.add_0_l, Ld. destruct ((1 <=? v) && (v <=? 4)) eqn:V; [rewrite andb_true_iff in V|rewrite andb_false_iff in V].
      * assert (U := fun k => rd_until_iff _ _ _ (reads_dest v ltac:(lia)) (dest_pos v) Hb fuel 32 k ltac:(lia) ltac:(lia)). rewrite zskipn_app_len in U by lia. split.
        -- destruct (rd_until fuel _ (d ++ rest) 32 _) as [[k|]|] eqn:Eu; cbn [rbind]; try discriminate. intros Q. assert (h = [v; c; p; u1; t; u2; r; u3] /\ l = k) as [-> ->] by (split; congruence).
           destruct (proj1 (U k) eq_refl) as (ds & F2 & ->). exists v, c, p, u1, t, u2, r, u3, ds. split; [reflexivity|]. split; [exact F|]. split; [cbn [In]; lia|]. split; [exact F2|]. rewrite Ed, <- !app_assoc. reflexivity.
        -- intros (v' & c' & p' & u1' & t' & u2' & r' & u3' & ds & -> & F' & I & F2 & Q). apply Uniq in Q as [Q Er]; [|exact F']. rewrite Q. assert (v' = v) as -> by congruence.
           rewrite (proj2 (U l)); [reflexivity|]. exists ds. auto.
      * split; [discriminate|]. intros (v' & c' & p' & u1' & t' & u2' & r' & u3' & ds & -> & F' & I & F2 & Q). apply Uniq in Q as [Q Er]; [|exact F']. assert (v' = v) as -> by congruence. cbn [In] in I. lia.
    + split; [discriminate|]. intros (v' & c' & p' & u1' & t' & u2' & r' & u3' & ds & -> & F' & I & F2 & Q).
      assert (P : Err x = Ok ([v'; c'; p'; u1'; t'; u2'; r'; u3'], 32)); [|discriminate]. apply R1. eexists. split; [eexists _, _, _, _, _, _, _, _; split; [reflexivity|]; split; [exact F'|reflexivity]|].
      split; [|rewrite !len_app, !len_le_enc; reflexivity]. exists [], (concat ds). split; [rewrite Q; cbn [app]; rewrite <- !app_assoc; reflexivity|reflexivity].
  - split; [discriminate|]. intros (v' & c' & p' & u1' & t' & u2' & r' & u3' & ds & -> & F' & I & F2 & Q). rewrite Q, !len_app, !len_le_enc in L. pose proof (len_nonneg (concat ds)). lia.
Qed.

Lemma dest_list_ends fuel stream : (forall content, stream = Some content -> is_bytes content /\ len content < Z.of_nat fuel) ->
  exists x, read_dest_list fuel stream = Done x /\ (forall y, x = Err y -> y = ParseError).
Proof.
  intros H. unfold read_dest_list. destruct stream as [content|]; [|eexists; split; [reflexivity|congruence]]. destruct (H content eq_refl) as [Hb Hf]. pose proof (len_nonneg content).
  destruct (Z.ltb_spec 0 (len content)); [|eexists; split; [reflexivity|discriminate]].
  destruct (reads_header content 0 Hb ltac:(lia)) as [R1 R2]. destruct (rd_dest_header content 0) as [[g q]|x] eqn:E.
  - destruct (proj1 (R1 g q) eq_refl) as (d & _ & S & ->). pose proof (len_nonneg d). destruct ((1 <=? nth 0 g 0) && (nth 0 g 0 <=? 4)) eqn:V; [|eexists; split; [reflexivity|congruence]]. rewrite andb_true_iff in V.
    destruct (rd_until_ends _ _ _ (reads_dest (nth 0 g 0) ltac:(lia)) (dest_pos _) Hb fuel (0 + len d) ltac:(lia) ltac:(lia)) as ([l|y] & -> & Hy); cbn [rbind].
    + eexists. split; [reflexivity|discriminate].
    + eexists. split; [reflexivity|]. intros z Hz. apply Hy. congruence.
  - eexists. split; [reflexivity|]. intros y Hy. apply R2. congruence.
Qed.

(** *** Custom destinations *)

Lemma reads_custom_header : reads rd_custom_header (fun n d => n32 n /\ exists u, n32 u /\ d = le_enc 4 2 ++ le_enc 4 n ++ le_enc 4 u).
Proof.
  eapply reads_iff; [unfold rd_custom_header; jl_reads|]. intros n d _. cbv beta. split.
  - intros H. rel_out. match goal with H : (_ =? 2) = true |- _ => apply Z.eqb_eq in H end. subst. split; [assumption|]. eexists. split; [eassumption|]. rewrite ?app_nil_l, app_nil_r. reflexivity.
  - intros (Hn & u & Hu & ->). assert (n32 2) by (unfold n32; lia). put 2. exists tt, []. eexists. split; [auto|]. split; [|reflexivity]. put n. exists u, (le_enc 4 u), []. rewrite app_nil_r. auto.
Qed.

Lemma reads_category_type : reads rd_category_type (fun t d => 0 <= t <= 2 /\ d = le_enc 4 t).
Proof.
  eapply reads_iff; [unfold rd_category_type; jl_reads|]. intros n d _. cbv beta. split.
  - intros H. rel_out. match goal with H : _ && _ = true |- _ => apply andb_true_iff in H end. split; [lia|]. rewrite ?app_nil_l, app_nil_r. reflexivity.
  - intros [Hn ->]. assert (n32 n) by (unfold n32; lia). exists n, (le_enc 4 n), []. rewrite app_nil_r. split; [auto|]. split; [|reflexivity]. exists tt, [], []. rewrite andb_true_iff, !Z.leb_le. auto.
Qed.

Lemma reads_category : reads rd_category category_bytes.
Proof.
  assert (R : forall t, reads (if t =? 0 then rd name <- rd_path; rd n <- rd_int (FU LE 4); rd_ret (mkcat t (Some name) (Some n) None)
    else rd n <- rd_int (FU LE 4); rd_ret (if t =? 2 then mkcat t None (Some n) None else mkcat t None None (Some n)))
    (fun c d => if t =? 0 then exists name n p, sized_path name p /\ n32 n /\ c = mkcat t (Some name) (Some n) None /\ d = p ++ le_enc 4 n
                else exists n, n32 n /\ c = (if t =? 2 then mkcat t None (Some n) None else mkcat t None None (Some n)) /\ d = le_enc 4 n)).
  { intros t. destruct (t =? 0); (eapply reads_iff; [jl_reads|]); intros c d _; cbv beta; split.
    - intros H. rel_out. eexists _, _, _. split; [eassumption|]. split; [eassumption|]. split; [reflexivity|]. rewrite app_nil_r. reflexivity.
    - intros (name & n & p & P & N & -> & ->). put name. exists n, (le_enc 4 n), []. rewrite app_nil_r. auto.
    - intros H. rel_out. eexists. split; [eassumption|]. split; [reflexivity|]. rewrite app_nil_r. reflexivity.
    - intros (n & N & -> & ->). exists n, (le_enc 4 n), []. rewrite app_nil_r. auto. }
  eapply reads_iff; [unfold rd_category; eapply reads_bind; [apply reads_category_type|intros t; apply R]|]. intros c d _. cbv beta. split.
  - intros (t & d1 & d2 & [Ht ->] & H & ->). assert (t = 0 \/ t = 1 \/ t = 2) as [-> | [-> | ->]] by lia; cbn [Z.eqb Pos.eqb] in H.
    + destruct H as (name & n & p & P & N & -> & ->). constructor; assumption.
    + destruct H as (n & N & -> & ->). constructor; assumption.
    + destruct H as (n & N & -> & ->). constructor; assumption.
  - intros H. destruct H as [name p n P N|i N|n N].
    + exists 0, (le_enc 4 0), (p ++ le_enc 4 n). split; [split; [lia|reflexivity]|]. split; [|reflexivity]. cbn [Z.eqb]. exists name, n, p. auto.
    + exists 1, (le_enc 4 1), (le_enc 4 i). split; [split; [lia|reflexivity]|]. split; [|reflexivity]. cbn [Z.eqb Pos.eqb]. exists i. auto.
    + exists 2, (le_enc 4 2), (le_enc 4 n). split; [split; [lia|reflexivity]|]. split; [|reflexivity]. cbn [Z.eqb Pos.eqb]. exists n. auto.
Qed.

Lemma solid_category : solid rd_category.
Proof. unfold rd_category, rd_category_type. do 2 apply solid_bind. apply solid_int. cbn; lia. Qed.

Lemma signature_eq : signature = footer_signature.
Proof. reflexivity. Qed.
Lemma lnk_class_eq : lnk_class = lnk_guid.
Proof. reflexivity. Qed.

Lemma reads_footer : reads rd_footer (fun _ d => d = signature).
Proof.
  eapply reads_iff; [unfold rd_footer; jl_reads|]. intros [] d _. cbv beta. split.
  - intros (s & d1 & d2 & [L ->] & [E ->] & ->). apply list_eqb_eq in E. rewrite app_nil_r. exact E.
  - intros ->. exists signature, signature, []. split; [auto|]. split; [split; reflexivity|rewrite app_nil_r; reflexivity].
Qed.
Lemma solid_footer : solid rd_footer.
Proof. unfold rd_footer. apply solid_bind, solid_bytes. lia. Qed.

Lemma footer_at content off : is_bytes content -> 0 <= off ->
  (rd_footer content off = Err ParseError /\ ~ stored_at content off signature) \/ (rd_footer content off = Ok (tt, off + 4) /\ stored_at content off signature).
Proof.
  intros Hb Ho. destruct (reads_at _ _ content off reads_footer solid_footer Hb Ho) as [R1 R2]. destruct (rd_footer content off) as [[[] p]|x].
  - right. destruct (proj1 (R1 tt p) eq_refl) as (d & -> & S & ->). auto.
  - left. split; [f_equal; apply R2; reflexivity|]. intros S. assert (P : Err x = Ok (tt, off + 4)); [|discriminate]. apply R1. exists signature. auto.
Qed.

Lemma stored_fun content off a b : stored_at content off a -> stored_at content off b -> len a = len b -> a = b.
Proof. intros A B L. apply stored_at_iff in A as (_ & _ & <-). apply stored_at_iff in B as (_ & _ & <-). rewrite L. reflexivity. Qed.

Lemma entries_off lnk content off l off' : (forall d n, lnk d = Some n -> 0 <= n) -> lnk_entries lnk content off l off' -> off <= off'.
Proof. intros Hl. induction 1 as [|off size l off' S E H IH]; [lia|]. apply Hl in E. lia. Qed.

(** The entries that are read are LNK file entries in a row; all are read unless a footer, or the end
    of the file, comes first. *)
Lemma entries_sound lnk content : is_bytes content -> (forall d n, lnk d = Some n -> 0 <= n) -> forall n off l r, 0 <= off -> custom_entries lnk n content off = (l, r) ->
  (forall x, r = Err x -> x = ParseError) /\ Forall (fun e => jl_identifier e = s2z "0x00000000"%string) l /\
  (forall off', r = Ok off' -> lnk_entries lnk content off (map jl_data l) off' /\ (length l <= n)%nat).
Proof.
  intros Hb Hl. induction n as [|n IH]; intros off l r Ho; cbn [custom_entries].
  - intros E. assert (l = [] /\ r = Ok off) as [-> ->] by (split; congruence). split; [congruence|]. split; [constructor|]. intros off' E'. assert (off' = off) as -> by congruence. split; [constructor|cbn; lia].
  - destruct (Z.ltb_spec (len content - off) 16) as [L|L].
    + intros E. assert (l = [] /\ r = Ok off) as [-> ->] by (split; congruence). split; [congruence|]. split; [constructor|]. intros off' E'. assert (off' = off) as -> by congruence. split; [constructor|cbn; lia].
    + destruct (reads_bytes 16 content off Hb ltac:(lia)) as [R1 R2]. destruct (rd_bytes 16 content off) as [[g q]|x] eqn:E.
      * destruct (proj1 (R1 g q) eq_refl) as (d & [Lg ->] & S & ->). destruct (list_eqb g lnk_guid) eqn:G.
        -- apply list_eqb_eq in G as ->. destruct (lnk (zskipn (off + 16) content)) as [size|] eqn:K.
           ++ destruct (custom_entries lnk n content (off + 16 + size)) as [l' r'] eqn:C. intros Q. assert (l = custom_entry (zskipn (off + 16) content) :: l' /\ r = r') as [-> ->] by (split; congruence).
              pose proof (Hl _ _ K). destruct (IH (off + 16 + size) _ _ ltac:(lia) C) as (A & B & D). split; [exact A|]. split; [constructor; [reflexivity|exact B]|].
              intros off' Eo. destruct (D off' Eo) as [D1 D2]. cbn [map custom_entry jl_data length]. split; [eapply le_next; eassumption|lia].
           ++ intros Q. assert (l = [] /\ r = Err ParseError) as [-> ->] by (split; congruence). split; [congruence|]. split; [constructor|discriminate].
        -- destruct (list_eqb (zfirstn 4 g) footer_signature) eqn:F.
           ++ intros Q. destruct (IH _ _ _ Ho Q) as (A & B & D). split; [exact A|]. split; [exact B|]. intros off' Eo. destruct (D off' Eo) as [D1 D2]. split; [exact D1|lia].
           ++ intros Q. assert (l = [] /\ r = Err ParseError) as [-> ->] by (split; congruence). split; [congruence|]. split; [constructor|discriminate].
      * intros Q. assert (l = [] /\ r = Err x) as [-> ->] by (split; congruence). split; [intros y Hy; apply R2; congruence|]. split; [constructor|discriminate].
Qed.

Lemma entries_complete lnk content : is_bytes content -> (forall d n, lnk d = Some n -> 0 <= n) -> forall off l off', lnk_entries lnk content off l off' -> 0 <= off -> stored_at content off' signature ->
  forall n, (length l <= n)%nat -> custom_entries lnk n content off = (map custom_entry l, Ok off').
Proof.
  intros Hb Hl off l off' H. induction H as [off|off size l off' S E H IH]; intros Ho Sg n Hn.
  - clear Hn. induction n as [|n IH]; [reflexivity|]. cbn [custom_entries]. destruct (Z.ltb_spec (len content - off) 16) as [L|L]; [reflexivity|].
    destruct (reads_bytes 16 content off Hb ltac:(lia)) as [R1 R2]. assert (Q : exists g, rd_bytes 16 content off = Ok (g, off + 16) /\ stored_at content off g /\ len g = 16).
    { exists (zfirstn 16 (zskipn off content)). assert (Lg : len (zfirstn 16 (zskipn off content)) = 16) by (rewrite len_zfirstn; rewrite ?len_zskipn; lia).
      assert (Sx : stored_at content off (zfirstn 16 (zskipn off content))) by (apply stored_at_iff; split; [lia|]; split; [lia|]; rewrite Lg; reflexivity).
      split; [|auto]. apply R1. exists (zfirstn 16 (zskipn off content)). rewrite Lg. auto. }
    destruct Q as (g & -> & Sx & Lg). assert (F : zfirstn 4 g = signature).
    { apply (stored_fun content off); [|exact Sg|rewrite len_zfirstn, Lg; reflexivity]. rewrite <- (zfirstn_zskipn g 4) in Sx. apply stored_at_app in Sx as [Sx _]. exact Sx. }
    destruct (list_eqb g lnk_guid) eqn:G; [apply list_eqb_eq in G as ->; discriminate|]. rewrite F. change (list_eqb signature footer_signature) with true. cbn iota. exact IH.
  - destruct n as [|n]; [cbn in Hn; lia|]. cbn [custom_entries]. pose proof (stored_at_inside _ _ _ S) as [_ I]. change (len lnk_class) with 16 in I. destruct (Z.ltb_spec (len content - off) 16) as [L|L]; [lia|].
    destruct (reads_bytes 16 content off Hb ltac:(lia)) as [R1 R2]. rewrite (proj2 (R1 lnk_class (off + 16))) by (exists lnk_class; auto).
    change (list_eqb lnk_class lnk_guid) with true. cbn iota. rewrite E. apply Hl in E. rewrite (IH ltac:(lia) Sg n ltac:(cbn in Hn; lia)). reflexivity.
Qed.

Definition at_most (k n : Z) : Prop := k <= n.

Lemma count_nonneg c d n : category_bytes c d -> entry_count c n -> 0 <= n /\ n = match ct_count c with Some n => n | None => 0 end.
Proof.
  unfold entry_count. intros H. destruct H as [name p m P N|i N|m N]; cbn [ct_count]; intros [E|[E ->]]; try discriminate; unfold n32 in *; try (assert (m = n) as -> by congruence); lia.
Qed.

Lemma entry_count_of c : entry_count c (match ct_count c with Some n => n | None => 0 end).
Proof. unfold entry_count. destruct (ct_count c); auto. Qed.

Lemma categories_sound lnk content : is_bytes content -> (forall d n, lnk d = Some n -> 0 <= n) -> forall n off l r, 0 <= off -> custom_categories lnk n content off = (l, r) ->
  (forall x, r = Err x -> x = ParseError) /\ Forall (fun e => jl_identifier e = s2z "0x00000000"%string) l /\
  (forall cs off', r = Ok (cs, off') -> categories at_most lnk content off cs (map jl_data l) /\ length cs = n).
Proof.
  intros Hb Hl. induction n as [|n IH]; intros off l r Ho; cbn [custom_categories].
  - intros E. assert (l = [] /\ r = Ok ([], off)) as [-> ->] by (split; congruence). split; [congruence|]. split; [constructor|]. intros cs off' E'. assert (cs = []) as -> by congruence. split; [constructor|reflexivity].
  - destruct (reads_at _ _ content off reads_category solid_category Hb Ho) as [R1 R2]. destruct (rd_category content off) as [[c q]|x] eqn:E.
    + destruct (proj1 (R1 c q) eq_refl) as (d & Cb & S & ->). set (k := match ct_count c with Some k => k | None => 0 end). pose proof (len_nonneg d).
      destruct (count_nonneg c d k Cb (entry_count_of c)) as [Hk _].
      destruct (custom_entries lnk (Z.to_nat k) content (off + len d)) as [l1 r1] eqn:C1. destruct (entries_sound lnk content Hb Hl _ (off + len d) _ _ ltac:(lia) C1) as (A1 & B1 & D1). destruct r1 as [off1|x1].
      * destruct (D1 off1 eq_refl) as [D2 D3]. pose proof (entries_off _ _ _ _ _ Hl D2). destruct (footer_at content off1 Hb ltac:(lia)) as [[-> F]|[-> F]].
        -- intros Q. assert (l = l1 /\ r = Err ParseError) as [-> ->] by (split; congruence). split; [congruence|]. split; [exact B1|discriminate].
        -- destruct (custom_categories lnk n content (off1 + 4)) as [l2 r2] eqn:C2. intros Q. destruct (IH (off1 + 4) _ _ ltac:(lia) C2) as (A2 & B2 & D4).
           assert (l = l1 ++ l2 /\ r = (do (cs, off) <- r2; Ok (c :: cs, off))) as [-> ->] by (split; congruence). split; [|split; [apply Forall_app; auto|]].
           ++ intros x. destruct r2 as [[cs o]|y]; cbn [bind]; [discriminate|]. intros Q2. apply A2. congruence.
           ++ intros cs off'. destruct r2 as [[cs2 o]|y]; cbn [bind]; [|discriminate]. intros Q2. assert (cs = c :: cs2) as -> by congruence. destruct (D4 cs2 o eq_refl) as [D5 D6].
              split; [|cbn; lia]. rewrite map_app. eapply cs_next; [exact Cb|exact S|apply entry_count_of|exact D2| |exact F|exact D5].
              unfold at_most. change (len (map jl_data l1) <= k). unfold len. rewrite map_length. lia.
      * intros Q. assert (l = l1 /\ r = Err x1) as [-> ->] by (split; congruence). split; [intros y Hy; apply A1; congruence|]. split; [exact B1|discriminate].
    + intros Q. assert (l = [] /\ r = Err x) as [-> ->] by (split; congruence). split; [intros y Hy; apply R2; congruence|]. split; [constructor|discriminate].
Qed.

Lemma categories_complete lnk content : is_bytes content -> (forall d n, lnk d = Some n -> 0 <= n) -> forall off cs l, categories at_most lnk content off cs l -> 0 <= off ->
  exists off', custom_categories lnk (length cs) content off = (map custom_entry l, Ok (cs, off')).
Proof.
  intros Hb Hl off cs l H. induction H as [off|off c d n l off' cs l' Cb S N L O F H IH]; intros Ho; [exists off; reflexivity|]. cbn [length custom_categories].
  destruct (reads_at _ _ content off reads_category solid_category Hb Ho) as [R1 R2]. rewrite (proj2 (R1 c (off + len d))) by (exists d; auto).
  pose proof (len_nonneg d). destruct (count_nonneg c d n Cb N) as [Hn <-]. unfold at_most, len in O.
  rewrite (entries_complete lnk content Hb Hl _ _ _ L ltac:(lia) F (Z.to_nat n) ltac:(lia)). pose proof (entries_off _ _ _ _ _ Hl L).
  destruct (footer_at content off' Hb ltac:(lia)) as [[_ G]|[-> _]]; [contradiction|]. destruct (IH ltac:(lia)) as (o & ->). cbn [bind]. exists o. rewrite map_app. reflexivity.
Qed.

Lemma custom_data l : map jl_data (map custom_entry l) = l.
Proof. rewrite map_map. cbn [custom_entry jl_data]. apply map_id. Qed.

Lemma custom_header_split content n u rest : content = le_enc 4 2 ++ le_enc 4 n ++ le_enc 4 u ++ rest -> is_bytes content -> n32 n -> n32 u -> rd_custom_header content 0 = Ok (n, 12).
Proof.
  intros E Hb Hn Hu. pose proof (len_nonneg content). destruct (reads_custom_header content 0 Hb ltac:(lia)) as [R1 _]. apply R1. exists (le_enc 4 2 ++ le_enc 4 n ++ le_enc 4 u).
  split; [split; [exact Hn|]; exists u; auto|]. split; [|rewrite !len_app, !len_le_enc; reflexivity]. exists [], rest. rewrite E, <- !app_assoc. auto.
Qed.

Lemma custom_sound lnk es content es' r : is_bytes content -> (forall d n, lnk d = Some n -> 0 <= n) -> read_custom lnk es content = (es', r) ->
  exists l, es' = es ++ l /\ Forall (fun e => jl_identifier e = s2z "0x00000000"%string) l /\ (forall x, r = Err x -> x = ParseError) /\
    (forall cs, r = Ok cs -> custom_file at_most lnk content cs (map jl_data l)).
Proof.
  intros Hb Hl. pose proof (len_nonneg content). unfold read_custom. destruct (reads_custom_header content 0 Hb ltac:(lia)) as [R1 R2]. destruct (rd_custom_header content 0) as [[n q]|x] eqn:E.
  - destruct (proj1 (R1 n q) eq_refl) as (d & (Hn & u & Hu & ->) & S & ->). assert (Ld : len (le_enc 4 2 ++ le_enc 4 n ++ le_enc 4 u) = 12) by (rewrite !len_app, !len_le_enc; reflexivity).
    rewrite Z.add_0_l, Ld. destruct (custom_categories lnk (Z.to_nat n) content 12) as [l r1] eqn:C. intros Q. assert (es' = es ++ l /\ r = (do (cs, _) <- r1; Ok cs)) as [-> ->] by (split; congruence).
    destruct (categories_sound lnk content Hb Hl _ 12 _ _ ltac:(lia) C) as (A & B & D). exists l. split; [reflexivity|]. split; [exact B|]. split.
    + intros x. destruct r1 as [[cs o]|y]; cbn [bind]; [discriminate|]. intros Q2. apply A. congruence.
    + intros cs. destruct r1 as [[cs' o]|y]; cbn [bind]; [|discriminate]. intros Q2. assert (cs' = cs) as -> by congruence. destruct (D cs o eq_refl) as [D1 D2].
      apply stored_at_0 in S as [rest Ec]. exists u, rest. assert (len cs = n) as -> by (unfold n32, len in *; lia). split; [exact Hn|]. split; [exact Hu|]. split; [rewrite Ec, <- !app_assoc; reflexivity|exact D1].
  - intros Q. assert (es' = es /\ r = Err x) as [-> ->] by (split; congruence). exists []. rewrite app_nil_r. split; [reflexivity|]. split; [constructor|]. split; [intros y Hy; apply R2; congruence|discriminate].
Qed.

Lemma custom_complete lnk es content cs l : is_bytes content -> (forall d n, lnk d = Some n -> 0 <= n) -> custom_file at_most lnk content cs l ->
  read_custom lnk es content = (es ++ map custom_entry l, Ok cs).
Proof.
  intros Hb Hl (u & rest & Hn & Hu & E & C). unfold read_custom. rewrite (custom_header_split _ _ _ _ E Hb Hn Hu). destruct (categories_complete lnk content Hb Hl _ _ _ C ltac:(lia)) as (o & Q).
  replace (Z.to_nat (len cs)) with (length cs) by (unfold len; lia). rewrite Q. reflexivity.
Qed.

(** The files with exactly the given numbers of entries are among them. *)
Lemma categories_weaken (p q : Z -> Z -> Prop) lnk content off cs l : (forall k n, p k n -> q k n) -> categories p lnk content off cs l -> categories q lnk content off cs l.
Proof. intros H. induction 1; [constructor|eapply cs_next; eauto]. Qed.

(** *** Streams *)

Lemma auto_iff lnk items : forall l x, auto_entries lnk items = (l, x) ->
  (exists n, l = map (fun i => mkjl (fst i) (snd i)) (firstn n (filter (fun i => negb (list_eqb (fst i) (s2z "DestList"%string))) items))) /\
  Forall (fun e => lnk (jl_data e) <> None) l /\
  (x = None -> l = map (fun i => mkjl (fst i) (snd i)) (filter (fun i => negb (list_eqb (fst i) (s2z "DestList"%string))) items)) /\ (x = None \/ x = Some ParseError).
Proof.
  induction items as [|[name data] items IH]; intros l x; cbn [auto_entries].
  - intros E. assert (l = [] /\ x = None) as [-> ->] by (split; congruence). split; [exists 0%nat; reflexivity|]. split; [constructor|auto].
  - cbn [filter fst]. destruct (list_eqb name (s2z "DestList"%string)) eqn:N; cbn [negb]; [apply IH|]. destruct (lnk data) eqn:K.
    + destruct (auto_entries lnk items) as [l' x'] eqn:E. intros Q. assert (l = mkjl name data :: l' /\ x = x') as [-> ->] by (split; congruence). destruct (IH _ _ eq_refl) as ((n & A) & B & C & D).
      split; [exists (S n); cbn [firstn map fst snd]; rewrite <- A; reflexivity|]. split; [constructor; [cbn [jl_data]; congruence|exact B]|]. split; [|exact D]. intros Hx. cbn [map fst snd]. rewrite <- C by exact Hx. reflexivity.
    + intros Q. assert (l = [] /\ x = Some ParseError) as [-> ->] by (split; congruence). split; [exists 0%nat; reflexivity|]. split; [constructor|]. split; [discriminate|auto].
Qed.

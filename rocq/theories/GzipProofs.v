From Verif Require Import Base BaseFacts CoreModel CoreProofs BitFacts GzipModel GzipSpec.

(** ** NUL-terminated strings *)

Lemma cstring_end_cons c d :
  cstring_end (c :: d) = if c =? 0 then Some []
                         else match cstring_end d with Some s => Some (c :: s) | None => None end.
Proof. reflexivity. Qed.

Lemma cstring_end_app s rest : ~ In 0 s -> cstring_end (s ++ 0 :: rest) = Some s.
Proof.
  induction s as [|c s IH]; intros H; cbn [app]; rewrite cstring_end_cons; [reflexivity|].
  destruct (Z.eqb_spec c 0); [exfalso; apply H; now left|].
  rewrite IH; [reflexivity|]. intros Hi. apply H. now right.
Qed.

Lemma cstring_end_spec d s :
  cstring_end d = Some s <-> exists rest, d = s ++ 0 :: rest /\ ~ In 0 s.
Proof.
  split.
  - revert s; induction d as [|c d IH]; intros s; [discriminate|]. rewrite cstring_end_cons.
    destruct (Z.eqb_spec c 0) as [->|Hc].
    + injection 1 as <-. exists d. split; [reflexivity|intros []].
    + destruct (cstring_end d) as [s'|]; [|discriminate]. injection 1 as <-.
      destruct (IH s' eq_refl) as (rest & -> & Hn). exists rest. split; [reflexivity|].
      intros [H|H]; [congruence|contradiction].
  - intros (rest & -> & Hn). apply cstring_end_app. exact Hn.
Qed.

Lemma cstring_end_none d : cstring_end d = None <-> ~ In 0 d.
Proof.
  induction d as [|c d IH]; [split; [intros _ []|reflexivity]|]. rewrite cstring_end_cons.
  destruct (Z.eqb_spec c 0) as [->|Hc].
  - split; [discriminate|]. intros H. exfalso. apply H. now left.
  - destruct (cstring_end d) as [s|].
    + split; [discriminate|]. intros H. destruct IH as [_ IH]. 
      assert (~ In 0 d) by (intros Hi; apply H; now right). specialize (IH H0). discriminate.
    + split; [|reflexivity]. intros _ [H|H]; [congruence|]. destruct IH as [IH _]. exact (IH eq_refl H).
Qed.

Lemma in_zfirstn {A} (x : A) n l : In x (zfirstn n l) -> In x l.
Proof. intros H. rewrite <- (zfirstn_zskipn l n). apply in_or_app. now left. Qed.

Lemma read_cstring_loop content off fuel : forall last,
  0 <= off -> 0 <= last -> off + last <= Z.max off (len content) ->
  ~ In 0 (zfirstn last (zskipn off content)) ->
  (Z.to_nat (len content - off - last) + 2 <= fuel)%nat ->
  forall pos,
  read_structure_loop fuel cstring_map (mkfile content pos) off
    (zfirstn last (zskipn off content)) last (last + 1) =
  Done (match read_cstring content off with
        | Ok (s, n) => Ok (s, n, mkfile content (off + n))
        | Err e => Err e
        end).
Proof.
  induction fuel as [|fuel IH]; intros last Hoff Hl Hin Hno Hfuel pos; [lia|].
  cbn [read_structure_loop]. destruct (Z.eqb_spec (last + 1) last); [lia|].
  replace (last + 1 - last) with 1 by lia.
  unfold read_data, f_seek. destruct (Z.ltb_spec (off + last) 0); [lia|]. cbn [bind f_read fpos fdata].
  unfold f_try_read. change (1 <? -1) with false. cbn iota. unfold f_read. cbn [bind fpos fdata]. change (1 <? 0) with false. cbn iota.
  assert (W : zfirstn last (zskipn off content) ++ zfirstn 1 (zskipn (off + last) content) =
              zfirstn (last + 1) (zskipn off content)) by (apply zwindow_app; lia).
  destruct (Z.ltb_spec (off + last) (len content)) as [Hlt|Hge].
  - assert (L1 : len (zfirstn 1 (zskipn (off + last) content)) = 1)
      by (rewrite len_zfirstn, len_zskipn; lia).
    rewrite L1. cbn [Z.eqb Pos.eqb negb]. cbn [m_map cstring_map m_hint]. rewrite W.
    assert (Ld : len (zfirstn (last + 1) (zskipn off content)) = last + 1)
      by (rewrite len_zfirstn, len_zskipn; lia).
    destruct (cstring_end (zfirstn (last + 1) (zskipn off content))) as [s|] eqn:E.
    + apply cstring_end_spec in E. destruct E as (rest & E & Hn).
      assert (Hs : s = zfirstn last (zskipn off content) /\ rest = []).
      { rewrite <- W in E.
        assert (Hr : rest = []).
        { destruct (zfirstn 1 (zskipn (off + last) content)) as [|y [|? ?]] eqn:Ey;
            rewrite ?len_cons in L1; try (rewrite len_nil in L1; lia);
            try (pose proof (len_nonneg l); lia).
          destruct rest as [|r0 rest] using rev_ind; [reflexivity|].
          exfalso. rewrite app_comm_cons, app_assoc in E. apply app_inj_tail in E. destruct E as [E _].
          apply Hno. rewrite E. apply in_or_app. right. now left. }
        subst rest. split; [|reflexivity].
        destruct (zfirstn 1 (zskipn (off + last) content)) as [|y [|? ?]] eqn:Ey;
            rewrite ?len_cons in L1; try (rewrite len_nil in L1; lia);
            try (pose proof (len_nonneg l); lia).
        apply app_inj_tail in E. destruct E as [E _]. symmetry. exact E. }
      destruct Hs as [-> ->].
      unfold read_cstring. destruct (Z.ltb_spec off 0); [lia|].
      assert (Ec : cstring_end (zskipn off content) = Some (zfirstn last (zskipn off content))).
      { apply cstring_end_spec. exists (zskipn (last + 1) (zskipn off content)).
        split; [|exact Hn]. rewrite <- (zfirstn_zskipn (zskipn off content) (last + 1)) at 1.
        rewrite E, <- app_assoc. reflexivity. }
      rewrite Ec. rewrite len_zfirstn, len_zskipn. do 4 f_equal; lia.
    + rewrite Ld. rewrite <- (IH (last + 1)) with (pos := off + last + 1); try lia.
      * reflexivity.
      * apply cstring_end_none. exact E.
  - assert (L1 : len (zfirstn 1 (zskipn (off + last) content)) = 0)
      by (rewrite len_zfirstn, len_zskipn; lia).
    rewrite L1. cbn [Z.eqb negb].
    unfold read_cstring. destruct (Z.ltb_spec off 0); [lia|].
    assert (Ec : cstring_end (zskipn off content) = None).
    { apply cstring_end_none. rewrite zfirstn_all in Hno by (rewrite len_zskipn; lia). exact Hno. }
    rewrite Ec. reflexivity.
Qed.

Lemma read_cstring_is_read_structure content pos off :
  read_structure (Z.to_nat (len content - off) + 2) cstring_map (mkfile content pos) off =
  Done (match read_cstring content off with
        | Ok (s, n) => Ok (s, n, mkfile content (off + n))
        | Err e => Err e
        end).
Proof.
  unfold read_structure. destruct (Z.ltb_spec off 0) as [Hneg|Hoff].
  - unfold read_cstring. destruct (Z.ltb_spec off 0); [|lia].
    replace (Z.to_nat (len content - off) + 2)%nat
      with (S (Z.to_nat (len content - off) + 1)) by lia.
    cbn [read_structure_loop m_hint0 cstring_map]. cbn [Z.eqb]. unfold read_data, f_seek.
    destruct (Z.ltb_spec (off + 0) 0); [reflexivity|lia].
  - change (m_hint0 cstring_map) with (0 + 1).
    rewrite <- (zfirstn_0 (zskipn off content) 0) at 1 by lia.
    apply read_cstring_loop; try lia. rewrite zfirstn_0 by lia. intros [].
Qed.

(** ** Headers and footers *)

Lemma read_cstring_at pre s rest off :
  off = len pre -> ~ In 0 s -> read_cstring (pre ++ (s ++ [0]) ++ rest) off = Ok (s, len s + 1).
Proof.
  intros -> Hn. unfold read_cstring. pose proof (len_nonneg pre). destruct (Z.ltb_spec (len pre) 0); [lia|].
  rewrite zskipn_app_len by reflexivity. rewrite <- app_assoc. cbn [app].
  rewrite cstring_end_app by exact Hn. reflexivity.
Qed.

Lemma gz_flags_bits m :
  (negb (Z.land (gz_flags m) 4 =? 0) = present (z_extra m)) /\
  (negb (Z.land (gz_flags m) 8 =? 0) = present (z_name m)) /\
  (negb (Z.land (gz_flags m) 16 =? 0) = present (z_comment m)) /\
  (negb (Z.land (gz_flags m) 2 =? 0) = present (z_hcrc m)).
Proof.
  unfold gz_flags.
  destruct (z_ftext m), (present (z_hcrc m)), (present (z_extra m)), (present (z_name m)),
    (present (z_comment m)); vm_compute; auto.
Qed.

Lemma read_member_header_ok pre m post :
  gz_ok m -> read_member_header (pre ++ gz_header m ++ post) (len pre) = Ok (len pre + len (gz_header m)).
Proof.
  intros (Hx & Ho & Hc & He & Hn & Hcm & Hh). unfold read_member_header.
  set (h10 := [31; 139; 8; gz_flags m] ++ le_enc 4 (z_mtime m) ++ [z_xfl m; z_os m]).
  set (ex := match z_extra m with Some x => le_enc 2 (len x) ++ x | None => [] end).
  set (hc := match z_hcrc m with Some x => x | None => [] end).
  assert (Eh : gz_header m = h10 ++ ex ++ cstr (z_name m) ++ cstr (z_comment m) ++ hc).
  { unfold gz_header, h10. rewrite <- !app_assoc. reflexivity. }
  assert (L10 : len h10 = 10) by reflexivity.
  rewrite Eh.
  replace (pre ++ (h10 ++ ex ++ cstr (z_name m) ++ cstr (z_comment m) ++ hc) ++ post)
    with (pre ++ h10 ++ (ex ++ cstr (z_name m) ++ cstr (z_comment m) ++ hc ++ post))
    by (rewrite <- !app_assoc; reflexivity).
  erewrite read_struct_map; [|reflexivity|reflexivity|reflexivity].
  cbn [bind]. change (le_int (firstn (fsize (FU LE 2)) h10) =? 35615) with true.
  cbn [guard bind map_field endian_int].
  match goal with |- context [guard ?b _] => change b with true end. cbn [guard bind].
  match goal with |- context [guard ?b _] => change b with true end. cbn [guard bind].
  match goal with |- context [Z.land ?v 4] => replace v with (gz_flags m) by (cbn; lia) end.
  destruct (gz_flags_bits m) as (B4 & B8 & B16 & B2). rewrite B4, B8, B16, B2.
  set (content := pre ++ h10 ++ ex ++ cstr (z_name m) ++ cstr (z_comment m) ++ hc ++ post).
  assert (S1 : (if present (z_extra m) then
                   do es <- read_struct content [FU LE 2] (len pre + 10);
                   match es with
                   | [VI n] => Ok (len pre + 10 + 2 + n)
                   | _ => Err OtherError
                   end
                 else Ok (len pre + 10)) = Ok (len (pre ++ h10 ++ ex))).
  { unfold ex. destruct (z_extra m) as [x|] eqn:Ex; cbn [present].
    - assert (Ec : content = (pre ++ h10) ++ le_enc 2 (len x) ++
                (x ++ cstr (z_name m) ++ cstr (z_comment m) ++ hc ++ post)).
      { unfold content, ex. rewrite <- !app_assoc. reflexivity. }
      rewrite Ec. erewrite read_struct_map; [|rewrite len_app, L10; reflexivity|apply le_enc_length|].
      2:{ cbn [map_struct fsize length le_enc Nat.ltb Nat.leb firstn skipn map_field endian_int].
          change [len x mod 256; len x / 256 mod 256] with (le_enc 2 (len x)).
          rewrite le_int_enc; [reflexivity|]. change (256 ^ Z.of_nat 2) with 65536.
          pose proof (len_nonneg x). lia. }
      cbn [bind]. rewrite !len_app, len_le_enc, L10. f_equal. lia.
    - rewrite !len_app, L10, len_nil. f_equal; lia. }
  rewrite S1. cbn [bind].
  assert (S2 : forall (o : option bytes) (a b : bytes), ~ match o with Some s => In 0 s | None => False end ->
     content = a ++ cstr o ++ b ->
     (if present o then do s <- read_cstring content (len a); Ok (len a + snd s) else Ok (len a)) =
     Ok (len (a ++ cstr o))).
  { intros o a b Hno Ec. destruct o as [s|]; cbn [present cstr] in *.
    - rewrite Ec, read_cstring_at by auto. cbn [bind snd]. rewrite !len_app, len_cons, len_nil. f_equal; lia.
    - rewrite app_nil_r. reflexivity. }
  rewrite (S2 (z_name m) (pre ++ h10 ++ ex) (cstr (z_comment m) ++ hc ++ post)).
  2:{ destruct (z_name m); cbn in Hn; tauto. }
  2:{ unfold content. rewrite <- !app_assoc. reflexivity. }
  cbn [bind].
  rewrite (S2 (z_comment m) ((pre ++ h10 ++ ex) ++ cstr (z_name m)) (hc ++ post)).
  2:{ destruct (z_comment m); cbn in Hcm; tauto. }
  2:{ unfold content. rewrite <- !app_assoc. reflexivity. }
  cbn [bind]. f_equal.
  destruct (z_hcrc m) as [x|] eqn:Ex; cbn [present].
  - replace content with ((((pre ++ h10 ++ ex) ++ cstr (z_name m)) ++ cstr (z_comment m)) ++ x ++ post)
      by (unfold content, hc; rewrite <- !app_assoc; reflexivity).
    rewrite zskipn_app_len by reflexivity. rewrite zfirstn_app_len by (symmetry; exact Hh).
    unfold hc. rewrite !len_app. lia.
  - unfold hc. rewrite !len_app, len_nil. lia.
Qed.

Lemma read_member_footer_ok pre m post :
  gz_ok m -> read_member_footer (pre ++ gz_footer m ++ post) (len pre) =
             Ok (z_crc m, len (z_payload m) mod 4294967296, len pre + 8).
Proof.
  intros (_ & _ & Hc & _). unfold read_member_footer.
  replace (gz_footer m) with (enc_struct gz_footer_layout [VI (z_crc m); VI (len (z_payload m) mod 4294967296)]).
  - rewrite read_struct_enc; [reflexivity| |reflexivity].
    repeat constructor; cbn [fval_ok]; change (256 ^ Z.of_nat 4) with 4294967296; lia.
  - unfold gz_footer. cbn [enc_struct enc_field gz_footer_layout enc_int]. rewrite app_nil_r. reflexivity.
Qed.

(** ** Compressed data *)

Lemma read_compressed_cons k d calls acc x xs :
  read_compressed (S k) d calls acc (x :: xs) =
  match d_step d calls (x :: xs) with
  | Err e => Done (Err e)
  | Ok [] => Done (Ok (acc, x :: xs, calls ++ [x :: xs]))
  | Ok data =>
      let calls' := calls ++ [x :: xs] in
      read_compressed k d calls' (acc ++ data) (d_unused d calls')
  end.
Proof. reflexivity. Qed.

(** After the end of the stream: position unchanged. *)
Lemma read_member_data_after d c payload out buf pre post calls u acc fuel :
  inflates d c payload out -> concat calls = c ++ u -> 0 < buf -> (1 <= fuel)%nat ->
  read_member_data fuel buf d (pre ++ c ++ post) calls (len (pre ++ c)) acc =
  Done (Ok (len (pre ++ c), acc)).
Proof.
  intros Hi Hc Hb Hf. destruct fuel as [|k]; [lia|]. cbn [read_member_data].
  rewrite app_assoc. rewrite zskipn_app_len by reflexivity.
  destruct (zfirstn buf post) as [|x xs] eqn:E.
  - rewrite len_nil, Z.add_0_r. reflexivity.
  - rewrite read_compressed_cons. rewrite (inf_after _ _ _ _ Hi calls u (x :: xs) Hc).
    pose proof (len_nonneg (pre ++ c)).
    destruct (Z.ltb_spec (len (pre ++ c) + len (x :: xs) - len (x :: xs)) 0); [lia|].
    do 3 f_equal. lia.
Qed.

Lemma zfirstn_app_le {A} (a b : list A) n : n <= len a -> zfirstn n (a ++ b) = zfirstn n a.
Proof.
  intros H. rewrite !zfirstn_firstn, firstn_app.
  replace (Z.to_nat n - length a)%nat with 0%nat by (unfold len in H; lia). apply app_nil_r.
Qed.

Lemma zfirstn_app_ge {A} (a b : list A) n : len a <= n -> zfirstn n (a ++ b) = a ++ zfirstn (n - len a) b.
Proof.
  intros H. rewrite !zfirstn_firstn, firstn_app.
  rewrite firstn_all2 by (unfold len in H; lia). do 2 f_equal. unfold len. lia.
Qed.

Lemma zskipn_app_le {A} (a b : list A) n : n <= len a -> zskipn n (a ++ b) = zskipn n a ++ b.
Proof.
  intros H. rewrite !zskipn_skipn, skipn_app.
  replace (Z.to_nat n - length a)%nat with 0%nat by (unfold len in H; lia). reflexivity.
Qed.

Lemma read_member_data_stream d c payload out buf pre post :
  inflates d c payload out -> 0 < buf -> every_buffer_outputs buf c out ->
  forall fuel i calls acc,
  0 <= i -> i * buf < len c -> concat calls = zfirstn (i * buf) c ->
  acc = out (zfirstn (i * buf) c) ->
  (Z.to_nat (len c - i * buf) + 3 <= fuel)%nat ->
  read_member_data fuel buf d (pre ++ c ++ post) calls (len pre + i * buf) acc =
  Done (Ok (len (pre ++ c), payload)).
Proof.
  intros Hi Hb Hout. induction fuel as [|k IH]; intros i calls acc H0 Hlt Hc Hacc Hf; [lia|].
  cbn [read_member_data].
  pose proof (len_nonneg pre) as Hpre. pose proof (len_nonneg c) as Hlc.
  set (x := zskipn (i * buf) c).
  assert (Hx : zskipn (len pre + i * buf) (pre ++ c ++ post) = x ++ post).
  { rewrite <- zskipn_zskipn by nia. rewrite zskipn_app_len by reflexivity.
    apply zskipn_app_le. lia. }
  rewrite Hx.
  assert (Lx : len x = len c - i * buf) by (unfold x; rewrite len_zskipn; nia).
  assert (Hxc : c = zfirstn (i * buf) c ++ x) by (symmetry; apply zfirstn_zskipn).
  assert (Hne : out (zfirstn (i * buf) c) <> out (zfirstn ((i + 1) * buf) c)) by (apply Hout; lia).
  assert (Hk : exists k', k = S k') by (destruct k as [|k']; [lia|eauto]).
  destruct (Z.leb_spec ((i + 1) * buf) (len c)) as [Hin|Hlast].
  - (* the buffer lies inside the stream *)
    rewrite zfirstn_app_le by lia.
    set (y := zfirstn buf x). set (q := zskipn buf x).
    assert (Ly : len y = buf) by (unfold y; rewrite len_zfirstn; lia).
    assert (Hyq : x = y ++ q) by (symmetry; apply zfirstn_zskipn).
    assert (Hcyq : c = concat calls ++ y ++ q) by (rewrite Hc, <- Hyq; exact Hxc).
    assert (Hcy : concat calls ++ y = zfirstn ((i + 1) * buf) c).
    { rewrite Hc. unfold y, x. pose proof (zwindow_app c 0 (i * buf) buf) as W.
      rewrite !zskipn_0 in W by lia. replace ((i + 1) * buf) with (i * buf + buf) by lia.
      apply W; nia. }
    destruct (inf_inside _ _ _ _ Hi calls y q Hcyq) as (r & Er & Es & Eu).
    rewrite Hcy in Er. rewrite Hc in Er.
    assert (Hr : r <> []) by (intros ->; rewrite app_nil_r in Er; congruence).
    clearbody y.
    assert (Hy : exists y0 ys, y = y0 :: ys)
      by (destruct y as [|y0 ys]; [rewrite len_nil in Ly; lia|eauto]).
    destruct Hy as (y0 & ys & Ey).
    assert (Ec : read_compressed (S k) d calls [] y = Done (Ok (r, [], calls ++ [y]))).
    { rewrite Ey, read_compressed_cons, <- Ey, Es. destruct r as [|r0 rs]; [contradiction|].
      cbn zeta. unfold bytes in *. rewrite Eu. destruct k; reflexivity. }
    rewrite Ec. rewrite Ey at 1. rewrite len_nil, Z.sub_0_r, Ly.
    destruct (Z.ltb_spec (len pre + i * buf + buf) 0); [nia|].
    destruct r as [|r0 rs] eqn:Ers; [contradiction|]. rewrite <- Ers in *.
    destruct (Z.ltb_spec ((i + 1) * buf) (len c)) as [Hmore|Hend].
    + replace (len pre + i * buf + buf) with (len pre + (i + 1) * buf) by lia.
      apply IH; try lia.
      * rewrite concat_app. cbn [concat]. rewrite app_nil_r. exact Hcy.
      * rewrite Hacc. symmetry. exact Er.
    + assert (Hall : zfirstn ((i + 1) * buf) c = c) by (apply zfirstn_all; lia).
      replace (len pre + i * buf + buf) with (len (pre ++ c)) by (rewrite len_app; lia).
      rewrite (read_member_data_after d c payload out buf pre post (calls ++ [y]) []); auto; try lia.
      * do 3 f_equal. rewrite Hacc, <- Er, Hall. exact (inf_end _ _ _ _ Hi).
      * rewrite concat_app. cbn [concat]. rewrite !app_nil_r, Hcy. exact Hall.
  - (* the buffer reaches behind the stream *)
    rewrite zfirstn_app_ge by lia.
    set (u := zfirstn (buf - len x) post). set (y := x ++ u).
    assert (Hall : zfirstn ((i + 1) * buf) c = c) by (apply zfirstn_all; lia).
    rewrite Hall, (inf_end _ _ _ _ Hi) in Hne.
    assert (Hxne : x <> []) by (intros E; rewrite E, len_nil in Lx; lia).
    assert (Hcx : c = concat calls ++ x) by (rewrite Hc; exact Hxc).
    destruct (inf_last _ _ _ _ Hi calls x y u Hcx Hxne eq_refl) as (r & Er & Es & Eu).
    rewrite (inf_end _ _ _ _ Hi), Hc in Er.
    assert (Hr : r <> []) by (intros ->; rewrite app_nil_r in Er; congruence).
    destruct Hk as [k' ->].
    assert (Hy : exists y0 ys, y = y0 :: ys).
    { unfold y. destruct x as [|x0 xs]; [contradiction|]. eexists; eexists; reflexivity. }
    destruct Hy as (y0 & ys & Ey).
    assert (Ec : exists calls', read_compressed (S (S k')) d calls [] y = Done (Ok (r, u, calls')) /\
                   exists u', concat calls' = c ++ u').
    { rewrite Ey, read_compressed_cons, <- Ey, Es. destruct r as [|r0 rs]; [contradiction|].
      cbn zeta. unfold bytes in *. rewrite Eu.
      assert (Hcc : concat (calls ++ [y]) = c ++ u).
      { rewrite concat_app. cbn [concat]. rewrite app_nil_r. unfold y. rewrite app_assoc, <- Hcx. reflexivity. }
      destruct u as [|u0 us] eqn:Eu0.
      - exists (calls ++ [y]). split; [reflexivity|]. exists []. exact Hcc.
      - rewrite read_compressed_cons. rewrite (inf_after _ _ _ _ Hi (calls ++ [y]) (u0 :: us) (u0 :: us) Hcc).
        exists ((calls ++ [y]) ++ [u0 :: us]). split; [reflexivity|].
        exists ((u0 :: us) ++ (u0 :: us)). rewrite concat_app, Hcc. cbn [concat]. rewrite app_nil_r.
        rewrite <- app_assoc. reflexivity. }
    destruct Ec as (calls' & Ec & u' & Hcc). fold y. rewrite Ec.
    rewrite Ey. rewrite <- Ey. 
    replace (len pre + i * buf + len y - len u) with (len (pre ++ c))
      by (unfold y; rewrite !len_app; lia).
    pose proof (len_nonneg (pre ++ c)). destruct (Z.ltb_spec (len (pre ++ c)) 0); [lia|].
    destruct r as [|r0 rs] eqn:Ers; [contradiction|]. rewrite <- Ers in *.
    rewrite (read_member_data_after d c payload out buf pre post calls' u'); auto; try lia.
    do 3 f_equal. rewrite Hacc. symmetry. exact Er.
Qed.

(** ** Whole files *)

Definition expected_member (pos : Z) (m : gzmember) : gmember :=
  mkgm pos (pos + len (gz_header m)) (pos + len (gz_header m) + len (z_compressed m))
    (z_payload m) (z_crc m) (len (z_payload m) mod 4294967296).

Fixpoint expected (pos : Z) (ms : list gzmember) : list gmember :=
  match ms with
  | [] => []
  | m :: r => expected_member pos m :: expected (pos + len (gz_member m)) r
  end.

Definition readable (d : decomp) (buf : Z) (m : gzmember) : Prop :=
  gz_ok m /\ exists out, inflates d (z_compressed m) (z_payload m) out /\
                         every_buffer_outputs buf (z_compressed m) out.

Lemma len_gz_footer m : len (gz_footer m) = 8.
Proof. reflexivity. Qed.

Lemma gzip_read_members d buf : 0 < buf -> forall ms pre acc fuel,
  Forall (readable d buf) ms ->
  (length (concat (map gz_member ms)) + 3 <= fuel)%nat ->
  gzip_read fuel buf d (pre ++ concat (map gz_member ms)) (len pre) acc =
  Done (Ok (acc ++ expected (len pre) ms, len (pre ++ concat (map gz_member ms)))).
Proof.
  intros Hb. induction ms as [|m ms IH]; intros pre acc fuel Hr Hf.
  - cbn [map concat expected]. rewrite !app_nil_r.
    destruct fuel as [|k]; [cbn in Hf; lia|]. cbn [gzip_read].
    rewrite Z.ltb_irrefl. reflexivity.
  - pose proof (Forall_inv Hr) as (Hok & out & Hi & Ho). apply Forall_inv_tail in Hr.
    cbn [map concat] in *. destruct fuel as [|k]; [lia|]. cbn [gzip_read].
    set (rest := concat (map gz_member ms)) in *.
    pose proof (len_nonneg rest) as Hnr. pose proof (len_nonneg (gz_header m)) as Hnh.
    assert (Hcl : 0 < len (z_compressed m)).
    { destruct (z_compressed m) as [|c0 l] eqn:E; [destruct (inf_nonempty _ _ _ _ Hi); reflexivity|].
      rewrite len_cons. pose proof (len_nonneg l). lia. }
    assert (Lm : len (gz_member m) = len (gz_header m) + len (z_compressed m) + 8).
    { unfold gz_member. rewrite !len_app, len_gz_footer. lia. }
    assert (Hlt : len pre < len (pre ++ gz_member m ++ rest)) by (rewrite !len_app; lia).
    destruct (Z.ltb_spec (len pre) (len (pre ++ gz_member m ++ rest))); [|lia].
    assert (E1 : pre ++ gz_member m ++ rest =
                 pre ++ gz_header m ++ (z_compressed m ++ gz_footer m ++ rest))
      by (unfold gz_member; rewrite <- !app_assoc; reflexivity).
    rewrite E1 at 1. rewrite read_member_header_ok by exact Hok.
    assert (E2 : pre ++ gz_member m ++ rest =
                 (pre ++ gz_header m) ++ z_compressed m ++ (gz_footer m ++ rest))
      by (unfold gz_member; rewrite <- !app_assoc; reflexivity).
    rewrite E2 at 1.
    pose proof (read_member_data_stream d (z_compressed m) (z_payload m) out buf (pre ++ gz_header m)
                  (gz_footer m ++ rest) Hi Hb Ho (S k) 0 [] []) as D.
    change (0 * buf) with 0 in D. rewrite Z.add_0_r, len_app in D. unfold bytes in *.
    rewrite D; clear D; try lia.
    2:{ rewrite zfirstn_0 by lia. reflexivity. }
    2:{ rewrite zfirstn_0 by lia. symmetry. exact (inf_start _ _ _ _ Hi). }
    2:{ rewrite app_length in Hf. unfold len in Lm, Hcl |- *. lia. }
    assert (E3 : pre ++ gz_member m ++ rest =
                 ((pre ++ gz_header m) ++ z_compressed m) ++ gz_footer m ++ rest)
      by (unfold gz_member; rewrite <- !app_assoc; reflexivity).
    rewrite E3 at 1. rewrite read_member_footer_ok by exact Hok.
    replace (len ((pre ++ gz_header m) ++ z_compressed m) + 8) with (len (pre ++ gz_member m))
      by (rewrite !len_app, Lm; lia).
    replace (pre ++ gz_member m ++ rest) with ((pre ++ gz_member m) ++ rest) by (rewrite <- app_assoc; reflexivity).
    rewrite IH; [|exact Hr|].
    + rewrite <- app_assoc. cbn [app expected]. unfold expected_member. rewrite !len_app. reflexivity.
    + rewrite app_length in Hf. unfold len in Lm. fold rest. lia.
Qed.

(** ** Termination on every file *)

(** What zlib guarantees on any data: bytes that are left over are fewer than the
    bytes passed in, when a call produced output. *)
Definition consumes (d : decomp) : Prop :=
  forall calls y r, d_step d calls y = Ok r -> r <> [] -> y <> [] ->
    len (d_unused d (calls ++ [y])) < len y.

Lemma read_compressed_terminates d : consumes d ->
  forall fuel calls acc y, (length y <= fuel)%nat ->
  match read_compressed fuel d calls acc y with
  | OutOfFuel => False
  | Done (Err _) => True
  | Done (Ok (data, rem, _)) => len rem <= len y /\ (data <> acc -> y <> [] -> len rem < len y)
  end.
Proof.
  intros Hd. induction fuel as [|k IH]; intros calls acc y Hf.
  - destruct y; [cbn; split; [lia|congruence]|cbn in Hf; lia].
  - destruct y as [|y0 ys]; [cbn; split; [lia|congruence]|].
    rewrite read_compressed_cons. destruct (d_step d calls (y0 :: ys)) as [r|e] eqn:E; [|exact I].
    destruct r as [|r0 rs]; [split; [lia|congruence]|].
    pose proof (Hd _ _ _ E ltac:(discriminate) ltac:(discriminate)) as Hlt. cbn zeta.
    unfold bytes in *. set (calls' := calls ++ [y0 :: ys]) in *. cbn [length] in Hf. rewrite len_cons in Hlt |- *.
    specialize (IH calls' (acc ++ r0 :: rs) (d_unused d calls')).
    destruct (read_compressed k d calls' (acc ++ r0 :: rs) (d_unused d calls')) as [[[[data rem] c2]|]|].
    + destruct IH as [IH _]; [unfold len in *; lia|]. split; [lia|]. intros _ _. lia.
    + exact I.
    + apply IH. unfold len in *. lia.
Qed.

Lemma read_member_data_terminates d buf content : consumes d -> 0 < buf ->
  forall fuel calls pos acc, 0 <= pos ->
  (Z.to_nat (len content - pos) + 2 <= fuel)%nat ->
  match read_member_data fuel buf d content calls pos acc with
  | OutOfFuel => False
  | Done (Err _) => True
  | Done (Ok (pos', _)) => pos <= pos'
  end.
Proof.
  intros Hd Hb. induction fuel as [|k IH]; intros calls pos acc Hp Hf; [lia|].
  cbn [read_member_data]. set (y := zfirstn buf (zskipn pos content)).
  assert (Ly : len y <= Z.max 0 (len content - pos)).
  { unfold y. rewrite len_zfirstn, len_zskipn. lia. }
  pose proof (read_compressed_terminates d Hd (S k) calls [] y) as T.
  destruct y as [|y0 ys] eqn:Ey; [rewrite len_nil; lia|]. rewrite <- Ey in *.
  assert (Hy : 0 < len y) by (rewrite Ey, len_cons; pose proof (len_nonneg ys); lia).
  destruct (read_compressed (S k) d calls [] y) as [[[[data rem] c2]|]|].
  - destruct T as [T1 T2]; [unfold len in *; lia|].
    destruct (Z.ltb_spec (pos + len y - len rem) 0); [exact I|].
    destruct data as [|b data]; [lia|].
    assert (len rem < len y) by (apply T2; [discriminate|intros E; rewrite E in Ey; discriminate]).
    specialize (IH c2 (pos + len y - len rem) (acc ++ b :: data)).
    destruct (read_member_data k buf d content c2 (pos + len y - len rem) (acc ++ b :: data)) as [[[p' ?]|]|].
    + assert (pos + len y - len rem <= p') by (apply IH; lia). lia.
    + exact I.
    + apply IH; lia.
  - exact I.
  - apply T. unfold len in *. lia.
Qed.

Lemma read_cstring_pos content off s : read_cstring content off = Ok s -> 1 <= snd s.
Proof.
  unfold read_cstring. destruct (off <? 0); [discriminate|].
  destruct (cstring_end _) as [l|]; [|discriminate]. injection 1 as <-. cbn [snd].
  pose proof (len_nonneg l). lia.
Qed.

Lemma read_member_header_progress content pos p1 :
  is_bytes content -> read_member_header content pos = Ok p1 -> 0 <= pos /\ pos + 10 <= p1.
Proof.
  intros Hb. unfold read_member_header.
  destruct (read_struct content gz_header_layout pos) as [vs|] eqn:E; cbn [bind]; [|discriminate].
  apply read_struct_inside in E; [|cbn; lia]. destruct E as [H0 _].
  destruct vs as [|[sg|] [|[me|] [|[fl|] [|[t|] [|[x|] [|[o|] [|? ?]]]]]]]; try discriminate.
  destruct (sg =? 35615); cbn [guard bind]; [|discriminate].
  destruct (me =? 8); cbn [guard bind]; [|discriminate].
  intros H. split; [exact H0|].
  destruct (negb (Z.land fl 4 =? 0)).
  - destruct (read_struct content [FU LE 2] (pos + 10)) as [es|] eqn:E; cbn [bind] in H; [|discriminate].
    apply read_struct_vals in E; [|exact Hb|repeat constructor]. destruct E as (F & _ & _).
    destruct es as [|[n|] [|? ?]]; cbn [bind] in H; try discriminate.
    apply Forall2_cons_iff in F. destruct F as [F _]. cbn [fval_ok] in F.
    assert (Hn : 0 <= n) by lia.
    destruct (negb (Z.land fl 8 =? 0)).
    + destruct (read_cstring content (pos + 10 + 2 + n)) as [s|] eqn:Es; cbn [bind] in H; [|discriminate].
      apply read_cstring_pos in Es.
      destruct (negb (Z.land fl 16 =? 0)).
      * destruct (read_cstring content (pos + 10 + 2 + n + snd s)) as [s2|] eqn:Es2; cbn [bind] in H; [|discriminate].
        apply read_cstring_pos in Es2. injection H as <-. destruct (negb _); [|lia].
        pose proof (len_nonneg (zfirstn 2 (zskipn (pos + 10 + 2 + n + snd s + snd s2) content))). lia.
      * cbn [bind] in H. injection H as <-. destruct (negb _); [|lia].
        pose proof (len_nonneg (zfirstn 2 (zskipn (pos + 10 + 2 + n + snd s) content))). lia.
    + cbn [bind] in H. destruct (negb (Z.land fl 16 =? 0)).
      * destruct (read_cstring content (pos + 10 + 2 + n)) as [s2|] eqn:Es2; cbn [bind] in H; [|discriminate].
        apply read_cstring_pos in Es2. injection H as <-. destruct (negb _); [|lia].
        pose proof (len_nonneg (zfirstn 2 (zskipn (pos + 10 + 2 + n + snd s2) content))). lia.
      * cbn [bind] in H. injection H as <-. destruct (negb _); [|lia].
        pose proof (len_nonneg (zfirstn 2 (zskipn (pos + 10 + 2 + n) content))). lia.
  - cbn [bind] in H. destruct (negb (Z.land fl 8 =? 0)).
    + destruct (read_cstring content (pos + 10)) as [s|] eqn:Es; cbn [bind] in H; [|discriminate].
      apply read_cstring_pos in Es.
      destruct (negb (Z.land fl 16 =? 0)).
      * destruct (read_cstring content (pos + 10 + snd s)) as [s2|] eqn:Es2; cbn [bind] in H; [|discriminate].
        apply read_cstring_pos in Es2. injection H as <-. destruct (negb _); [|lia].
        pose proof (len_nonneg (zfirstn 2 (zskipn (pos + 10 + snd s + snd s2) content))). lia.
      * cbn [bind] in H. injection H as <-. destruct (negb _); [|lia].
        pose proof (len_nonneg (zfirstn 2 (zskipn (pos + 10 + snd s) content))). lia.
    + cbn [bind] in H. destruct (negb (Z.land fl 16 =? 0)).
      * destruct (read_cstring content (pos + 10)) as [s2|] eqn:Es2; cbn [bind] in H; [|discriminate].
        apply read_cstring_pos in Es2. injection H as <-. destruct (negb _); [|lia].
        pose proof (len_nonneg (zfirstn 2 (zskipn (pos + 10 + snd s2) content))). lia.
      * cbn [bind] in H. injection H as <-. destruct (negb _); [|lia].
        pose proof (len_nonneg (zfirstn 2 (zskipn (pos + 10) content))). lia.
Qed.

Lemma gzip_read_terminates d buf content : consumes d -> 0 < buf -> is_bytes content ->
  forall fuel pos acc, 0 <= pos ->
  (Z.to_nat (len content - pos) + 2 <= fuel)%nat ->
  gzip_read fuel buf d content pos acc <> OutOfFuel.
Proof.
  intros Hd Hb Hc. induction fuel as [|k IH]; intros pos acc Hp Hf; [lia|].
  cbn [gzip_read]. destruct (Z.ltb_spec pos (len content)); [|discriminate].
  destruct (read_member_header content pos) as [p1|] eqn:E1; [|discriminate].
  apply read_member_header_progress in E1; [|exact Hc].
  pose proof (read_member_data_terminates d buf content Hd Hb (S k) [] p1 [] ltac:(lia) ltac:(lia)) as T.
  destruct (read_member_data (S k) buf d content [] p1 []) as [[[p2 pl]|]|]; [|discriminate|contradiction].
  destruct (read_member_footer content p2) as [[[c s] p3]|] eqn:E3; [|discriminate].
  assert (p3 = p2 + 8).
  { unfold read_member_footer in E3. destruct (read_struct _ _ _) as [[|[?|] [|[?|] [|? ?]]]|];
      cbn [bind] in E3; try discriminate. congruence. }
  apply IH; lia.
Qed.

(** ** A decompressor that satisfies the contract: a stream is its output without zero
    bytes, followed by a zero byte. *)
Definition toy : decomp :=
  mkdecomp
    (fun calls y =>
       match cstring_end (concat calls) with
       | Some _ => Ok []
       | None => Ok (match cstring_end y with Some s => s | None => y end)
       end)
    (fun calls =>
       match cstring_end (concat calls) with
       | Some s => zskipn (len s + 1) (concat calls)
       | None => []
       end).

Definition toy_out (p : bytes) : bytes := match cstring_end p with Some s => s | None => p end.

Lemma toy_inflates payload : ~ In 0 payload -> inflates toy (payload ++ [0]) payload toy_out.
Proof.
  intros Hn.
  assert (Hpre : forall a b, payload ++ [0] = a ++ b -> b <> [] -> ~ In 0 a).
  { intros a b E Hb Hi. destruct b as [|b0 b] using rev_ind; [contradiction|].
    rewrite app_assoc in E. apply app_inj_tail in E. destruct E as [-> _].
    apply Hn. apply in_or_app. now left. }
  assert (Hout : forall a, ~ In 0 a -> toy_out a = a).
  { intros a Ha. unfold toy_out. apply cstring_end_none in Ha. rewrite Ha. reflexivity. }
  assert (Hc : cstring_end (payload ++ [0]) = Some payload) by (apply cstring_end_app; exact Hn).
  split.
  - destruct payload; discriminate.
  - reflexivity.
  - unfold toy_out. rewrite Hc. reflexivity.
  - intros calls y q E. rewrite app_assoc in E. cbn [toy d_step d_unused].
    rewrite concat_app. cbn [concat]. rewrite app_nil_r.
    destruct q as [|q0 q].
    + rewrite app_nil_r in E. rewrite <- E.
      destruct y as [|y0 y].
      * rewrite app_nil_r in E. rewrite <- E. exists []. rewrite app_nil_r, Hc. repeat split.
        rewrite zskipn_all by (rewrite len_app, len_cons, len_nil; lia). reflexivity.
      * assert (Ha : ~ In 0 (concat calls)) by (apply (Hpre _ (y0 :: y) E); discriminate).
        pose proof (proj2 (cstring_end_none _) Ha) as En. rewrite En.
        destruct (y0 :: y) as [|z ys] eqn:Ey using rev_ind; [discriminate|]. clear IHys.
        rewrite app_assoc in E. apply app_inj_tail in E. destruct E as [E1 <-].
        assert (Hys : ~ In 0 ys) by (intros Hi; apply Hn; rewrite E1; apply in_or_app; now right).
        rewrite cstring_end_app by exact Hys. exists ys. unfold toy_out at 1. rewrite Hc.
        rewrite (Hout _ Ha). repeat split; [exact E1|].
        rewrite zskipn_all by (rewrite len_app, len_cons, len_nil; lia). reflexivity.
    + assert (Hay : ~ In 0 (concat calls ++ y)) by (apply (Hpre _ (q0 :: q) E); discriminate).
      assert (Ha : ~ In 0 (concat calls)) by (intros Hi; apply Hay; apply in_or_app; now left).
      assert (Hy : ~ In 0 y) by (intros Hi; apply Hay; apply in_or_app; now right).
      pose proof (proj2 (cstring_end_none _) Ha) as En. pose proof (proj2 (cstring_end_none _) Hy) as Eny.
      pose proof (proj2 (cstring_end_none _) Hay) as Enay.
      rewrite En, Eny, Enay. exists y. rewrite !Hout by assumption. auto.
  - intros calls x y u E Hx ->. cbn [toy d_step d_unused].
    assert (Ha : ~ In 0 (concat calls)) by (apply (Hpre _ x E); exact Hx).
    pose proof (proj2 (cstring_end_none _) Ha) as En. rewrite En.
    destruct x as [|z xs] using rev_ind; [contradiction|]. clear IHxs.
    rewrite app_assoc in E. apply app_inj_tail in E. destruct E as [E1 <-].
    assert (Hxs : ~ In 0 xs) by (intros Hi; apply Hn; rewrite E1; apply in_or_app; now right).
    rewrite <- app_assoc. cbn [app]. rewrite cstring_end_app by exact Hxs.
    exists xs. unfold toy_out at 1. rewrite Hc, (Hout _ Ha). repeat split; [exact E1|].
    rewrite concat_app. cbn [concat]. rewrite app_nil_r, app_assoc, <- E1.
    rewrite cstring_end_app by exact Hn.
    change (0 :: u) with ([0] ++ u). rewrite app_assoc.
    apply zskipn_app_len. rewrite len_app. reflexivity.
  - intros calls u y E. cbn [toy d_step]. rewrite E, <- app_assoc. cbn [app].
    rewrite cstring_end_app by exact Hn. reflexivity.
Qed.

From Verif Require Import Base BaseFacts CoreModel CoreProofs VarModel VarFacts SeqModel SeqSpec SeqFacts StructFacts StrModel DictModel.
From Verif Require Import WmiModel WmiSpec WmiMapProofs WmiIdxProofs.

(** ** Descriptors *)

Definition desc_vals (d : wdesc) : list fval := [VI (wd_id d); VI (wd_offset d); VI (wd_size d); VI (wd_checksum d)].

Lemma desc_enc d : desc_bytes d = enc_struct [FU LE 4; FU LE 4; FU LE 4; FU LE 4] (desc_vals d).
Proof. unfold desc_bytes, desc_vals. cbn [enc_struct enc_field enc_int]. rewrite app_nil_r. reflexivity. Qed.

Lemma desc_fval d : desc_ok d -> Forall2 fval_ok [FU LE 4; FU LE 4; FU LE 4; FU LE 4] (desc_vals d).
Proof. intros (A & B & C & D & _). unfold desc_vals. repeat (constructor; [apply le4_u32; assumption|]). constructor. Qed.

Lemma desc_len d : len (desc_bytes d) = 16.
Proof. unfold desc_bytes. rewrite !len_app, !len_le_enc. reflexivity. Qed.

Lemma desc_not_empty d : desc_ok d -> list_eqb (desc_bytes d) (repeat 0 16) = false.
Proof.
  intros H. destruct (list_eqb _ _) eqn:E; [|reflexivity]. exfalso. apply list_eqb_eq in E.
  pose proof (struct_bs_enc _ _ [] (desc_fval d H) ltac:(cbn; lia)) as S. rewrite <- desc_enc, app_nil_r, E in S.
  vm_compute in S. destruct H as (_ & _ & _ & _ & N). apply N. destruct d as [a b c e]. injection S as <- <- <- <-. reflexivity.
Qed.

Lemma window content pos d : stored_at content pos d -> zfirstn (len d) (zskipn pos content) = d.
Proof. intros H. apply stored_at_iff in H. tauto. Qed.

Lemma descriptors_complete content : forall l fuel pos, descs_at content pos l -> len content - pos < 16 * Z.of_nat fuel ->
  descriptors fuel content pos = Done (Ok l).
Proof.
  induction l as [|d l IH]; intros fuel pos [F St] Hf; pose proof (stored_at_inside _ _ _ St) as [H0 I];
    (destruct fuel as [|fuel]; [exfalso; rewrite len_app in I; change (len (repeat 0 16)) with 16 in I; pose proof (len_nonneg (concat (map desc_bytes (@nil wdesc)))) as N1;
       try pose proof (len_nonneg (concat (map desc_bytes (d :: l)))) as N2; lia|]); cbn [descriptors].
  - cbn [map concat app] in St. apply window in St. change (len (repeat 0 16)) with 16 in St. rewrite St. reflexivity.
  - cbn [map concat] in St. rewrite <- app_assoc in St. apply stored_at_app in St as [S1 S2]. rewrite desc_len in S2.
    apply window in S1. rewrite desc_len in S1. rewrite S1. inversion F as [|? ? Fd Fl]; subst. rewrite desc_not_empty by exact Fd.
    rewrite desc_enc. pose proof (struct_bs_enc _ _ [] (desc_fval d Fd) ltac:(cbn; lia)) as E. rewrite app_nil_r in E. rewrite E.
    unfold desc_vals. cbv iota beta. rewrite (IH fuel (pos + 16)); [|split; assumption|lia]. cbn [rbind]. destruct d; reflexivity.
Qed.

Lemma descriptors_sound content : is_bytes content -> forall fuel pos l, 0 <= pos <= len content -> descriptors fuel content pos = Done (Ok l) -> descs_at content pos l.
Proof.
  intros Hb. induction fuel as [|fuel IH]; intros pos l Hp; [discriminate|]. cbn [descriptors].
  set (x := zfirstn 16 (zskipn pos content)). assert (Hx : is_bytes x) by (apply is_bytes_zfirstn, is_bytes_zskipn, Hb).
  destruct (list_eqb x (repeat 0 16)) eqn:E.
  - intros [= <-]. apply list_eqb_eq in E. split; [constructor|]. apply stored_at_iff. cbn [map concat app].
    change (len (repeat 0 16)) with 16. split; [lia|]. split; [lia|exact E].
  - destruct (struct_bs _ x) as [vs|] eqn:S; [|discriminate]. apply struct_bs_iff in S as (r & Ex & F); [|exact Hx|apply wf4|cbn; lia].
    inv2 F. repeat match goal with H : fval_ok (FU _ _) ?v |- _ => is_var v; destruct v as [|]; [|contradiction] end.
    match type of Ex with context [enc_struct _ [VI ?a; VI ?b; VI ?c; VI ?e]] => rename a into id, b into off, c into size, e into ck end.
    destruct (descriptors fuel content (pos + 16)) as [[l'|]|] eqn:D; cbn [rbind]; try discriminate. intros [= <-].
    change (enc_struct _ _) with (enc_struct [FU LE 4; FU LE 4; FU LE 4; FU LE 4] (desc_vals (mkwdesc id off size ck))) in Ex. rewrite <- desc_enc in Ex.
    assert (Lx : len x <= 16) by (unfold x; rewrite len_zfirstn; lia).
    assert (r = []) as ->. { apply len_zero. apply (f_equal len) in Ex. rewrite len_app, desc_len in Ex. pose proof (len_nonneg r). lia. }
    rewrite app_nil_r in Ex.
    assert (St : stored_at content pos (desc_bytes (mkwdesc id off size ck))).
    { apply stored_at_iff. rewrite desc_len. split; [lia|]. split; [lia|]. exact Ex. }
    pose proof (stored_at_inside _ _ _ St) as [_ I]. rewrite desc_len in I.
    apply IH in D as [F' St']; [|lia]. split.
    + constructor; [|exact F']. repeat (split; [apply le4_u32; assumption|]). intros [= -> -> -> ->]. rewrite Ex in E. discriminate.
    + cbn [map concat]. rewrite <- app_assoc. apply stored_at_app. rewrite desc_len. auto.
Qed.

Lemma descriptors_ends content : is_bytes content -> forall fuel pos, 0 <= pos <= len content -> len content - pos < 16 * Z.of_nat fuel ->
  exists r, descriptors fuel content pos = Done r /\ (forall e, r = Err e -> e = ParseError \/ e = ValueError).
Proof.
  intros Hb. induction fuel as [|fuel IH]; intros pos Hp Hf; [lia|]. cbn [descriptors].
  set (x := zfirstn 16 (zskipn pos content)). assert (Hx : is_bytes x) by (apply is_bytes_zfirstn, is_bytes_zskipn, Hb).
  destruct (list_eqb x (repeat 0 16)); [eexists; split; [reflexivity|discriminate]|].
  destruct (struct_bs _ x) as [vs|e] eqn:S.
  - apply struct_bs_iff in S as (r & Ex & F); [|exact Hx|apply wf4|cbn; lia].
    assert (Lx : 16 <= len x).
    { rewrite Ex, len_app. unfold len at 1. rewrite (enc_struct_length _ _ F). pose proof (len_nonneg r). change (Z.of_nat (struct_size [FU LE 4; FU LE 4; FU LE 4; FU LE 4])) with 16. lia. }
    unfold x in Lx. rewrite len_zfirstn, len_zskipn in Lx. vals F.
    destruct (IH (pos + 16) ltac:(lia) ltac:(lia)) as ([l|e] & -> & He); cbn [rbind]; eexists; (split; [reflexivity|]); [discriminate|exact He].
  - eexists. split; [reflexivity|]. intros e' [= <-]. apply struct_bs_errors in S. tauto.
Qed.

Lemma find_iff l id size d : find_descriptor l id size = Some d <-> first_desc l id d /\ wd_size d = size.
Proof.
  unfold find_descriptor.
  assert (G : forall d, find (fun d => wd_id d =? id) l = Some d <-> first_desc l id d).
  { clear. intros d. unfold first_desc. induction l as [|x l IH]; cbn [find].
    - split; [discriminate|]. intros (_ & [|] & l2 & E & _); discriminate.
    - destruct (Z.eqb_spec (wd_id x) id) as [E|N].
      + split.
        * intros [= ->]. split; [exact E|]. exists [], l. split; [reflexivity|constructor].
        * intros (_ & [|y l1] & l2 & E' & F); cbn [app] in E'; [congruence|]. injection E' as <- _. inversion F. contradiction.
      + rewrite IH. split.
        * intros (Hd & l1 & l2 & -> & F). split; [exact Hd|]. exists (x :: l1), l2. split; [reflexivity|]. constructor; assumption.
        * intros (Hd & [|y l1] & l2 & E & F); cbn [app] in E; injection E as <- ->; [contradiction|].
          split; [exact Hd|]. exists l1, l2. inversion F. auto. }
  split.
  - destruct (find _ l) as [x|] eqn:E; [|discriminate]. destruct (Z.eqb_spec (wd_size x) size); [|discriminate]. intros [= ->]. split; [apply G; reflexivity|assumption].
  - intros [H <-]. apply G in H. rewrite H, Z.eqb_refl. reflexivity.
Qed.

(** ** Data *)

Lemma objects_page_iff table content n page : 0 <= n ->
  (objects_page table content n = Ok page <-> exists q, mapped table n q /\ page = q * 8192 /\ page < len content).
Proof.
  intros Hn. unfold objects_page. split.
  - destruct (resolve table n) as [q|] eqn:R; cbn [bind]; [|discriminate]. apply mapped_iff in R; [|exact Hn].
    destruct (Z.ltb_spec (q * 8192) (len content)); cbn [guard bind]; [|discriminate]. intros E. exists q. split; [exact R|]. split; [congruence|congruence].
  - intros (q & M & -> & L). apply (mapped_iff _ _ _ Hn) in M. rewrite M. cbn [bind]. destruct (Z.ltb_spec (q * 8192) (len content)); [reflexivity|lia].
Qed.

(** The part of the loop behind the offset. *)
Definition from_offset fuel table content n id size page offset : run bytes :=
  match data_segment content page offset size with
  | Err e => Done (Err e)
  | Ok [] => Done (Err ParseError)
  | Ok d => rdo r <- record_loop fuel table content (n + 1) id (size - len d) false; Done (Ok (d ++ r))
  end.

Lemma loop_more fuel table content n id size : 0 < size ->
  record_loop (S fuel) table content n id size false =
  match objects_page table content n with
  | Err e => Done (Err e)
  | Ok page => from_offset fuel table content n id size page 0
  end.
Proof. intros H. cbn [record_loop]. destruct (Z.ltb_spec 0 size); [|lia]. destruct (objects_page table content n); reflexivity. Qed.

Lemma loop_first fuel table content n id size : 0 < size ->
  record_loop (S fuel) table content n id size true =
  match objects_page table content n with
  | Err e => Done (Err e)
  | Ok page =>
      rdo l <- descriptors (S (length content)) content page;
      match find_descriptor l id size with
      | None => Done (Err AttributeError)
      | Some d => from_offset fuel table content n id size page (wd_offset d)
      end
  end.
Proof.
  intros H. cbn [record_loop]. destruct (Z.ltb_spec 0 size); [|lia]. destruct (objects_page table content n) as [page|]; [|reflexivity].
  destruct (descriptors (S (length content)) content page) as [[l|]|]; cbn [rbind]; [|reflexivity|reflexivity]. destruct (find_descriptor l id size); reflexivity.
Qed.

Lemma loop_end fuel table content n id size first : size <= 0 -> record_loop fuel table content n id size first = Done (Ok []).
Proof. intros H. destruct fuel; cbn [record_loop]; destruct (Z.ltb_spec 0 size); try lia; reflexivity. Qed.

Lemma segment_ok content page offset size d : stored_at content (page + offset) d -> len d = Z.min size (8192 - offset) -> 0 < len d ->
  data_segment content page offset size = Ok d.
Proof.
  intros St L P. unfold data_segment. apply window in St.
  replace (if 8192 - offset <? size then 8192 - offset else size) with (len d) by (destruct (Z.ltb_spec (8192 - offset) size); lia).
  destruct (Z.ltb_spec (len d) (-1)); [lia|]. destruct (Z.eqb_spec (len d) (-1)); [lia|]. rewrite St. reflexivity.
Qed.

Lemma from_offset_step fuel table content n id size page offset d : data_segment content page offset size = Ok d -> d <> [] ->
  from_offset fuel table content n id size page offset = rdo r <- record_loop fuel table content (n + 1) id (size - len d) false; Done (Ok (d ++ r)).
Proof. intros E N. unfold from_offset. rewrite E. destruct d; [contradiction|reflexivity]. Qed.

Lemma spread_nonempty table content n off d : spread table content n off d -> d <> [].
Proof. intros [? ? q ? _ _ [H _]|? ? q ? r _ _ H _ _ _] E; [subst; cbn in H; lia|]. apply app_eq_nil in E as [-> _]. cbn in H. lia. Qed.

Lemma spread_complete table content n off d : spread table content n off d -> 0 <= off ->
  exists q, mapped table n q /\ q * 8192 < len content /\
    forall fuel id, (length d <= S fuel)%nat -> from_offset fuel table content n id (len d) (q * 8192) off = Done (Ok d).
Proof.
  induction 1 as [n off q d M St L|n off q d r M St P L N H IH]; intros Ho; exists q; pose proof (stored_at_inside _ _ _ St) as [_ I]; (split; [exact M|]; split; [lia|]); intros fuel id Hf.
  - rewrite (from_offset_step _ _ _ _ _ _ _ _ d); [|apply segment_ok; [exact St|lia|lia]|intros ->; cbn in L; lia].
    rewrite loop_end by lia. cbn [rbind]. rewrite app_nil_r. reflexivity.
  - destruct (IH ltac:(lia)) as (q' & M' & L' & R).
    assert (Pr : 0 < len r) by (pose proof (len_nonneg r); destruct (Z.eq_dec (len r) 0) as [E|]; [apply len_zero in E; contradiction|lia]).
    rewrite (from_offset_step _ _ _ _ _ _ _ _ d); [|apply segment_ok; [exact St|rewrite len_app; lia|lia]|intros ->; cbn in P; lia].
    rewrite len_app. replace (len d + len r - len d) with (len r) by lia.
    destruct fuel as [|fuel]; [exfalso; rewrite app_length in Hf; unfold len in P, Pr; lia|].
    rewrite loop_more by exact Pr. rewrite (proj2 (objects_page_iff table content (n + 1) (q' * 8192) ltac:(destruct M as [? _]; lia))) by eauto.
    rewrite R by (rewrite app_length in Hf; unfold len in P; lia). reflexivity.
Qed.

Lemma record_complete table content n id d q l dsc : 
  mapped table n q -> descs_at content (q * 8192) l -> first_desc l id dsc -> wd_size dsc = len d ->
  spread table content n (wd_offset dsc) d -> object_record table content n id (len d) = Done (Ok d).
Proof.
  intros M D F Sz Sp. pose proof (spread_nonempty _ _ _ _ _ Sp) as N.
  assert (P : 0 < len d) by (pose proof (len_nonneg d); destruct (Z.eq_dec (len d) 0) as [E|]; [apply len_zero in E; contradiction|lia]).
  assert (Ho : 0 <= wd_offset dsc).
  { destruct D as [Fd _], F as (_ & l1 & l2 & -> & _). rewrite Forall_app in Fd. destruct Fd as [_ Fd]. inversion Fd as [|? ? (_ & H & _) _]; subst. unfold is_u32 in H. lia. }
  destruct (spread_complete _ _ _ _ _ Sp Ho) as (q' & M' & L & R).
  assert (q' = q) as -> by (destruct M as [_ M], M' as [_ M']; congruence).
  unfold object_record. replace (Z.to_nat (len d)) with (S (Z.to_nat (len d - 1))) by lia.
  rewrite loop_first by exact P. rewrite (proj2 (objects_page_iff table content n (q * 8192) ltac:(destruct M as [? _]; lia))) by eauto.
  pose proof (stored_at_inside _ _ _ (proj2 D)) as [H0 _].
  rewrite (descriptors_complete content l _ (q * 8192) D) by (unfold len; lia). cbn [rbind].
  rewrite (proj2 (find_iff l id (len d) dsc)) by auto. apply R. unfold len. lia.
Qed.

Lemma segment_exact content page offset size d : 0 <= page -> 0 <= offset -> offset <> 8193 -> 0 < size -> page + 8192 <= len content ->
  data_segment content page offset size = Ok d -> d <> [] -> offset < 8192 /\ stored_at content (page + offset) d /\ len d = Z.min size (8192 - offset).
Proof.
  intros Hp Ho N Hs L. unfold data_segment. set (k := if 8192 - offset <? size then 8192 - offset else size).
  assert (Ek : k = Z.min size (8192 - offset)) by (unfold k; destruct (Z.ltb_spec (8192 - offset) size); lia). clearbody k.
  destruct (Z.ltb_spec k (-1)); [discriminate|]. destruct (Z.eqb_spec k (-1)); [lia|].
  intros E Nd. assert (Ed : d = zfirstn k (zskipn (page + offset) content)) by congruence. clear E.
  assert (0 < k). { destruct (Z.eq_dec k 0) as [->|]; [|lia]. exfalso. apply Nd. rewrite Ed. apply len_zero. rewrite len_zfirstn. pose proof (len_nonneg (zskipn (page + offset) content)). lia. }
  assert (Ld : len d = k) by (rewrite Ed, len_zfirstn, len_zskipn; lia).
  split; [lia|]. split; [|lia]. apply stored_at_iff. split; [lia|]. split; [lia|]. rewrite Ld. symmetry. exact Ed.
Qed.

Lemma page_whole table content n page : Forall is_u32 table -> 0 <= n -> len content mod 8192 = 0 -> objects_page table content n = Ok page ->
  0 <= page /\ page + 8192 <= len content.
Proof.
  intros Hu Hn Hm H. apply objects_page_iff in H as (q & M & -> & L); [|exact Hn]. apply (mapped_u32 _ _ _ Hu) in M. unfold is_u32 in M.
  pose proof (Z.div_mod (len content) 8192 ltac:(lia)). nia.
Qed.

Lemma from_offset_sound table content : Forall is_u32 table -> len content mod 8192 = 0 ->
  forall fuel n id size page off r, 0 <= n -> 0 <= off -> off <> 8193 -> 0 < size -> objects_page table content n = Ok page ->
    from_offset fuel table content n id size page off = Done (Ok r) -> spread table content n off r /\ len r = size.
Proof.
  intros Hu Hm. induction fuel as [|fuel IH]; intros n id size page off r Hn Ho N Hs Hp H;
    pose proof (page_whole _ _ _ _ Hu Hn Hm Hp) as [Hp0 Hp1]; pose proof Hp as Hp'; apply objects_page_iff in Hp' as (q & M & E & _); [|exact Hn| |exact Hn];
    (unfold from_offset in H; destruct (data_segment content page off size) as [[|x d]|] eqn:S; try discriminate;
     apply segment_exact in S as (Ho' & St & L); [|assumption..|discriminate]);
    rewrite E in St; set (y := x :: d) in *; fold y in H.
  - destruct (Z.le_gt_cases (size - len y) 0) as [Le|G].
    + rewrite loop_end in H by lia. cbn [rbind] in H. rewrite app_nil_r in H. injection H as <-. split; [|lia]. econstructor; [exact M|exact St|lia].
    + cbn [record_loop] in H. destruct (Z.ltb_spec 0 (size - len y)); [discriminate|lia].
  - destruct (Z.le_gt_cases (size - len y) 0) as [Le|G].
    + rewrite loop_end in H by lia. cbn [rbind] in H. rewrite app_nil_r in H. injection H as <-. split; [|lia]. econstructor; [exact M|exact St|lia].
    + rewrite loop_more in H by lia. destruct (objects_page table content (n + 1)) as [page'|] eqn:P'; [|discriminate].
      destruct (from_offset fuel table content (n + 1) id (size - len y) page' 0) as [[r'|]|] eqn:R; cbn [rbind] in H; try discriminate.
      assert (r = y ++ r') as -> by congruence.
      apply IH in R as [Sp Lr]; [|lia|lia|lia|lia|exact P']. split; [|rewrite len_app; lia].
      eapply sp_more; [exact M|exact St|lia|lia|eapply spread_nonempty; exact Sp|exact Sp].
Qed.

Lemma record_sound table content n id size d : is_bytes content -> Forall is_u32 table -> len content mod 8192 = 0 -> 0 <= n -> 0 < size ->
  object_record table content n id size = Done (Ok d) ->
  exists q l dsc, mapped table n q /\ descs_at content (q * 8192) l /\ first_desc l id dsc /\ wd_size dsc = size /\
    (wd_offset dsc = 8193 \/ spread table content n (wd_offset dsc) d /\ len d = size).
Proof.
  intros Hb Hu Hm Hn Hs. unfold object_record. replace (Z.to_nat size) with (S (Z.to_nat (size - 1))) by lia. rewrite loop_first by exact Hs.
  destruct (objects_page table content n) as [page|] eqn:P; [|discriminate].
  pose proof (page_whole _ _ _ _ Hu Hn Hm P) as [Hp0 Hp1]. pose proof P as P'. apply objects_page_iff in P' as (q & M & E & _); [|exact Hn].
  destruct (descriptors _ _ _) as [[l|]|] eqn:D; cbn [rbind]; try discriminate. apply descriptors_sound in D; [|exact Hb|lia].
  destruct (find_descriptor l id size) as [dsc|] eqn:F; [|discriminate]. apply find_iff in F as [F Sz].
  intros H. exists q, l, dsc. rewrite <- E. repeat (split; [assumption|]).
  destruct (Z.eq_dec (wd_offset dsc) 8193); [auto|]. right.
  assert (Ho : 0 <= wd_offset dsc).
  { destruct D as [Fd _], F as (_ & l1 & l2 & -> & _). rewrite Forall_app in Fd. destruct Fd as [_ Fd]. inversion Fd as [|? ? (_ & X & _) _]; subst. unfold is_u32 in X. lia. }
  eapply from_offset_sound; eassumption.
Qed.

Definition record_exn (e : exn) : Prop := In e [ParseError; ValueError; IndexError; AttributeError].

Lemma data_segment_err content page offset size e : data_segment content page offset size = Err e -> e = ValueError.
Proof. unfold data_segment. destruct (_ <? -1); [congruence|]. destruct (_ =? -1); discriminate. Qed.

Lemma objects_page_err table content n e : objects_page table content n = Err e -> record_exn e.
Proof.
  unfold objects_page, resolve, pyindex. destruct (_ <? 0); [|destruct (znth_error _ _)]; cbn [bind]; try (intros [= <-]; unfold record_exn; cbn; auto; fail).
  destruct (_ <? _); cbn [guard bind]; [discriminate|]. intros [= <-]. left. reflexivity.
Qed.

Lemma from_offset_ends table content : forall fuel n id size page off, size <= Z.of_nat (S fuel) ->
  exists r, from_offset fuel table content n id size page off = Done r /\ (forall e, r = Err e -> record_exn e).
Proof.
  induction fuel as [|fuel IH]; intros n id size page off Hs; unfold from_offset;
    (destruct (data_segment content page off size) as [[|x d]|e] eqn:S;
      [eexists; split; [reflexivity|]; intros e [= <-]; left; reflexivity| |
       apply data_segment_err in S; subst e; eexists; split; [reflexivity|]; intros e [= <-]; unfold record_exn; cbn; auto]);
    rewrite len_cons; pose proof (len_nonneg d).
  - rewrite loop_end by lia. cbn [rbind]. eexists. split; [reflexivity|discriminate].
  - destruct (Z.le_gt_cases (size - (1 + len d)) 0) as [Le|G].
    + rewrite loop_end by lia. cbn [rbind]. eexists. split; [reflexivity|discriminate].
    + rewrite loop_more by lia. destruct (objects_page table content (n + 1)) as [p|e] eqn:P.
      * destruct (IH (n + 1) id (size - (1 + len d)) p 0 ltac:(lia)) as ([r|e] & -> & He); cbn [rbind]; eexists; (split; [reflexivity|]); [discriminate|exact He].
      * cbn [rbind]. eexists. split; [reflexivity|]. intros e' [= <-]. eapply objects_page_err. exact P.
Qed.

Lemma record_ends table content n id size : is_bytes content -> Forall is_u32 table ->
  exists r, object_record table content n id size = Done r /\ (forall e, r = Err e -> record_exn e).
Proof.
  intros Hb Hu. unfold object_record. destruct (Z.le_gt_cases size 0) as [L|G].
  - rewrite loop_end by exact L. eexists. split; [reflexivity|discriminate].
  - replace (Z.to_nat size) with (S (Z.to_nat (size - 1))) by lia. rewrite loop_first by lia.
    destruct (objects_page table content n) as [page|e] eqn:P; [|eexists; split; [reflexivity|]; intros e' [= <-]; eapply objects_page_err; exact P].
    assert (Hp : 0 <= page <= len content).
    { unfold objects_page in P. destruct (resolve table n) as [q|] eqn:R; cbn [bind] in P; [|discriminate].
      destruct (Z.ltb_spec (q * 8192) (len content)); cbn [guard bind] in P; [|discriminate].
      assert (is_u32 q).
      { unfold resolve, pyindex in R. cbv zeta in R. set (j := if n <? 0 then n + len table else n) in R. destruct (j <? 0) eqn:S; [discriminate|]. destruct (znth_error table j) as [q'|] eqn:Z'; [|discriminate]. injection R as ->.
        apply Z.ltb_ge in S. rewrite znth_error_nth in Z' by exact S. apply nth_error_In in Z'. rewrite Forall_forall in Hu. apply Hu, Z'. }
      unfold is_u32 in *. assert (page = q * 8192) by congruence. lia. }
    destruct (descriptors_ends content Hb (S (length content)) page Hp) as ([l|e] & -> & He); [unfold len; lia| |]; cbn [rbind].
    + destruct (find_descriptor l id size) as [d|]; [|eexists; split; [reflexivity|]; intros e [= <-]; unfold record_exn; cbn; auto].
      apply from_offset_ends. lia.
    + eexists. split; [reflexivity|]. intros e' [= <-]. destruct (He e eq_refl) as [-> | ->]; unfold record_exn; cbn; auto.
Qed.

(** A record without descriptor, or with another size. *)
Lemma record_missing table content n id size q l : mapped table n q -> descs_at content (q * 8192) l -> 0 < size ->
  (forall d, first_desc l id d -> wd_size d <> size) -> object_record table content n id size = Done (Err AttributeError).
Proof.
  intros M D Hs N. unfold object_record. replace (Z.to_nat size) with (S (Z.to_nat (size - 1))) by lia. rewrite loop_first by exact Hs.
  pose proof (stored_at_inside _ _ _ (proj2 D)) as [H0 I]. rewrite len_app in I. change (len (repeat 0 16)) with 16 in I. pose proof (len_nonneg (concat (map desc_bytes l))).
  rewrite (proj2 (objects_page_iff table content n (q * 8192) (proj1 M))) by (exists q; split; [exact M|]; split; [reflexivity|lia]).
  rewrite (descriptors_complete content l _ (q * 8192) D) by (unfold len; lia). cbn [rbind].
  destruct (find_descriptor l id size) as [d|] eqn:F; [|reflexivity]. apply find_iff in F as [F E]. exfalso. exact (N d F E).
Qed.

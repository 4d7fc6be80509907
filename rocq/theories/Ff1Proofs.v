From Verif Require Import Base BaseFacts BitFacts StrModel StrFacts TextProofs CoreModel CoreProofs VarModel VarFacts SeqModel SeqSpec SeqFacts DictModel MemModel MemSpec MemFacts BsmProofs Ff1Model Ff1Spec.

(** ** Locations *)

Lemma land_field x a w : 0 <= a -> 0 <= w -> Z.land x (Z.shiftl (Z.ones w) a) = ((x / 2 ^ a) mod 2 ^ w) * 2 ^ a.
Proof.
  intros Ha Hw. rewrite <- Z.shiftr_div_pow2, <- Z.land_ones, <- Z.shiftl_mul_pow2, Z.shiftl_land by lia.
  apply Z.bits_inj'. intros n Hn. rewrite !Z.land_spec. destruct (Z.lt_ge_cases n a).
  - rewrite !Z.shiftl_spec_low by lia. apply Bool.andb_false_r.
  - rewrite !Z.shiftl_spec, Z.shiftr_spec by lia. replace (n - a + a) with n by lia. reflexivity.
Qed.

Lemma block_number_div z : block_number z = z mod 2 ^ 24.
Proof. unfold block_number. apply land_mask; reflexivity || lia. Qed.
Lemma extra_blocks_div z : extra_blocks z = (z / 2 ^ 24) mod 4.
Proof.
  unfold extra_blocks. change 50331648 with (Z.shiftl (Z.ones 2) 24). rewrite land_field by lia.
  rewrite Z.shiftr_div_pow2 by lia. rewrite Z.div_mul by lia. reflexivity.
Qed.
Lemma location_selector_div z : location_selector z = (z / 2 ^ 28) mod 4.
Proof.
  unfold location_selector. change 805306368 with (Z.shiftl (Z.ones 2) 28). rewrite land_field by lia.
  rewrite Z.shiftr_div_pow2 by lia. rewrite Z.div_mul by lia. reflexivity.
Qed.
Lemma location_flag_div z : location_flag z = (z / 2 ^ 31) mod 2.
Proof.
  unfold location_flag. change 2147483648 with (Z.shiftl (Z.ones 1) 31). rewrite land_field by lia.
  rewrite Z.shiftr_div_pow2 by lia. rewrite Z.div_mul by lia. reflexivity.
Qed.
Lemma location_reserved_div z : location_reserved z = (z / 2 ^ 26) mod 4 + 16 * ((z / 2 ^ 30) mod 2).
Proof.
  unfold location_reserved. change 1275068416 with (Z.lor (Z.shiftl (Z.ones 1) 30) (Z.shiftl (Z.ones 2) 26)).
  rewrite Z.land_lor_distr_r, !land_field by lia. change (2 ^ 1) with 2. change (2 ^ 2) with 4.
  assert (A : 0 <= (z / 2 ^ 26) mod 4 < 4) by (apply Z.mod_pos_bound; lia).
  rewrite (lor_disjoint _ _ 30) by lia. rewrite Z.shiftr_div_pow2 by lia.
  replace ((z / 2 ^ 30) mod 2 * 2 ^ 30 + (z / 2 ^ 26) mod 4 * 2 ^ 26) with (((z / 2 ^ 26) mod 4 + 16 * ((z / 2 ^ 30) mod 2)) * 2 ^ 26) by lia.
  apply Z.div_mul. lia.
Qed.

Lemma sep_inj (c : Z) a : forall a' b b', ~ In c a -> ~ In c a' -> a ++ c :: b = a' ++ c :: b' -> a = a' /\ b = b'.
Proof.
  induction a as [|x a IH]; intros a' b b' N N' E; destruct a' as [|y a']; cbn [app] in E.
  - injection E as ->. auto.
  - injection E as -> E. exfalso. apply N'. left. reflexivity.
  - injection E as <- E. exfalso. apply N. left. reflexivity.
  - injection E as -> E. destruct (IH a' b b') as [-> ->]; [intros H; apply N; right; exact H|intros H; apply N'; right; exact H|exact E|auto].
Qed.

Lemma fmt_sep b w x y r r' : 2 <= b <= 16 -> fmt_int b w x ++ 44 :: r = fmt_int b w y ++ 44 :: r' -> x = y /\ r = r'.
Proof.
  intros Hb E. apply sep_inj in E as [E ->]; [|apply fmt_int_not_in; try lia; unfold is_digit_char; lia|apply fmt_int_not_in; try lia; unfold is_digit_char; lia].
  apply fmt_int_inj in E; auto.
Qed.

(** ** Map files *)

Lemma header_kinds_wf : Forall fkind_wf ff_header_kinds.
Proof.
  unfold ff_header_kinds. apply Forall_app. split; [repeat constructor; cbn; lia|]. apply Forall_forall. intros k Hk. apply repeat_spec in Hk. subst k. exact I.
Qed.

Lemma header_size : struct_size ff_header_kinds = 276%nat.
Proof. reflexivity. Qed.

Lemma map_header_iff content h : is_bytes content ->
  (read_map_header content = Ok h <-> exists minor data_size rest, h = VI 1 :: minor :: VI data_size :: rest /\ Forall2 fval_ok ff_header_kinds h /\
     stored_at content 0 (enc_struct ff_header_kinds h) /\ len content = 276 + data_size).
Proof.
  intros Hb. unfold read_map_header. split.
  - destruct (read_struct content ff_header_kinds 0) as [vs|] eqn:E; [|discriminate]. cbn [bind].
    apply (read_struct_iff _ _ _ _ Hb header_kinds_wf ltac:(rewrite header_size; lia)) in E as [S F]. assert (F' := F). unfold ff_header_kinds in F'.
    change ([FU BE 2; FU BE 2; FU BE 4; FS BE 4; FU BE 4; FS BE 4] ++ repeat (FU BE 4) 64) with (FU BE 2 :: FU BE 2 :: FU BE 4 :: [FS BE 4; FU BE 4; FS BE 4] ++ repeat (FU BE 4) 64) in F'.
    apply F2_cons in F' as (v1 & vs1 & -> & H1 & F'). apply F2_cons in F' as (v2 & vs2 & -> & H2 & F'). apply F2_cons in F' as (v3 & vs3 & -> & H3 & F').
    destruct v1 as [major|]; [|contradiction]. destruct v3 as [data_size|]; [|contradiction].
    destruct (Z.eqb_spec major 1) as [->|]; cbn [guard bind]; [|discriminate]. destruct (Z.eqb_spec data_size (len content - 276)) as [E|]; cbn [guard bind]; [|discriminate].
    intros H. assert (h = VI 1 :: v2 :: VI data_size :: vs3) by congruence. subst h. exists v2, data_size, vs3. repeat split; try assumption. lia.
  - intros (minor & data_size & rest & -> & F & S & L).
    rewrite (proj2 (read_struct_iff content ff_header_kinds 0 _ Hb header_kinds_wf ltac:(rewrite header_size; lia)) (conj S F)). cbn [bind Z.eqb Pos.eqb guard].
    destruct (Z.eqb_spec data_size (len content - 276)); [reflexivity|lia].
Qed.

Definition enc_record (r : list Z) : list Z := concat (map (be_enc 4) r).
Definition record_ok (r : list Z) : Prop := length r = 4%nat /\ Forall (fun z => 0 <= z < 2 ^ 32) r.

Lemma enc_record_ints r : enc_record r = enc_ints (FU BE 4) r.
Proof. unfold enc_record, enc_ints. f_equal. Qed.

Lemma record_ints r : record_ok r <-> length r = 4%nat /\ ints_ok (FU BE 4) r.
Proof. unfold record_ok, ints_ok. split; intros [L F]; (split; [exact L|]); (eapply Forall_impl; [|exact F]); intros z; cbn; lia. Qed.

Lemma len_record r : record_ok r -> len (enc_record r) = 16.
Proof. intros H. pose proof (proj1 (record_ints r) H) as [L O]. rewrite enc_record_ints, len_enc_ints by exact O. unfold len. rewrite L. reflexivity. Qed.

Lemma record_iff content off vs : is_bytes content ->
  (read_struct content ff_record_kinds off = Ok vs <-> exists r, vs = map VI r /\ record_ok r /\ stored_at content off (enc_record r)).
Proof.
  intros Hb. assert (W : Forall fkind_wf ff_record_kinds) by (cbn [ff_record_kinds repeat]; kinds_wf).
  rewrite (read_struct_iff _ _ _ _ Hb W ltac:(cbn; lia)). unfold ff_record_kinds. split.
  - intros [S F]. apply ints_fval_ok in F as (E & O & L); [|discriminate]. exists (ints vs). split; [exact E|].
    split; [apply record_ints; auto|]. rewrite enc_record_ints. revert E O L. generalize (ints vs). intros r -> O L. unfold enc_ints. rewrite <- (enc_struct_repeat (FU BE 4) r), L. exact S.
  - intros (r & -> & R & S). pose proof (proj1 (record_ints r) R) as [L O]. rewrite enc_record_ints in S. split; [|pose proof (repeat_ok (FU BE 4) r O) as Q; rewrite L in Q; exact Q].
    unfold enc_ints in S. rewrite <- (enc_struct_repeat (FU BE 4) r), L in S. exact S.
Qed.

Lemma map_records_iff content : is_bytes content -> forall fuel off l, 0 <= off <= len content -> len content - off < Z.of_nat fuel ->
  (read_map_records fuel content off = Done (Ok l) <-> Forall record_ok l /\ stored_at content off (concat (map enc_record l)) /\ len content = off + 16 * len l).
Proof.
  intros Hb. induction fuel as [|fuel IH]; intros off l Ho Hf; [lia|]. cbn [read_map_records]. destruct (Z.ltb_spec off (len content)) as [Hlt|Hge].
  - split.
    + destruct (read_struct content ff_record_kinds off) as [vs|] eqn:E; [|discriminate]. apply (record_iff _ _ _ Hb) in E as (r & -> & R & S).
      pose proof (stored_at_inside _ _ _ S) as I. rewrite len_record in I by exact R.
      destruct (read_map_records fuel content (off + 16)) as [[l'|]|] eqn:E2; [|discriminate|discriminate]. cbn [rbind]. rewrite ints_VI.
      intros H. assert (l = r :: l') by congruence. subst l. apply IH in E2 as (F & S2 & L); [|lia|lia]. split; [constructor; assumption|].
      cbn [map concat]. rewrite len_cons. split; [|lia]. apply stored_at_app. rewrite len_record by exact R. auto.
    + intros (F & S & L). destruct l as [|r l]; [change (len (@nil (list Z))) with 0 in L; lia|]. inversion F as [|? ? R F']. subst. cbn [map concat] in S.
      apply stored_at_app in S as [S1 S2]. rewrite len_record in S2 by exact R. rewrite len_cons in L.
      rewrite (proj2 (record_iff content off (map VI r) Hb)) by eauto. pose proof (len_nonneg l).
      rewrite (proj2 (IH (off + 16) l ltac:(lia) ltac:(lia))) by (split; [exact F'|split; [exact S2|lia]]). cbn [rbind]. rewrite ints_VI. reflexivity.
  - split.
    + intros H. assert (l = []) by congruence. subst l. split; [constructor|]. change (len (@nil (list Z))) with 0. split; [|lia]. 
      cbn [map concat]. apply stored_at_from; [exact Ho|]. exists (zskipn off content). reflexivity.
    + intros (F & S & L). destruct l as [|r l]; [reflexivity|]. rewrite len_cons in L. pose proof (len_nonneg l). lia.
Qed.

(** The header. *)
Lemma ff_map_iff h l content : ff_map h l content <-> exists minor rest, h = VI 1 :: minor :: VI (16 * len l) :: rest /\ Forall2 fval_ok ff_header_kinds h /\
    Forall record_ok l /\ content = enc_struct ff_header_kinds h ++ concat (map enc_record l).
Proof.
  unfold ff_map, ff_header_kinds. fold record_ok. split.
  - intros (minor & entries & dirty & count & ranks & usage & -> & Hm & Hd & He & Hi & Hc & Lr & Fr & Lu & Fu & R & ->).
    exists (VI minor), (map VI ([entries; dirty; count] ++ ranks ++ usage)). split; [reflexivity|].
    assert (O : ints_ok (FU BE 4) (ranks ++ usage)) by (apply Forall_app; split; assumption).
    assert (L64 : length (ranks ++ usage) = 64%nat) by (rewrite app_length; lia).
    rewrite <- L64. cbn [map app]. split.
    + repeat (apply Forall2_cons; [first [split; [lia|assumption]|assumption|cbn; lia]|]). apply repeat_ok. exact O.
    + split; [exact R|]. cbn [enc_struct]. rewrite enc_struct_repeat. cbn [enc_field enc_int]. rewrite map_app, concat_app, <- !app_assoc. reflexivity.
  - intros (minor & rest & -> & F & R & ->). cbn [app] in *.
    assert (F' : fval_ok (FU BE 2) minor /\ fval_ok (FU BE 4) (VI (16 * len l)) /\ Forall2 fval_ok (FS BE 4 :: FU BE 4 :: FS BE 4 :: repeat (FU BE 4) 64) rest).
    { inversion F as [|? ? ? ? _ F1]; subst. inversion F1 as [|? ? ? ? G1 F2]; subst. inversion F2 as [|? ? ? ? G2 F3]; subst. auto. }
    clear F. destruct F' as (Hm & Hd & F). apply F2_cons in F as (v1 & vs1 & -> & H1 & F). apply F2_cons in F as (v2 & vs2 & -> & H2 & F). apply F2_cons in F as (v3 & vs3 & -> & H3 & F).
    destruct minor as [minor|]; [|contradiction]. destruct v1 as [entries|]; [|contradiction]. destruct v2 as [dirty|]; [|contradiction]. destruct v3 as [count|]; [|contradiction].
    assert (E : exists q, vs3 = map VI q /\ ints_ok (FU BE 4) q /\ length q = 64%nat) by (exists (ints vs3); apply ints_fval_ok in F as (E & O & L); [auto|discriminate]).
    destruct E as (q & -> & O & L). exists minor, entries, dirty, count, (firstn 32 q), (skipn 32 q). rewrite firstn_skipn.
    assert (O' : Forall u32 (firstn 32 q ++ skipn 32 q)) by (rewrite firstn_skipn; exact O). apply Forall_app in O' as [O1 O2].
    split; [reflexivity|]. split; [exact Hm|]. split; [exact Hd|]. split; [exact (proj2 H1)|]. split; [exact H2|]. split; [exact (proj2 H3)|].
    split; [rewrite firstn_length; lia|]. split; [exact O1|]. split; [rewrite skipn_length; lia|]. split; [exact O2|]. split; [exact R|].
    rewrite (app_assoc (concat (map (be_enc 4) (firstn 32 q)))), <- concat_app, <- map_app, firstn_skipn.
    cbn [enc_struct]. rewrite <- L, enc_struct_repeat. cbn [enc_field enc_int]. rewrite <- !app_assoc. reflexivity.
Qed.

(** ** Block files *)

Lemma entry_mem e d : ff_entry_enc e d <-> mems_enc [] ff_entry e d.
Proof.
  unfold ff_entry_enc, ff_entry. cbn [app repeat]. split.
  - intros (major & minor & location & count & fetched & modified & expires & data_size & request & information & -> & H1 & H2 & H3 & H4 & F & A & ->).
    repeat match goal with H : Forall _ (_ :: _) |- _ => apply Forall_cons_iff in H as [? H] end. cbn [map app concat]. unfold u16, u32, i32, enc_i32 in *.
    eapply mems_eq; [mem_in|]. rewrite ?app_nil_r, <- ?app_assoc. reflexivity.
  - intros E. mem_out. cbn [mint nth_error app] in *. subst. eexists _, _, _, _, _, _, _, _, _, _. split; [cbn [map app]; reflexivity|].
    do 4 (split; [assumption|]). split; [repeat (constructor; [assumption|]); constructor|]. split; [assumption|].
    cbn [map concat app]. unfold enc_i32. rewrite ?app_nil_r, <- ?app_assoc. reflexivity.
Qed.

Lemma entry_wf : Forall mem_wf ff_entry.
Proof. unfold ff_entry. cbn [app repeat]. repeat (apply Forall_cons; [cbn; try exact I; lia|]). apply Forall_nil. Qed.

Lemma entry_iff content off e p : is_bytes content -> 0 <= off <= len content ->
  (read_mems content off [] ff_entry = Ok (e, p) <-> exists d, entry_at content off e d /\ p = off + len d).
Proof.
  intros Hb Ho. rewrite (read_mems_iff content Hb ff_entry off [] e p entry_wf Ho). unfold entry_at. split.
  - intros (vs & d & -> & M & S & ->). exists d. apply entry_mem in M. auto.
  - intros (d & [M S] & ->). apply entry_mem in M. exists e, d. auto.
Qed.

Lemma entry_len e d : ff_entry_enc e d -> 36 <= len d.
Proof.
  intros M. apply entry_mem in M. unfold ff_entry in M. cbn [app repeat] in M.
  repeat match goal with
  | E : mems_enc _ (_ :: _) _ _ |- _ => inversion E; clear E; subst
  | E : mems_enc _ [] _ _ |- _ => inversion E; clear E; subst
  | E : mem_enc _ (MInt _) _ _ |- _ => inversion E; clear E; subst
  end.
  repeat rewrite len_app. rewrite !len_enc_int by assumption. cbn [fsize Z.of_nat].
  repeat match goal with |- context [len ?d] => lazymatch goal with H : 0 <= len d |- _ => fail | _ => pose proof (len_nonneg d) end end. lia.
Qed.

Lemma enc_unique content off a b da db : is_bytes content -> 0 <= off <= len content -> entry_at content off a da -> entry_at content off b db -> a = b /\ len da = len db.
Proof.
  intros Hb Ho A B. assert (EA : read_mems content off [] ff_entry = Ok (a, off + len da)) by (apply entry_iff; eauto).
  assert (EB : read_mems content off [] ff_entry = Ok (b, off + len db)) by (apply entry_iff; eauto).
  rewrite EA in EB. split; [congruence|]. assert (off + len da = off + len db) by congruence. lia.
Qed.

Lemma round_up size d n : 0 < size -> 0 < d -> 0 <= n * size - d < size -> (if 0 <? d mod size then d + (size - d mod size) else d) = n * size.
Proof.
  intros Hs Hd H. pose proof (Z.div_mod d size ltac:(lia)) as E. pose proof (Z.mod_pos_bound d size Hs) as B.
  destruct (Z.ltb_spec 0 (d mod size)).
  - assert (n = d / size + 1) by nia. nia.
  - assert (d mod size = 0) by lia. assert (n = d / size) by nia. nia.
Qed.

Lemma round_up_ex size d : 0 < size -> 0 < d -> exists n, 0 <= n * size - d < size /\ (if 0 <? d mod size then d + (size - d mod size) else d) = n * size.
Proof.
  intros Hs Hd. exists ((d + size - 1) / size). assert (0 <= (d + size - 1) / size * size - d < size).
  { pose proof (Z.div_mod (d + size - 1) size ltac:(lia)) as E. pose proof (Z.mod_pos_bound (d + size - 1) size Hs) as B. nia. }
  split; [assumption|]. apply round_up; assumption.
Qed.

Lemma blocks_iff content size : is_bytes content -> 0 < size -> forall fuel off l, 0 <= off -> len content - off < Z.of_nat fuel ->
  (read_blocks fuel content size off = Done (Ok l) <-> ff_blocks size content off l).
Proof.
  intros Hb Hs. induction fuel as [|fuel IH]; intros off l Ho Hf.
  - cbn [read_blocks]. destruct (Z.ltb_spec off (len content)); [lia|]. split.
    + intros E. assert (l = []) by congruence. subst l. constructor. lia.
    + intros E. inversion E; subst; [reflexivity|lia|lia].
  - cbn [read_blocks]. destruct (Z.ltb_spec off (len content)) as [Hlt|].
    2:{ split; [intros E; assert (l = []) by congruence; subst l; constructor; lia|intros E; inversion E; subst; [reflexivity|lia|lia]]. }
    assert (Ho' : 0 <= off <= len content) by lia. unfold read_entry.
    destruct (read_mems content off [] ff_entry) as [[e p]|x] eqn:M.
    + apply (entry_iff _ _ _ _ Hb Ho') in M as (d & A & ->). assert (Ld := entry_len _ _ (proj1 A)).
      replace (off + len d - off) with (len d) by lia. destruct (round_up_ex size (len d) Hs ltac:(lia)) as (n & Hn & Er).
      replace (if 0 <? len d mod size then off + len d + (size - len d mod size) else off + len d) with (off + n * size) by (destruct (0 <? len d mod size); lia).
      split.
      * destruct (read_blocks fuel content size (off + n * size)) as [[l'|]|] eqn:E; [|discriminate|discriminate]. cbn [rbind].
        intros H. assert (l = e :: l') by congruence. subst l. apply IH in E; [|lia|lia]. eapply fb_entry; eassumption.
      * intros E. inversion E as [|? e' d' n' l' H1 A' Hn' B'|? ? H1 N B']; subst; [lia| |exfalso; eapply N; exact A].
        destruct (enc_unique _ _ _ _ _ _ Hb Ho' A A') as [<- Ll]. assert (n' = n) by nia. subst n'.
        rewrite (proj2 (IH (off + n * size) l' ltac:(lia) ltac:(lia)) B'). reflexivity.
    + assert (N : forall e d, ~ entry_at content off e d).
      { intros e d A. assert (read_mems content off [] ff_entry = Ok (e, off + len d)) by (apply entry_iff; eauto). congruence. }
      split.
      * destruct (read_blocks fuel content size (off + size)) as [[l'|]|] eqn:E; [|discriminate|discriminate]. cbn [rbind].
        intros H. assert (l = l') by congruence. subst l. apply IH in E; [|lia|lia]. apply fb_other; assumption.
      * intros E. inversion E as [|? e' d' n' l' H1 A' Hn' B'|? ? H1 _ B']; subst; [lia|exfalso; eapply N; exact A'|].
        rewrite (proj2 (IH (off + size) l ltac:(lia) ltac:(lia)) B'). reflexivity.
Qed.

Lemma blocks_done content size : is_bytes content -> 0 < size -> forall fuel off, 0 <= off -> len content - off < Z.of_nat fuel ->
  exists l, read_blocks fuel content size off = Done (Ok l).
Proof.
  intros Hb Hs. induction fuel as [|fuel IH]; intros off Ho Hf; cbn [read_blocks]; (destruct (Z.ltb_spec off (len content)) as [Hlt|]; [|eauto]); [lia|].
  assert (Ho' : 0 <= off <= len content) by lia. unfold read_entry. destruct (read_mems content off [] ff_entry) as [[e p]|x] eqn:M.
  - apply (entry_iff _ _ _ _ Hb Ho') in M as (d & A & ->). assert (Ld := entry_len _ _ (proj1 A)).
    replace (off + len d - off) with (len d) by lia. destruct (round_up_ex size (len d) Hs ltac:(lia)) as (n & Hn & Er).
    replace (if 0 <? len d mod size then off + len d + (size - len d mod size) else off + len d) with (off + n * size) by (destruct (0 <? len d mod size); lia).
    destruct (IH (off + n * size) ltac:(lia) ltac:(lia)) as [l ->]. cbn [rbind]. eauto.
  - destruct (IH (off + size) ltac:(lia) ltac:(lia)) as [l ->]. cbn [rbind]. eauto.
Qed.

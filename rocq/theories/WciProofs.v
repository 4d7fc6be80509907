(** Proofs about the instances of a WMI repository. *)

From Verif Require Import Base BaseFacts SeqModel SeqSpec SeqFacts CoreModel CoreProofs StrModel StrFacts DictModel Utf16Model GzipModel RdModel RdSpec RdFacts TvModel TvSpec TvProofs CatModel CatSpec CatProofs FhModel FhSpec FhProofs WcdModel WcdSpec WcdProofs WcmModel WcmSpec WcmProofs WciModel WciSpec.

(** ** Instance blocks *)

Lemma reads_iblock nbits vsize : reads (rd_iblock nbits vsize) (iblock_bytes nbits vsize).
Proof.
  unfold rd_iblock. eapply reads_iff; [fh_reads ltac:(apply reads_guard)|]. intros b d _. cbv beta. unfold iblock_bytes. split.
  - intros (a1 & ? & ? & H1 & (a2 & ? & ? & H2 & (a3 & ? & ? & [H3 ->] & (a4 & ? & ? & [H4 ->] & (a5 & ? & ? & H5 & (a6 & ? & ? & [H6 ->] & (a7 & ? & ? & H7 & (a8 & ? & ? & [H8 ->] & [-> ->] & ->) & ->) & ->) & ->) & ->) & ->) & ->) & ->).
    cbn [ib_name ib_values ib_dyn]. exists a3, a6. split; [exact H3|]. split; [exact H4|]. split; [lia|]. replace (len a6 + 4) with a5 by lia.
    assert (Q3 := eq_refl a3). assert (Q4 := eq_refl a4). assert (Q6 := eq_refl a6). rewrite app_nil_l. f_in.
  - destruct b as [n v t]. cbn [ib_name ib_values ib_dyn]. intros (bits & quals & L1 & L2 & D & H). f_out. subst. match goal with H : any _ _ |- _ => destruct H as [? H] end.
    do 2 (do 3 eexists; split; [|split; [|reflexivity]]; [eassumption|]). do 3 eexists. split; [|split; [|reflexivity]]; [split; reflexivity|].
    do 3 eexists. split; [|split; [|reflexivity]]; [split; reflexivity|]. do 3 eexists. split; [|split; [|reflexivity]]; [eassumption|].
    do 3 eexists. split; [|split; [|reflexivity]]; [split; [|reflexivity]; lia|]. do 3 eexists. split; [|split; [|reflexivity]]; [eassumption|].
    eexists tt, [], []. split; [split; [lia|reflexivity]|]. split; [split; reflexivity|reflexivity].
Qed.

Lemma iblock_ne nbits vsize b d : iblock_bytes nbits vsize b d -> d <> [].
Proof. intros (bits & quals & _ & _ & _ & H). revert H. apply fields_ne. intros x. apply i32_ne. Qed.

Lemma reads_dyn_entry : reads rd_dyn_entry dyn_entry.
Proof.
  unfold rd_dyn_entry. eapply reads_iff; [fh_reads fail|]. intros x d _. cbv beta. unfold dyn_entry. split.
  - intros (a1 & ? & ? & H1 & [H2 ->] & ->). replace (len x + 4) with a1 by lia. apply fields_more; [exact H1|]. assert (Q : fields [eq x] (x ++ [])) by (apply fields_more; [reflexivity|now apply fields_nil]). rewrite app_nil_r in Q. exact Q.
  - intros H. f_out. subst. rewrite app_nil_r. eexists _, _, _. split; [eassumption|]. split; [|reflexivity]. split; [lia|reflexivity].
Qed.

Lemma dyn_entry_ne x d : dyn_entry x d -> d <> [].
Proof. apply fields_ne. intros y. apply i32_ne. Qed.

Lemma dyn_entries_iff n data off o2 : is_bytes data -> 0 <= off ->
  (dyn_entries n data off = Ok o2 <->
   exists xs ds rest, length xs = n /\ Forall2 dyn_entry xs ds /\ zskipn off data = concat ds ++ rest /\ o2 = off + len (concat ds)).
Proof.
  intros B. revert off. induction n as [|n IH]; intros off H; cbn [dyn_entries].
  - split.
    + intros X. injection X as <-. exists [], [], (zskipn off data). cbn. repeat split; try constructor. lia.
    + intros (xs & ds & rest & L & F & E & ->). destruct xs; [|discriminate]. inversion F; subst. cbn. f_equal. lia.
  - rewrite slice_from_nonneg by exact H. pose proof (is_bytes_skip off data B) as Bs.
    pose proof (fun x k => rd_stream_size_iff rd_dyn_entry _ (zskipn off data) x k reads_dyn_entry (fun a d => dyn_entry_ne a d) Bs) as R.
    destruct (rd_stream_size rd_dyn_entry (zskipn off data)) as [[x k]|e]; cbn [bind].
    + assert (X := proj1 (R x k) eq_refl). destruct X as (d & rest & Hx & E & Ek). pose proof (len_nonneg d).
      rewrite IH by lia. subst k. rewrite (skip_more data off d rest H E). split.
      * intros (xs & ds & rest2 & L & F & E2 & ->). exists (x :: xs), (d :: ds), rest2. cbn [concat length]. split; [congruence|].
        split; [constructor; assumption|]. split; [rewrite E, E2, app_assoc; reflexivity|]. rewrite len_app. lia.
      * intros (xs & ds & rest2 & L & F & E2 & ->). destruct F as [|x2 d2 xs ds Hx2 F]; [discriminate|]. cbn [concat length] in *.
        rewrite <- app_assoc in E2. assert (X : Ok (x, len d) = Ok (x2, len d2)) by (apply R; exists d2, (concat ds ++ rest2); auto).
        injection X as <- Ld. rewrite E in E2. apply app_eq_len in E2; [|unfold len in Ld; lia]. destruct E2 as [<- E2].
        exists xs, ds, rest2. split; [congruence|]. split; [exact F|]. split; [exact E2|]. rewrite len_app. lia.
    + split; [discriminate|]. intros (xs & ds & rest2 & L & F & E2 & ->). destruct F as [|x2 d2 xs ds Hx2 F]; [discriminate|]. cbn [concat] in *.
      rewrite <- app_assoc in E2. assert (X : Err e = Ok (x2, len d2)) by (apply R; exists d2, (concat ds ++ rest2); auto). discriminate.
Qed.

Lemma dyn_entries_errors n data off x : is_bytes data -> 0 <= off -> dyn_entries n data off = Err x -> soft x.
Proof.
  intros B. revert off. induction n as [|n IH]; intros off H; cbn [dyn_entries]; [discriminate|].
  rewrite slice_from_nonneg by exact H. pose proof (is_bytes_skip off data B) as Bs.
  pose proof (fun x k => rd_stream_size_iff rd_dyn_entry _ (zskipn off data) x k reads_dyn_entry (fun a d => dyn_entry_ne a d) Bs) as R.
  destruct (rd_stream_size rd_dyn_entry (zskipn off data)) as [[y k]|e] eqn:E; cbn [bind].
  - assert (X := proj1 (R y k) eq_refl). destruct X as (d & rest & _ & _ & ->). apply IH. pose proof (len_nonneg d). lia.
  - intros X. injection X as <-. exact (rd_stream_size_errors _ _ _ _ reads_dyn_entry Bs E).
Qed.

Lemma u32_at data off v : is_bytes data -> 0 <= off ->
  (rd_stream (rd_int (FU LE 4)) (pyslice_from data off) = Ok v <-> exists d rest, i32 v d /\ zskipn off data = d ++ rest).
Proof.
  intros B H. rewrite slice_from_nonneg by exact H. apply rd_stream_iff; [apply reads_i32|intros a d; apply i32_ne|apply is_bytes_skip; exact B].
Qed.

Lemma i32_len v d : i32 v d -> len d = 4.
Proof. intros [_ ->]. unfold len. rewrite le_enc_length. reflexivity. Qed.

(** The dynamic block at an offset. *)
Lemma dyn_iff data off dyn o2 : is_bytes data -> 0 <= off -> dyn = 1 \/ dyn = 2 ->
  ((if dyn =? 2 then do n <- rd_stream (rd_int (FU LE 4)) (pyslice_from data off); dyn_entries (Z.to_nat n) data (off + 4) else Ok off) = Ok o2 <->
   exists d rest, dyn_bytes dyn d /\ zskipn off data = d ++ rest /\ o2 = off + len d).
Proof.
  intros B H [->| ->]; cbn [Z.eqb Pos.eqb].
  - split.
    + intros X. injection X as <-. exists [], (zskipn off data). split; [constructor|]. split; [reflexivity|]. cbn. lia.
    + intros (d & rest & D & _ & ->). inversion D. cbn. f_equal. lia.
  - pose proof (fun v => u32_at data off v B H) as R. destruct (rd_stream (rd_int (FU LE 4)) (pyslice_from data off)) as [n|e]; cbn [bind].
    + assert (X := proj1 (R n) eq_refl). destruct X as (d0 & rest0 & Hn & E). rewrite dyn_entries_iff by (lia || exact B).
      rewrite <- (i32_len n d0 Hn), (skip_more data off d0 rest0 H E). split.
      * intros (xs & ds & rest & L & F & E2 & ->). exists (d0 ++ concat ds), rest. split.
        -- apply count_len in L; [|destruct Hn as [Hn _]; unfold n32 in Hn; lia]. rewrite L in Hn. econstructor; eassumption.
        -- split; [rewrite E, E2, app_assoc; reflexivity|]. rewrite len_app. lia.
      * intros (d & rest & D & E2 & ->). inversion D as [|xs ds d1 F L]; subst. rewrite <- app_assoc in E2.
        assert (X : Ok n = Ok (len xs)) by (apply R; eauto). injection X as ->.
        assert (Ld := i32_len _ _ L). assert (Ld0 := i32_len _ _ Hn). rewrite E in E2. apply app_eq_len in E2; [|unfold len in *; lia]. destruct E2 as [<- E2].
        exists xs, ds, rest. split; [unfold len; lia|]. split; [exact F|]. split; [exact E2|]. rewrite len_app. lia.
    + split; [discriminate|]. intros (d & rest & D & E2 & ->). inversion D as [|xs ds d1 F L]; subst. rewrite <- app_assoc in E2.
      assert (X : Err e = Ok (len xs)) by (apply R; eauto). discriminate.
Qed.

Lemma dyn_errors data off dyn x : is_bytes data -> 0 <= off ->
  (if dyn =? 2 then do n <- rd_stream (rd_int (FU LE 4)) (pyslice_from data off); dyn_entries (Z.to_nat n) data (off + 4) else Ok off) = Err x -> soft x.
Proof.
  intros B H. destruct (dyn =? 2); [|discriminate]. destruct (rd_stream (rd_int (FU LE 4)) (pyslice_from data off)) as [n|e] eqn:E; cbn [bind].
  - apply dyn_entries_errors; [exact B|lia].
  - intros X. injection X as <-. exact (at_errors _ _ _ _ _ reads_i32 B H E).
Qed.

Lemma zskipn_0 (d : bytes) : zskipn 0 d = d.
Proof. destruct d; reflexivity. Qed.

Lemma head_iff nbits vsize data b off : is_bytes data ->
  (instance_head nbits vsize data = Ok (b, off) <->
   exists d1 d2 d3 values, data = d1 ++ d2 ++ d3 ++ values /\ iblock_bytes nbits vsize b d1 /\ dyn_bytes (ib_dyn b) d2 /\ any i32 d3 /\
     off = len d1 + len d2 + len d3).
Proof.
  intros B. unfold instance_head.
  pose proof (fun x k => rd_stream_size_iff (rd_iblock nbits vsize) _ data x k (reads_iblock nbits vsize) (fun a d => iblock_ne _ _ a d) B) as R.
  destruct (rd_stream_size (rd_iblock nbits vsize) data) as [[b1 o1]|e]; cbn [bind].
  2:{ split; [discriminate|]. intros (d1 & d2 & d3 & values & E & Hb & _). assert (X : Err e = Ok (b, len d1)) by (apply R; eauto). discriminate. }
  assert (X := proj1 (R b1 o1) eq_refl). destruct X as (e1 & rest1 & Hb1 & E1 & ->).
  assert (S1 : zskipn (len e1) data = rest1). { rewrite <- (Z.add_0_l (len e1)). apply skip_more; [lia|]. rewrite zskipn_0. exact E1. }
  assert (U : forall d1 rest, iblock_bytes nbits vsize b d1 -> data = d1 ++ rest -> b = b1 /\ d1 = e1 /\ rest = rest1).
  { intros d1 rest Hb E. assert (X : Ok (b1, len e1) = Ok (b, len d1)) by (apply R; eauto). injection X as <- L. rewrite E1 in E.
    apply app_eq_len in E; [|unfold len in L; lia]. destruct E; auto. }
  assert (D1 : ib_dyn b1 = 1 \/ ib_dyn b1 = 2) by (destruct Hb1 as (? & ? & _ & _ & D & _); exact D).
  pose proof (len_nonneg e1) as P1. pose proof (fun o => dyn_iff data (len e1) (ib_dyn b1) o B P1 D1) as RD. rewrite S1 in RD.
  destruct (if ib_dyn b1 =? 2 then _ else _) as [o2|e]; cbn [bind].
  2:{ split; [discriminate|]. intros (d1 & d2 & d3 & values & E & Hb & D & _). destruct (U _ _ Hb E) as (-> & -> & <-).
      assert (X : Err e = Ok (len e1 + len d2)) by (apply RD; eauto). discriminate. }
  assert (X := proj1 (RD o2) eq_refl). destruct X as (e2 & rest2 & Hd & E2 & ->).
  assert (S2 : zskipn (len e1 + len e2) data = rest2) by (apply skip_more; [lia|]; rewrite S1; exact E2).
  assert (U2 : forall d2 rest, dyn_bytes (ib_dyn b1) d2 -> rest1 = d2 ++ rest -> d2 = e2 /\ rest = rest2).
  { intros d2 rest Hd2 E. assert (X : Ok (len e1 + len e2) = Ok (len e1 + len d2)) by (apply RD; eauto). injection X as L. rewrite E2 in E.
    apply app_eq_len in E; [|unfold len in L; lia]. destruct E; auto. }
  pose proof (len_nonneg e2) as P2. pose proof (fun v => u32_at data (len e1 + len e2) v B ltac:(lia)) as RU. rewrite S2 in RU.
  destruct (rd_stream (rd_int (FU LE 4)) (pyslice_from data (len e1 + len e2))) as [u|e]; cbn [bind].
  - assert (X := proj1 (RU u) eq_refl). destruct X as (e3 & values & Hu & E3). split.
    + intros X. injection X as <- <-. exists e1, e2, e3, values. split; [rewrite E1, E2, E3; reflexivity|]. split; [exact Hb1|]. split; [exact Hd|].
      split; [exists u; exact Hu|]. rewrite (i32_len _ _ Hu). reflexivity.
    + intros (d1 & d2 & d3 & vs & E & Hb & D & [v Hv] & ->). destruct (U _ _ Hb E) as (-> & -> & Er).
      destruct (U2 d2 (d3 ++ vs) D (eq_sym Er)) as (-> & _). rewrite (i32_len _ _ Hv). reflexivity.
  - split; [discriminate|]. intros (d1 & d2 & d3 & vs & E & Hb & D & [v Hv] & ->). destruct (U _ _ Hb E) as (-> & -> & Er).
    destruct (U2 d2 (d3 ++ vs) D (eq_sym Er)) as (-> & E4). assert (X : Err e = Ok v) by (apply RU; exists d3, vs; auto). discriminate.
Qed.

Lemma head_errors nbits vsize data x : is_bytes data -> instance_head nbits vsize data = Err x -> soft x.
Proof.
  intros B. unfold instance_head.
  pose proof (fun x k => rd_stream_size_iff (rd_iblock nbits vsize) _ data x k (reads_iblock nbits vsize) (fun a d => iblock_ne _ _ a d) B) as R.
  destruct (rd_stream_size (rd_iblock nbits vsize) data) as [[b1 o1]|e] eqn:E; cbn [bind].
  2:{ intros X. injection X as <-. exact (rd_stream_size_errors _ _ _ _ (reads_iblock nbits vsize) B E). }
  assert (X := proj1 (R b1 o1) eq_refl). destruct X as (e1 & rest1 & Hb1 & E1 & ->). pose proof (len_nonneg e1).
  pose proof (dyn_errors data (len e1) (ib_dyn b1)) as RE.
  assert (D1 : ib_dyn b1 = 1 \/ ib_dyn b1 = 2) by (destruct Hb1 as (? & ? & _ & _ & D & _); exact D).
  pose proof (fun o => dyn_iff data (len e1) (ib_dyn b1) o B ltac:(lia) D1) as RD.
  destruct (if ib_dyn b1 =? 2 then _ else _) as [o2|e]; cbn [bind].
  2:{ intros X. injection X as <-. apply RE; auto. }
  assert (X := proj1 (RD o2) eq_refl). destruct X as (e2 & rest2 & Hd & E2 & ->). pose proof (len_nonneg e2).
  destruct (rd_stream (rd_int (FU LE 4)) (pyslice_from data (len e1 + len e2))) as [u|e] eqn:EU; cbn [bind]; [discriminate|].
  intros X. injection X as <-. refine (at_errors _ _ _ _ _ reads_i32 B _ EU). lia.
Qed.

Lemma state_size_iff n k : 0 <= n -> (k = state_size n <-> state_bytes n k).
Proof.
  intros H. unfold state_size, state_bytes. pose proof (Z.div_mod n 4 ltac:(lia)). pose proof (Z.mod_pos_bound n 4 ltac:(lia)).
  destruct (Z.ltb_spec 0 (n mod 4)); lia.
Qed.

(** ** Values *)

Lemma sint_ne n v d : (0 < n)%nat -> sint n v d -> d <> [].
Proof. intros H [_ ->]. apply le_enc_ne. exact H. Qed.
Lemma i16_ne v d : i16 v d -> d <> [].
Proof. intros [_ ->]. apply le_enc_ne. lia. Qed.
Lemma i64_ne v d : i64 v d -> d <> [].
Proof. intros [_ ->]. apply le_enc_ne. lia. Qed.

Definition kind_bytes (k : fkind) : Z -> bytes -> Prop :=
  match k with FU LE 1 => i8 | FU LE 2 => i16 | FU LE 4 => i32 | FU LE 8 => i64 | FS LE n => sint n | _ => fun _ _ => False end.

Lemma fixed_value_iff qual pvals off v : is_bytes pvals -> 0 <= off ->
  (fixed_value qual (pyslice_from pvals off) = Ok v <-> exists d, fixed_bytes qual v d /\ stored_at pvals off d).
Proof.
  intros B H. unfold fixed_value. destruct (list_eqb qual (s2z "boolean")) eqn:E.
  - apply list_eqb_eq in E. subst. pose proof (fun b => at_iff rd_bool16 _ pvals off b reads_bool16 (fun a d (X : bool_bytes a d) => ltac:(unfold bool_bytes in X; subst; destruct a; discriminate)) B H) as R.
    destruct (rd_stream rd_bool16 (pyslice_from pvals off)) as [b|e]; cbn [bind].
    + assert (X := proj1 (R b) eq_refl). destruct X as (d & Hb & S). split.
      * intros X. injection X as <-. exists d. split; [|exact S]. unfold bool_bytes in Hb. subst. destruct b; constructor.
      * intros (d2 & F & S2). inversion F; subst.
        -- assert (X : Ok b = Ok false) by (apply R; exists [0; 0]; split; [reflexivity|exact S2]). congruence.
        -- assert (X : Ok b = Ok true) by (apply R; exists [255; 255]; split; [reflexivity|exact S2]). congruence.
    + split; [discriminate|]. intros (d2 & F & S2). inversion F; subst.
      * assert (X : Err e = Ok false) by (apply R; exists [0; 0]; split; [reflexivity|exact S2]). discriminate.
      * assert (X : Err e = Ok true) by (apply R; exists [255; 255]; split; [reflexivity|exact S2]). discriminate.
  - assert (G : forall k (e : Z -> bytes -> Prop), reads (rd_int k) e -> (forall a d, e a d -> d <> []) ->
      (forall v d, fixed_bytes qual v d <-> exists z, v = VNum z /\ e z d) ->
      ((do z <- rd_stream (rd_int k) (pyslice_from pvals off); Ok (VNum z)) = Ok v <-> exists d, fixed_bytes qual v d /\ stored_at pvals off d)).
    { intros k e R N F. pose proof (fun z => at_iff (rd_int k) e pvals off z R N B H) as RI.
      destruct (rd_stream (rd_int k) (pyslice_from pvals off)) as [z|x]; cbn [bind].
      - assert (X := proj1 (RI z) eq_refl). destruct X as (d & Hd & S). split.
        + intros X. injection X as <-. exists d. split; [apply F; eauto|exact S].
        + intros (d2 & F2 & S2). apply F in F2. destruct F2 as (z2 & -> & F2). assert (X : Ok z = Ok z2) by (apply RI; eauto). congruence.
      - split; [discriminate|]. intros (d2 & F2 & S2). apply F in F2. destruct F2 as (z2 & -> & F2). assert (X : Err x = Ok z2) by (apply RI; eauto). discriminate. }
    unfold value_kinds. cbn [sdict_get].
    repeat match goal with |- context [list_eqb ?k qual] =>
      let E2 := fresh "E" in destruct (list_eqb k qual) eqn:E2;
      [apply list_eqb_eq in E2; subst qual; eapply G;
        [first [apply reads_i8|apply reads_i16|apply reads_i32|apply reads_i64|apply reads_sint; lia]
        |first [intros a d; apply i8_ne|intros a d; apply i16_ne|intros a d; apply i32_ne|intros a d; apply i64_ne|intros a d; apply sint_ne; lia]
        |intros w d; split; [intros F; inversion F; subst; eauto|intros (z & -> & Hz); constructor; exact Hz]]|] end.
    split; [discriminate|]. intros (d & F & _). exfalso.
    inversion F; subst; try (rewrite list_eqb_refl in E; discriminate); match goal with X : list_eqb ?a ?a = false |- _ => rewrite list_eqb_refl in X; discriminate end.
Qed.

Lemma fixed_value_errors qual pvals off x : is_bytes pvals -> 0 <= off -> fixed_value qual (pyslice_from pvals off) = Err x -> soft x.
Proof.
  intros B H. unfold fixed_value. destruct (list_eqb qual (s2z "boolean")).
  - destruct (rd_stream rd_bool16 (pyslice_from pvals off)) as [b|e] eqn:E; cbn [bind]; [discriminate|]. intros X. injection X as <-. exact (at_errors _ _ _ _ _ reads_bool16 B H E).
  - assert (G : forall k e, reads (rd_int k) e -> (do z <- rd_stream (rd_int k) (pyslice_from pvals off); Ok (VNum z)) = Err x -> soft x).
    { intros k e R. destruct (rd_stream (rd_int k) (pyslice_from pvals off)) as [z|y] eqn:E; cbn [bind]; [discriminate|]. intros X. injection X as <-. exact (at_errors _ _ _ _ _ R B H E). }
    unfold value_kinds. cbn [sdict_get].
    repeat match goal with |- context [list_eqb ?k qual] => destruct (list_eqb k qual);
      [eapply G; first [apply reads_i8|apply reads_i16|apply reads_i32|apply reads_i64|apply (reads_sint 4); lia]|] end.
    intros X. injection X as <-. right. reflexivity.
Qed.

Definition offsets_bytes (l : list Z) (d : bytes) : Prop := exists d0 ds, i32 (len l) d0 /\ Forall2 i32 l ds /\ d = d0 ++ concat ds.

Lemma reads_offsets : reads rd_offsets offsets_bytes.
Proof.
  unfold rd_offsets. eapply reads_iff; [eapply reads_bind; [apply reads_i32|intros; eapply reads_times; apply reads_i32]|]. intros l d _. cbv beta. unfold offsets_bytes. split.
  - intros (n & d1 & d2 & Hn & [L (ds & F & ->)] & ->). apply count_len in L; [|destruct Hn as [Hn _]; unfold n32 in Hn; lia]. subst n. eauto.
  - intros (d0 & ds & Hn & F & ->). exists (len l), d0, (concat ds). split; [exact Hn|]. split; [|reflexivity]. split; [unfold len; lia|eauto].
Qed.

Lemma offsets_ne l d : offsets_bytes l d -> d <> [].
Proof. intros (d0 & ds & H & _ & ->). apply i32_ne in H. destruct d0; [congruence|discriminate]. Qed.

Lemma i32s_nonneg l ds : Forall2 i32 l ds -> Forall (fun z => 0 <= z) l.
Proof. induction 1 as [|z d l ds H F IH]; constructor; [|exact IH]. destruct H as [H _]. unfold n32 in H. lia. Qed.

Lemma strings_iff ansi values l r : is_bytes values -> Forall (fun z => 0 <= z) l -> (strings ansi values l = Ok r <-> Forall2 (cim_at ansi values) l r).
Proof.
  intros B F. revert r. induction F as [|z l H F IH]; intros r; cbn [strings].
  - split; [intros X; injection X as <-; constructor|]. intros X. inversion X. reflexivity.
  - pose proof (fun s => cim_string_iff ansi z values s B H) as R. destruct (cim_string ansi z values) as [s|e]; cbn [bind].
    + destruct (strings ansi values l) as [r2|e]; cbn [bind].
      * split.
        -- intros X. injection X as <-. constructor; [now apply R|now apply IH].
        -- intros X. inversion X as [|? s2 ? r3 X1 X2]; subst. apply R in X1. apply IH in X2. congruence.
      * split; [discriminate|]. intros X. inversion X as [|? s2 ? r3 X1 X2]; subst. apply IH in X2. discriminate.
    + split; [discriminate|]. intros X. inversion X as [|? s2 ? r3 X1 X2]; subst. apply R in X1. discriminate.
Qed.

Lemma strings_errors ansi values l x : is_bytes values -> Forall (fun z => 0 <= z) l -> strings ansi values l = Err x -> soft x.
Proof.
  intros B F. induction F as [|z l H F IH]; cbn [strings]; [discriminate|].
  destruct (cim_string ansi z values) as [s|e] eqn:E; cbn [bind]; [|intros X; injection X as <-; exact (cim_string_errors _ _ _ _ B H E)].
  destruct (strings ansi values l) as [r2|e]; cbn [bind]; [discriminate|]. exact IH.
Qed.

Lemma u32_stored pvals off v : is_bytes pvals -> 0 <= off ->
  (rd_stream (rd_int (FU LE 4)) (pyslice_from pvals off) = Ok v <-> exists d, i32 v d /\ stored_at pvals off d).
Proof. intros B H. apply at_iff; [apply reads_i32|intros a d; apply i32_ne|exact B|exact H]. Qed.

Lemma not_in_existsb x l : existsb (Z.eqb x) l = false <-> ~ In x l.
Proof. rewrite <- existsb_z. destruct (existsb (Z.eqb x) l); split; congruence. Qed.

Lemma kinds_apart t : is_fixed t -> is_string t \/ t = 0x2008 -> False.
Proof. unfold is_fixed, is_string. cbn. lia. Qed.

Lemma property_value_iff ansi pvals values m v : is_bytes pvals -> is_bytes values -> 0 <= pm_offset m ->
  (property_value ansi pvals values m = Ok v <-> value_in ansi pvals values m v).
Proof.
  intros B Bv H. unfold property_value. destruct (existsb (Z.eqb (pm_type m)) fixed_types) eqn:EF.
  - apply existsb_z in EF. rewrite fixed_value_iff by assumption. split.
    + intros (d & F & S). eapply vi_fixed; eassumption.
    + intros X. destruct X as [v d T F S|d T|off d s T|off d l T|off d T]; [eauto|exfalso..].
      * exact (kinds_apart _ EF T). * exact (kinds_apart _ EF (or_introl T)). * exact (kinds_apart _ EF (or_intror T)). * exact (T EF).
  - apply not_in_existsb in EF. pose proof (fun z => u32_stored pvals (pm_offset m) z B H) as R.
    destruct (rd_stream (rd_int (FU LE 4)) (pyslice_from pvals (pm_offset m))) as [off|e]; cbn [bind].
    2:{ split; [discriminate|]. intros X. exfalso. destruct X as [v d T F S|d T I S|off d s T I N S|off d l T I N S|off d T1 T2 T3 I S].
        - exact (EF T). - assert (X : Err e = Ok 0) by (apply R; eauto). discriminate.
        - assert (X : Err e = Ok off) by (apply R; eauto). discriminate. - assert (X : Err e = Ok off) by (apply R; eauto). discriminate.
        - assert (X : Err e = Ok off) by (apply R; eauto). discriminate. }
    assert (X := proj1 (R off) eq_refl). destruct X as (d & I & S). assert (P : 0 <= off) by (destruct I as [I _]; unfold n32 in I; lia).
    assert (U : forall off2 d2, i32 off2 d2 -> stored_at pvals (pm_offset m) d2 -> off2 = off).
    { intros off2 d2 I2 S2. assert (X : Ok off = Ok off2) by (apply R; eauto). congruence. }
    destruct (existsb (Z.eqb (pm_type m)) string_types) eqn:ES.
    + apply existsb_z in ES. assert (NA : pm_type m <> 0x2008) by (intros X; rewrite X in ES; cbn in ES; lia). destruct (Z.ltb_spec 0 off) as [L|L].
      * pose proof (fun s => cim_string_iff ansi off values s Bv P) as RC. destruct (cim_string ansi off values) as [s|e]; cbn [bind].
        -- split.
           ++ intros X. injection X as <-. eapply vi_string; [exact ES|exact I|lia|exact S|now apply RC].
           ++ intros X. destruct X as [v d2 T F S2|d2 T I2 S2|off2 d2 s2 T I2 N S2 C|off2 d2 l T I2 N S2|off2 d2 T1 T2 T3 I2 S2]; [destruct (EF T)| |rewrite (U _ _ I2 S2) in C; apply RC in C; congruence|congruence|destruct (T2 ES)].
              pose proof (U _ _ I2 S2). lia.
        -- split; [discriminate|]. intros X. exfalso. destruct X as [v d2 T F S2|d2 T I2 S2|off2 d2 s2 T I2 N S2 C|off2 d2 l T I2 N S2|off2 d2 T1 T2 T3 I2 S2]; [exact (EF T)| |rewrite (U _ _ I2 S2) in C; apply RC in C; discriminate|congruence|exact (T2 ES)].
           pose proof (U _ _ I2 S2). lia.
      * assert (off = 0) by lia. subst off. split.
        -- intros X. injection X as <-. eapply vi_unset; [left; exact ES|exact I|exact S].
        -- intros X. destruct X as [v d2 T F S2|d2 T I2 S2|off2 d2 s2 T I2 N S2 C|off2 d2 l T I2 N S2|off2 d2 T1 T2 T3 I2 S2]; try reflexivity; try (destruct (EF T)); pose proof (U _ _ I2 S2); congruence.
    + apply not_in_existsb in ES. destruct (Z.eqb_spec (pm_type m) 0x2008) as [EA|NA].
      * destruct (Z.ltb_spec 0 off) as [L|L].
        -- pose proof (fun l => at_iff rd_offsets _ values off l reads_offsets (fun a d => offsets_ne a d) Bv P) as RO.
           destruct (rd_stream rd_offsets (pyslice_from values off)) as [l|e]; cbn [bind].
           ++ assert (X := proj1 (RO l) eq_refl). destruct X as (d0 & (d1 & ds & Hl & F & ->) & S0).
              pose proof (fun r => strings_iff ansi values l r Bv (i32s_nonneg _ _ F)) as RS.
              assert (UA : forall r, array_at ansi values off r -> Forall2 (cim_at ansi values) l r).
              { intros r (offs & e0 & es & S2 & Hn & F2 & F3). assert (X : Ok l = Ok offs) by (apply RO; exists (e0 ++ concat es); split; [exists e0, es; auto|exact S2]). congruence. }
              destruct (strings ansi values l) as [r|e]; cbn [bind].
              ** split.
                 --- intros X. injection X as <-. eapply vi_strings; [exact EA|exact I|lia|exact S|]. exists l, d1, ds. split; [exact S0|]. split; [exact Hl|]. split; [exact F|now apply RS].
                 --- intros X. destruct X as [v d2 T F2 S2|d2 T I2 S2|off2 d2 s2 T I2 N S2 C|off2 d2 r2 T I2 N S2 C|off2 d2 T1 T2 T3 I2 S2]; [destruct (EF T)|pose proof (U _ _ I2 S2); lia|destruct (ES T)| |congruence].
                     rewrite (U _ _ I2 S2) in C. apply UA, RS in C. congruence.
              ** split; [discriminate|]. intros X. exfalso. destruct X as [v d2 T F2 S2|d2 T I2 S2|off2 d2 s2 T I2 N S2 C|off2 d2 r2 T I2 N S2 C|off2 d2 T1 T2 T3 I2 S2]; [exact (EF T)|pose proof (U _ _ I2 S2); lia|exact (ES T)| |congruence].
                 rewrite (U _ _ I2 S2) in C. apply UA, RS in C. discriminate.
           ++ split; [discriminate|]. intros X. exfalso. destruct X as [v d2 T F2 S2|d2 T I2 S2|off2 d2 s2 T I2 N S2 C|off2 d2 r2 T I2 N S2 C|off2 d2 T1 T2 T3 I2 S2]; [exact (EF T)|pose proof (U _ _ I2 S2); lia|exact (ES T)| |congruence].
              rewrite (U _ _ I2 S2) in C. destruct C as (offs & e0 & es & S3 & Hn & F2 & F3).
              assert (X : Err e = Ok offs) by (apply RO; exists (e0 ++ concat es); split; [exists e0, es; auto|exact S3]). discriminate.
        -- assert (off = 0) by lia. subst off. split.
           ++ intros X. injection X as <-. eapply vi_unset; [right; exact EA|exact I|exact S].
           ++ intros X. destruct X as [v d2 T F S2|d2 T I2 S2|off2 d2 s2 T I2 N S2 C|off2 d2 l T I2 N S2|off2 d2 T1 T2 T3 I2 S2]; try reflexivity; try (destruct (EF T)); pose proof (U _ _ I2 S2); congruence.
      * split.
        -- intros X. injection X as <-. eapply vi_other; eassumption.
        -- intros X. destruct X as [v d2 T F S2|d2 T I2 S2|off2 d2 s2 T I2 N S2 C|off2 d2 l T I2 N S2|off2 d2 T1 T2 T3 I2 S2]; try reflexivity; [destruct (EF T)|destruct (ES T)|congruence].
Qed.

Lemma property_value_errors ansi pvals values m x : is_bytes pvals -> is_bytes values -> 0 <= pm_offset m ->
  property_value ansi pvals values m = Err x -> soft x.
Proof.
  intros B Bv H. unfold property_value. destruct (existsb (Z.eqb (pm_type m)) fixed_types); [apply fixed_value_errors; assumption|].
  pose proof (fun z => u32_stored pvals (pm_offset m) z B H) as R.
  destruct (rd_stream (rd_int (FU LE 4)) (pyslice_from pvals (pm_offset m))) as [off|e] eqn:E; cbn [bind].
  2:{ intros X. injection X as <-. exact (at_errors _ _ _ _ _ reads_i32 B H E). }
  assert (X := proj1 (R off) eq_refl). destruct X as (d & I & S). assert (P : 0 <= off) by (destruct I as [I _]; unfold n32 in I; lia).
  destruct (existsb (Z.eqb (pm_type m)) string_types).
  - destruct (0 <? off); [|discriminate]. destruct (cim_string ansi off values) as [s|e] eqn:EC; cbn [bind]; [discriminate|]. intros X. injection X as <-. exact (cim_string_errors _ _ _ _ Bv P EC).
  - destruct (pm_type m =? 0x2008); [|discriminate]. destruct (0 <? off); [|discriminate].
    pose proof (fun l => at_iff rd_offsets _ values off l reads_offsets (fun a d => offsets_ne a d) Bv P) as RO.
    destruct (rd_stream rd_offsets (pyslice_from values off)) as [l|e] eqn:EO; cbn [bind].
    2:{ intros X. injection X as <-. exact (at_errors _ _ _ _ _ reads_offsets Bv P EO). }
    assert (X := proj1 (RO l) eq_refl). destruct X as (d0 & (d1 & ds & Hl & F & ->) & S0).
    destruct (strings ansi values l) as [r|e] eqn:ES; cbn [bind]; [discriminate|]. intros X. injection X as <-. exact (strings_errors _ _ _ _ Bv (i32s_nonneg _ _ F) ES).
Qed.

Lemma property_values_iff ansi pvals values l t t2 : is_bytes pvals -> is_bytes values -> Forall (fun m => 0 <= pm_offset m) l ->
  (property_values ansi pvals values l t = Ok t2 <->
   exists vs, Forall2 (value_in ansi pvals values) l vs /\ t2 = sdict_of (combine (map pm_name l) vs) t).
Proof.
  intros B Bv F. revert t. induction F as [|m l H F IH]; intros t; cbn [property_values].
  - split; [intros X; injection X as <-; exists []; split; [constructor|reflexivity]|]. intros (vs & X & ->). inversion X. reflexivity.
  - pose proof (fun v => property_value_iff ansi pvals values m v B Bv H) as R. destruct (property_value ansi pvals values m) as [v|e]; cbn [bind].
    + rewrite IH. split.
      * intros (vs & X & ->). exists (v :: vs). split; [constructor; [now apply R|exact X]|reflexivity].
      * intros (vs & X & ->). inversion X as [|? v2 ? vs2 X1 X2]; subst. apply R in X1. injection X1 as <-. exists vs2. split; [exact X2|reflexivity].
    + split; [discriminate|]. intros (vs & X & _). inversion X as [|? v2 ? vs2 X1 X2]; subst. apply R in X1. discriminate.
Qed.

Lemma property_values_errors ansi pvals values l t x : is_bytes pvals -> is_bytes values -> Forall (fun m => 0 <= pm_offset m) l ->
  property_values ansi pvals values l t = Err x -> soft x.
Proof.
  intros B Bv F. revert t. induction F as [|m l H F IH]; intros t; cbn [property_values]; [discriminate|].
  destruct (property_value ansi pvals values m) as [v|e] eqn:E; cbn [bind]; [apply IH|]. intros X. injection X as <-. exact (property_value_errors _ _ _ _ _ B Bv H E).
Qed.

(** ** Instances *)

Lemma head_parts nbits vsize b d1 : iblock_bytes nbits vsize b d1 -> is_bytes d1 -> is_bytes (ib_values b) /\ 0 <= ib_name b.
Proof.
  intros (bits & quals & _ & _ & _ & H) B. f_out. subst. unfold is_bytes in *.
  repeat match goal with H : Forall is_byte (_ ++ _) |- _ => apply Forall_app in H as [? H] end.
  split; [assumption|]. match goal with H : i32 (ib_name b) _ |- _ => destruct H as [H _]; unfold n32 in H; lia end.
Qed.

Lemma map_snd_wf cm : map_wf cm -> Forall (fun m => 0 <= pm_offset m) (map snd (cm_props cm)).
Proof. unfold map_wf. intros H. apply Forall_map. exact H. Qed.

Theorem instance_iff ansi cm data name t : is_bytes data -> map_wf cm ->
  (instance ansi cm data = Ok (name, t) <-> instance_has ansi cm data name t).
Proof.
  intros B W. unfold instance, instance_has. set (nb := state_size (len (cm_props cm))).
  assert (Nb : forall k, state_bytes (len (cm_props cm)) k <-> k = nb) by (intros k; symmetry; apply state_size_iff, len_nonneg).
  pose proof (fun b off => head_iff nb (cm_size cm) data b off B) as RH. destruct (instance_head nb (cm_size cm) data) as [[b off]|e]; cbn [bind].
  2:{ split; [discriminate|]. intros (k & b & d1 & d2 & d3 & values & vs & K & E & Hb & D & U & _). apply Nb in K. subst k.
      assert (X : Err e = Ok (b, len d1 + len d2 + len d3)) by (apply RH; exists d1, d2, d3, values; auto 6). discriminate. }
  assert (X := proj1 (RH b off) eq_refl). destruct X as (d1 & d2 & d3 & values & E & Hb & D & U & Eo).
  assert (V : pyslice_from data off = values).
  { rewrite slice_from_nonneg by (pose proof (len_nonneg d1); pose proof (len_nonneg d2); pose proof (len_nonneg d3); lia).
    rewrite <- (Z.add_0_l off). replace off with (len (d1 ++ d2 ++ d3)) by (rewrite !len_app; lia). apply skip_more; [lia|]. rewrite zskipn_0, E, <- !app_assoc. reflexivity. }
  rewrite V. assert (Bs := B). rewrite E in Bs. apply Forall_app in Bs as [B1 Bs]. apply Forall_app in Bs as [_ Bs]. apply Forall_app in Bs as [_ Bv].
  destruct (head_parts _ _ _ _ Hb B1) as [Bp Pn].
  assert (Un : forall k b2 e1 e2 e3 vs2, state_bytes (len (cm_props cm)) k -> data = e1 ++ e2 ++ e3 ++ vs2 -> iblock_bytes k (cm_size cm) b2 e1 -> dyn_bytes (ib_dyn b2) e2 -> any i32 e3 ->
    b2 = b /\ vs2 = values).
  { intros k b2 e1 e2 e3 vs2 K E2 Hb2 D2 U2. apply Nb in K. subst k. assert (X : Ok (b, off) = Ok (b2, len e1 + len e2 + len e3)) by (apply RH; exists e1, e2, e3, vs2; auto 6).
    injection X as <- L. split; [reflexivity|]. rewrite E in E2. rewrite !app_assoc in E2. apply app_eq_len in E2; [destruct E2; congruence|].
    rewrite !app_length. unfold len in *. lia. }
  pose proof (fun s => cim_string_iff ansi (ib_name b) values s Bv Pn) as RN. destruct (cim_string ansi (ib_name b) values) as [n|e]; cbn [bind].
  2:{ split; [discriminate|]. intros (k & b2 & e1 & e2 & e3 & values2 & vs & K & E2 & Hb2 & D2 & U2 & C & _). destruct (Un _ _ _ _ _ _ K E2 Hb2 D2 U2) as [-> ->]. apply RN in C. discriminate. }
  assert (Em : map (fun kp : str * pmap => pm_name (snd kp)) (cm_props cm) = map pm_name (map snd (cm_props cm))) by (rewrite map_map; reflexivity).
  pose proof (fun t2 => property_values_iff ansi (ib_values b) values (map snd (cm_props cm)) [] t2 Bp Bv (map_snd_wf cm W)) as RP.
  destruct (property_values ansi (ib_values b) values (map snd (cm_props cm)) []) as [t0|e]; cbn [bind].
  - split.
    + intros X. injection X as <- <-. assert (X := proj1 (RP t0) eq_refl). destruct X as (vs & F & Et). exists nb, b, d1, d2, d3, values, vs.
      split; [now apply Nb|]. split; [exact E|]. split; [exact Hb|]. split; [exact D|]. split; [exact U|]. split; [now apply RN|]. split; [exact F|]. rewrite Em. now apply assigned_iff.
    + intros (k & b2 & e1 & e2 & e3 & values2 & vs & K & E2 & Hb2 & D2 & U2 & C & F & A). destruct (Un _ _ _ _ _ _ K E2 Hb2 D2 U2) as [-> ->]. apply RN in C. rewrite Em in A.
      assert (X : Ok t0 = Ok t) by (apply RP; exists vs; split; [exact F|now apply assigned_iff]). congruence.
  - split; [discriminate|]. intros (k & b2 & e1 & e2 & e3 & values2 & vs & K & E2 & Hb2 & D2 & U2 & C & F & A). destruct (Un _ _ _ _ _ _ K E2 Hb2 D2 U2) as [-> ->]. rewrite Em in A.
    assert (X : Err e = Ok t) by (apply RP; exists vs; split; [exact F|now apply assigned_iff]). discriminate.
Qed.

Theorem instance_errors ansi cm data x : is_bytes data -> map_wf cm -> instance ansi cm data = Err x -> soft x.
Proof.
  intros B W. unfold instance. set (nb := state_size (len (cm_props cm))).
  pose proof (fun b off => head_iff nb (cm_size cm) data b off B) as RH. destruct (instance_head nb (cm_size cm) data) as [[b off]|e] eqn:EH; cbn [bind].
  2:{ intros X. injection X as <-. exact (head_errors _ _ _ _ B EH). }
  assert (X := proj1 (RH b off) eq_refl). destruct X as (d1 & d2 & d3 & values & E & Hb & D & U & Eo).
  assert (Bv : is_bytes (pyslice_from data off)).
  { rewrite slice_from_nonneg by (pose proof (len_nonneg d1); pose proof (len_nonneg d2); pose proof (len_nonneg d3); lia). now apply is_bytes_skip. }
  assert (Bs := B). rewrite E in Bs. apply Forall_app in Bs as [B1 Bs]. destruct (head_parts _ _ _ _ Hb B1) as [Bp Pn].
  destruct (cim_string ansi (ib_name b) (pyslice_from data off)) as [n|e] eqn:EN; cbn [bind]; [|intros X; injection X as <-; exact (cim_string_errors _ _ _ _ Bv Pn EN)].
  destruct (property_values _ _ _ _ _) as [t0|e] eqn:EP; cbn [bind]; [discriminate|]. intros X. injection X as <-.
  exact (property_values_errors _ _ _ _ _ _ Bp Bv (map_snd_wf cm W) EP).
Qed.

(** ** Object records *)

Definition irecord_bytes (n : Z) (x : str * bytes) (d : bytes) : Prop :=
  exists h, utf16_decode h = Some (fst x) /\ len h = n /\ fields [eq h; any i64; any i64; i32 (len (snd x) + 4); eq (snd x)] d.

Lemma reads_instance_record n : reads (rd_instance_record n) (irecord_bytes n).
Proof.
  unfold rd_instance_record. eapply reads_iff; [fh_reads ltac:(apply reads_some)|]. intros [hash data] d _. cbv beta. unfold irecord_bytes. cbn [fst snd]. split.
  - intros (a2 & ? & ? & [H2 ->] & (a3 & ? & ? & [H3 ->] & (a4 & ? & ? & H4 & (a5 & ? & ? & H5 & (a6 & ? & ? & H6 & (a7 & ? & ? & [H7 ->] & [E ->] & ->) & ->) & ->) & ->) & ->) & ->).
    assert (hash = a3 /\ data = a7) as [-> ->] by (split; congruence). exists a2. split; [exact H3|]. split; [exact H2|]. replace (len a7 + 4) with a6 by lia. cbn [app].
    apply fields_more; [reflexivity|]. apply fields_more; [exists a4; exact H4|]. apply fields_more; [exists a5; exact H5|]. apply fields_more; [exact H6|]. apply fields_more; [reflexivity|]. now apply fields_nil.
  - intros (h & U & L & H). f_out. subst. repeat match goal with H : any _ _ |- _ => destruct H as [? H] end.
    do 3 eexists. split; [|split; [|reflexivity]]; [split; reflexivity|].
    eexists _, [], _. split; [split; [exact U|reflexivity]|]. split; [|reflexivity]. do 3 (do 3 eexists; split; [|split; [|reflexivity]]; [eassumption|]).
    eexists _, _, []. split; [|split; [split; reflexivity|reflexivity]]. split; [lia|reflexivity].
Qed.

Lemma irecord_ne n x d : irecord_bytes n x d -> d <> [].
Proof.
  intros (h & _ & _ & H). f_out. subst. repeat match goal with H : any i64 _ |- _ => destruct H as [? H]; apply i64_ne in H end.
  intros X. apply app_eq_nil in X as [_ X]. apply app_eq_nil in X as [X _]. congruence.
Qed.

Lemma instance_record_iff old record hash data : is_bytes record -> (instance_record old record = Ok (hash, data) <-> record_has old record hash data).
Proof.
  intros B. unfold instance_record, record_has. rewrite (rd_stream_iff _ _ _ _ (reads_instance_record _) (fun a d => irecord_ne _ a d) B). unfold irecord_bytes. cbn [fst snd]. split.
  - intros (d & rest & (h & U & L & H) & E). exists h, d, rest. auto.
  - intros (h & d & rest & U & L & H & E). exists d, rest. split; [exists h; auto|exact E].
Qed.

Lemma instance_record_errors old record x : is_bytes record -> instance_record old record = Err x -> soft x.
Proof. intros B. unfold instance_record. apply (rd_stream_errors _ _ _ _ (reads_instance_record _)). exact B. Qed.

(** Class maps made of class definitions whose offsets are unsigned. *)
Lemma declares_offsets lower b l out : declares lower b l out -> Forall (fun kp => 0 <= p_offset (snd kp)) l -> Forall (fun kp => 0 <= pm_offset (snd kp)) out.
Proof.
  induction 1 as [|b k p m l out M D IH|b k p l out U I D IH]; intros F; [constructor| |].
  - inversion F; subst. constructor; [|auto]. cbn in *. destruct M as (_ & _ & -> & _). assumption.
  - inversion F; subst. auto.
Qed.

Lemma map_of_wf lower l m : map_of lower l m -> Forall (fun c => Forall (fun kp => 0 <= p_offset (snd kp)) (c_props c)) l -> map_wf m.
Proof.
  intros (a & c & out & _ & _ & _ & _ & D & A & _) F. unfold map_wf. apply assigned_iff in A. rewrite A.
  assert (Fo : Forall (fun kp => 0 <= pm_offset (snd kp)) out).
  { apply (declares_offsets _ _ _ _ D). apply Forall_concat. apply Forall_map. exact F. }
  apply Forall_forall. intros [k p] I. apply sdict_get_in in I; [|apply sdict_of_nodup]. apply sdict_of_get in I. destruct I as (b & af & -> & _).
  apply Forall_app in Fo as [_ Fo]. inversion Fo; assumption.
Qed.

Lemma lineage_in lower hash defs c l k : lineage lower hash defs c l -> In (k, c) defs -> Forall (fun c => exists k, In (k, c) defs) l.
Proof.
  intros L. revert k. induction L as [c B|c s p l S N G L IH]; intros k I; [constructor; [eauto|constructor]|].
  apply Forall_app. split; [|constructor; [eauto|constructor]]. exact (IH _ (sdict_get_some _ _ _ G)).
Qed.

Definition defs_wf (defs : sdict cdef) : Prop := Forall (fun kc => Forall (fun kp => 0 <= p_offset (snd kp)) (c_props (snd kc))) defs.

Lemma fresh_wf fuel lower hash defs h m : defs_wf defs -> fresh_map fuel lower hash defs h = Done (Ok m) -> map_wf m.
Proof.
  intros W H. assert (X : exists fuel, fresh_map fuel lower hash defs h = Done (Ok m)) by eauto. apply lookup_iff in X. destruct X as (c & l & G & L & M).
  apply (map_of_wf _ _ _ M). pose proof (lineage_in _ _ _ _ _ _ L (sdict_get_some _ _ _ G)) as F. apply Forall_forall. intros c2 I2.
  rewrite Forall_forall in F. destruct (F _ I2) as [k I3]. unfold defs_wf in W. rewrite Forall_forall in W. exact (W _ I3).
Qed.

Theorem record_instance_iff ansi lower hash defs old record m t : is_bytes record -> defs_wf defs ->
  ((exists fuel, instance_of_record fuel ansi lower hash defs old record = Done (Ok (m, t))) <->
   exists h data c l name, record_has old record h data /\ sdict_get (lower h) defs = Some c /\ lineage lower hash defs c l /\ map_of lower l m /\
     instance_has ansi m data name t).
Proof.
  intros B W. unfold instance_of_record. pose proof (fun h d => instance_record_iff old record h d B) as R.
  destruct (instance_record old record) as [[h data]|e]; cbn [rbind].
  2:{ split; [intros [f X]; discriminate|]. intros (h & data & c & l & name & X & _). apply R in X. discriminate. }
  assert (Bd : is_bytes data).
  { assert (X := proj1 (R h data) eq_refl). destruct X as (h0 & d & rest & _ & _ & H & E). f_out. subst. unfold is_bytes in *.
    repeat match goal with H : Forall is_byte (_ ++ _) |- _ => apply Forall_app in H; destruct H end. assumption. }
  split.
  - intros [fuel X]. destruct (fresh_map fuel lower hash defs h) as [[cm|e]|] eqn:F; cbn [rbind] in X; try discriminate.
    destruct (instance ansi cm data) as [[name t0]|e] eqn:I; cbn [rbind] in X; [|discriminate]. injection X as <- <-.
    apply instance_iff in I; [|exact Bd|exact (fresh_wf _ _ _ _ _ _ W F)].
    assert (Y : exists fuel, fresh_map fuel lower hash defs h = Done (Ok cm)) by eauto. apply lookup_iff in Y. destruct Y as (c & l & G & L & M).
    exists h, data, c, l, name. split; [now apply R|]. auto.
  - intros (h2 & data2 & c & l & name & X & G & L & M & I). apply R in X. injection X as <- <-.
    assert (Y : exists fuel, fresh_map fuel lower hash defs h = Done (Ok m)) by (apply lookup_iff; exists c, l; auto). destruct Y as [fuel F].
    exists fuel. rewrite F. cbn [rbind]. apply instance_iff in I; [|exact Bd|exact (fresh_wf _ _ _ _ _ _ W F)]. rewrite I. reflexivity.
Qed.

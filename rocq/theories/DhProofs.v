From Verif Require Import Base BaseFacts CoreModel CoreProofs StrModel TextModel SeqModel SeqSpec SeqFacts MemFacts DictModel Utf16Model Utf16Spec Utf16Facts RdModel RdSpec RdFacts UuidModel UuidSpec UuidFacts RbSpec RbProofs RpProofs JobModel JobProofs DhModel DhSpec.
From Coq Require String.
Import String.StringSyntax.

Lemma reads_n8 : reads (rd_int (FU LE 1)) (fun v d => 0 <= v < 256 /\ d = [v]).
Proof.
  eapply reads_iff; [apply reads_int; cbn; lia|]. intros v d _. cbn [fval_ok enc_field enc_int]. split.
  - intros [H ->]. change (2 ^ (8 * Z.of_nat 1)) with 256 in H. split; [lia|]. cbn [le_enc]. rewrite Z.mod_small by lia. reflexivity.
  - intros [H ->]. split; [exact H|]. cbn [le_enc]. rewrite Z.mod_small by lia. reflexivity.
Qed.
Lemma reads_n32 : reads (rd_int (FU LE 4)) (fun v d => n32 v /\ d = le_enc 4 v).
Proof. apply reads_int. cbn; lia. Qed.
Lemma reads_n64 : reads (rd_int (FU LE 8)) (fun v d => n64 v /\ d = le_enc 8 v).
Proof. apply reads_int. cbn; lia. Qed.

Ltac dh_reads := match goal with
  | |- reads (rd_bind _ _) _ => eapply reads_bind; [dh_reads|intros ?; dh_reads]
  | |- reads (rd_int (FU LE 1)) _ => apply reads_n8
  | |- reads (rd_int (FU LE 4)) _ => apply reads_n32
  | |- reads (rd_int (FU LE 8)) _ => apply reads_n64
  | |- _ => reads_tac eauto
  end.

Lemma le_back n d : is_bytes d -> len d = Z.of_nat n -> le_enc n (le_int d) = d /\ 0 <= le_int d < 256 ^ Z.of_nat n.
Proof.
  intros H L. pose proof (le_int_bounds d H) as B. rewrite L in B. split; [|exact B]. replace n with (length d) by (unfold len in L; lia). apply le_enc_int. exact H.
Qed.

Lemma char_digit_cases c n : char_digit c = Some n -> (48 <= c <= 57 /\ n = c - 48) \/ (97 <= c <= 102 /\ n = c - 87).
Proof.
  unfold char_digit. destruct ((48 <=? c) && (c <=? 57)) eqn:C1; [|destruct ((97 <=? c) && (c <=? 102)) eqn:C2; [|discriminate]]; rewrite andb_true_iff, !Z.leb_le in *; intros E; [left|right]; (split; [lia|congruence]).
Qed.
Lemma char_digit_nonneg c n : char_digit c = Some n -> 0 <= n.
Proof. intros E. apply char_digit_cases in E. lia. Qed.
Lemma char_digit_inj c d n : char_digit c = Some n -> char_digit d = Some n -> c = d.
Proof. intros E F. apply char_digit_cases in E. apply char_digit_cases in F. lia. Qed.

Lemma parse_digits_inj s : forall t a b v, length s = length t -> parse_digits 16 s a = Some v -> parse_digits 16 t b = Some v -> a = b /\ s = t.
Proof.
  induction s as [|c s IH]; intros [|d t] a b v L E F; try discriminate; cbn [parse_digits] in E, F.
  - split; [congruence|reflexivity].
  - destruct (char_digit c) as [x|] eqn:Cx; [|discriminate]. destruct (char_digit d) as [y|] eqn:Cy; [|discriminate]. destruct (Z.ltb_spec x 16); [|discriminate]. destruct (Z.ltb_spec y 16); [|discriminate].
    assert (0 <= x /\ 0 <= y) as [Hx Hy] by (split; eapply char_digit_nonneg; eassumption).
    destruct (IH t _ _ _ ltac:(cbn [length] in L; lia) E F) as [Q ->]. assert (a = b /\ x = y) as [-> ->] by lia. split; [reflexivity|]. f_equal. eapply char_digit_inj; eassumption.
Qed.

Lemma hex_field_fun n v s t : 0 < n -> hex_field n v s -> hex_field n v t -> s = t.
Proof.
  intros Hn [L1 P1] [L2 P2]. unfold parse_nat in *. destruct s as [|c s]; [discriminate|]. destruct t as [|d t]; [discriminate|].
  eapply parse_digits_inj; [|exact P1|exact P2]. unfold len in *. lia.
Qed.

Lemma uuid_le_fun u s t : uuid_le u s -> uuid_le u t -> s = t.
Proof.
  intros (a & b & c & d & e & -> & La & Lb & Lc & Ld & Le & sa & sb & sc & sd & se & A & B & C & D & E & ->) (a' & b' & c' & d' & e' & Q & La' & Lb' & Lc' & Ld' & Le' & sa' & sb' & sc' & sd' & se' & A' & B' & C' & D' & E' & ->).
  assert (S : forall (x y z w : bytes), len x = len y -> x ++ z = y ++ w -> x = y /\ z = w) by (intros x y z w L; apply RpProofs.app_split; unfold len in L; lia).
  apply S in Q as [<- Q]; [|lia]. apply S in Q as [<- Q]; [|lia]. apply S in Q as [<- Q]; [|lia]. apply S in Q as [<- <-]; [|lia].
  rewrite (hex_field_fun 8 _ _ _ eq_refl A A'), (hex_field_fun 4 _ _ _ eq_refl B B'), (hex_field_fun 4 _ _ _ eq_refl C C'), (hex_field_fun 4 _ _ _ eq_refl D D'), (hex_field_fun 12 _ _ _ eq_refl E E'). reflexivity.
Qed.

Lemma dh_decode_iff type data v : is_bytes data -> (dh_decode type data = Some v <-> dh_data type v data).
Proof.
  intros Hb. unfold dh_decode.
  assert (In3 : In type [0; 5; 6] <-> (type =? 0) || (type =? 5) || (type =? 6) = true) by (rewrite !orb_true_iff, !Z.eqb_eq; cbn [In]; lia).
  destruct ((type =? 0) || (type =? 5) || (type =? 6)) eqn:T3.
  { assert (I : In type [0; 5; 6]) by (apply In3; reflexivity). split.
    - destruct (Z.eqb_spec (len data) 4) as [L|]; [|discriminate]. intros E. assert (v = DInt (le_int data)) as -> by congruence. destruct (le_back 4 data Hb L) as [Q B].
      rewrite <- Q at 2. apply dd_32; [exact I|exact B].
    - intros H. inversion H; subst; try (cbn [In] in I; lia). rewrite len_le_enc. cbn [Z.eqb Z.of_nat Pos.of_succ_nat Pos.succ Pos.eqb]. rewrite le_int_enc by assumption. reflexivity. }
  assert (NI : ~ In type [0; 5; 6]) by (intros I; apply In3 in I; discriminate).
  destruct (Z.eqb_spec type 8) as [->|N8].
  { split.
    - destruct (Z.eqb_spec (len data) 8) as [L|]; [|discriminate]. intros E. assert (v = DInt (le_int data)) as -> by congruence. destruct (le_back 8 data Hb L) as [Q B].
      rewrite <- Q at 2. apply dd_64. exact B.
    - intros H. inversion H; subst; try contradiction. rewrite len_le_enc. cbn [Z.eqb Z.of_nat Pos.of_succ_nat Pos.succ Pos.eqb]. rewrite le_int_enc by assumption. reflexivity. }
  destruct (Z.eqb_spec type 0xa) as [->|Na].
  { split.
    - destruct (Z.eqb_spec (len data) 8) as [L|]; [|discriminate]. intros E. assert (v = DTime (le_int data)) as -> by congruence. destruct (le_back 8 data Hb L) as [Q B].
      rewrite <- Q at 2. apply dd_time. exact B.
    - intros H. inversion H; subst; try contradiction. rewrite len_le_enc. cbn [Z.eqb Z.of_nat Pos.of_succ_nat Pos.succ Pos.eqb]. rewrite le_int_enc by assumption. reflexivity. }
  destruct (Z.eqb_spec type 0x15) as [->|Ns].
  { split.
    - destruct (wide_cut data) as [s|] eqn:W; [|discriminate]. cbn [option_map]. intros E. assert (v = DText s) as -> by congruence. apply dd_text. apply wide_cut_iff; assumption.
    - intros H. inversion H as [| | |s d N E1 E2 E3| |]; subst; try contradiction. apply wide_cut_iff in N; [|exact Hb]. rewrite N. reflexivity. }
  destruct (Z.eqb_spec type 0x1e) as [->|Ng].
  { split.
    - destruct (Z.eqb_spec (len data) 16) as [L|]; [|discriminate]. intros E. assert (v = DGuid (uuid_le_str data)) as -> by congruence. apply dd_guid; [exact L|]. apply uuid_le_text; assumption.
    - intros H. inversion H as [| | | |s d L U E1 E2 E3|]; subst; try contradiction. rewrite L. cbn [Z.eqb Pos.eqb]. do 2 f_equal. eapply uuid_le_fun; [apply uuid_le_text; assumption|exact U]. }
  destruct (Z.eqb_spec type 0x28) as [->|Nd].
  { split; [intros E; assert (v = DData data) as -> by congruence; constructor|]. intros H. inversion H; subst; try contradiction. reflexivity. }
  split; [discriminate|]. intros H. inversion H; subst; try contradiction; lia.
Qed.

Lemma dh_reads_value : reads rd_dh_value dh_bytes.
Proof.
  eapply reads_iff; [unfold rd_dh_value; dh_reads|]. intros v d Hd. unfold dh_bytes. split.
  - intros (size & x1 & r1 & [Hs ->] & (type & x2 & r2 & [Ht ->] & (data & x3 & r3 & [Ld ->] & (pad & x4 & r4 & [Lp ->] & [D ->] & ->) & ->) & ->) & ->).
    subst size. rewrite app_nil_r in *. exists type, data, pad, ((len data + (- len data) mod 8) / 8). split; [exact Ht|]. split; [exact Hs|].
    split; [apply dh_decode_iff; [|exact D]; do 2 apply Forall_app in Hd as [_ Hd]; apply Forall_app in Hd as [Hd _]; exact Hd|].
    pose proof (Z.mod_pos_bound (- len data) 8 ltac:(lia)). split; [lia|]. split; [|reflexivity]. rewrite Lp. apply Z_div_exact_full_2; [lia|].
    rewrite Zplus_mod_idemp_r. replace (len data + - len data) with 0 by lia. reflexivity.
  - intros (type & data & pad & k & Ht & Hs & D & Lp & Lk & ->). exists (len data), (le_enc 4 (len data)). eexists. split; [auto|]. split; [|reflexivity].
    exists type, (le_enc 4 type). eexists. split; [auto|]. split; [|reflexivity]. exists data, data. eexists. split; [auto|]. split; [|reflexivity].
    exists pad, pad, []. split; [split; [|reflexivity]|].
    + pose proof (len_nonneg pad). replace (- len data) with (len pad + (- k) * 8) by lia. rewrite Z.mod_add by lia. rewrite Z.mod_small by lia. reflexivity.
    + split; [|rewrite app_nil_r; reflexivity]. split; [|reflexivity]. apply dh_decode_iff; [|exact D]. do 2 apply Forall_app in Hd as [_ Hd]. apply Forall_app in Hd as [Hd _]. exact Hd.
Qed.

Lemma dh_pos v d : dh_bytes v d -> 0 < len d.
Proof. intros (t & data & pad & k & _ & _ & _ & _ & _ & ->). rewrite !len_app, !len_le_enc. pose proof (len_nonneg data). pose proof (len_nonneg pad). lia. Qed.

Lemma tt_reads_value : reads rd_tt_value tt_bytes.
Proof.
  assert (K : forall type, reads (if type =? 5 then rd z <- rd_int (FU LE 1); rd_ret (TInt z)
     else if type =? 3 then rd z <- rd_int (FU LE 4); rd_ret (TInt z)
     else if type =? 4 then rd z <- rd_int (FU LE 8); rd_ret (TInt z)
     else if type =? 6 then rd size <- rd_int (FU LE 4); rd d <- rd_bytes size; rd s <- rd_some (wide_cut d); rd_ret (TText s)
     else if type =? 7 then rd d <- rd_bytes 5; rd_ret (TData d)
     else rd_some None) (tt_data type)).
  { intros type. destruct (Z.eqb_spec type 5) as [->|N5].
    { eapply reads_iff; [dh_reads|]. intros v d Hd. split.
      - intros (z & x & y & [Hz ->] & [-> ->] & ->). constructor. exact Hz.
      - intros H. inversion H; subst. exists z, [z], []. auto. }
    destruct (Z.eqb_spec type 3) as [->|N3].
    { eapply reads_iff; [dh_reads|]. intros v d Hd. split.
      - intros (z & x & y & [Hz ->] & [-> ->] & ->). rewrite app_nil_r. constructor. exact Hz.
      - intros H. inversion H; subst. exists z, (le_enc 4 z), []. rewrite app_nil_r. auto. }
    destruct (Z.eqb_spec type 4) as [->|N4].
    { eapply reads_iff; [dh_reads|]. intros v d Hd. split.
      - intros (z & x & y & [Hz ->] & [-> ->] & ->). rewrite app_nil_r. constructor. exact Hz.
      - intros H. inversion H; subst. exists z, (le_enc 8 z), []. rewrite app_nil_r. auto. }
    destruct (Z.eqb_spec type 6) as [->|N6].
    { eapply reads_iff; [dh_reads|]. intros v d Hd. split.
      - intros (n & x & y & [Hn ->] & (w & x2 & y2 & [L ->] & (s & x3 & y3 & [C ->] & [-> ->] & ->) & ->) & ->). subst n. cbn [app] in *. rewrite app_nil_r in *. constructor; [exact Hn|].
        apply wide_cut_iff; [|exact C]. apply Forall_app in Hd as [_ Hd]. exact Hd.
      - intros H. inversion H as [| | |s w L N E1 E2 E3|]; subst. exists (len w), (le_enc 4 (len w)), w. split; [auto|]. split; [|reflexivity]. exists w, w, []. split; [auto|]. split; [|rewrite app_nil_r; reflexivity].
        exists s, [], []. split; [split; [|reflexivity]|auto]. apply wide_cut_iff; [|exact N]. apply Forall_app in Hd as [_ Hd]. exact Hd. }
    destruct (Z.eqb_spec type 7) as [->|N7].
    { eapply reads_iff; [dh_reads|]. intros v d Hd. split.
      - intros (z & x & y & [Hz ->] & [-> ->] & ->). rewrite app_nil_r. constructor. exact Hz.
      - intros H. inversion H; subst. exists d, d, []. rewrite app_nil_r. auto. }
    eapply reads_iff; [dh_reads|]. intros v d Hd. split; [intros [E _]; discriminate|]. intros H. inversion H; subst; contradiction. }
  eapply reads_iff; [unfold rd_tt_value; eapply reads_bind; [dh_reads|intros ks; eapply reads_bind; [dh_reads|intros kd; eapply reads_bind; [dh_reads|intros key; eapply reads_bind; [dh_reads|intros type; eapply reads_bind; [apply K|intros v; dh_reads]]]]]|].
  intros [key v] d Hd. unfold tt_bytes. cbn [fst snd]. split.
  - intros (ks & x1 & r1 & [Hk ->] & (kd & x2 & r2 & [Lk ->] & (k & x3 & r3 & [C ->] & (type & x4 & r4 & [Ht ->] & (v' & x5 & r5 & D & [E ->] & ->) & ->) & ->) & ->) & ->).
    assert (key = k /\ v = v') as [-> ->] by (split; congruence). subst ks. cbn [app] in *. rewrite app_nil_r in *. exists kd, type, x5. split; [exact Hk|]. split; [|auto].
    apply wide_cut_iff; [|exact C]. apply Forall_app in Hd as [_ Hd]. apply Forall_app in Hd as [Hd _]. exact Hd.
  - intros (kd & type & data & Hk & N & Ht & D & ->). exists (len kd), (le_enc 4 (len kd)). eexists. split; [auto|]. split; [|reflexivity]. exists kd, kd. eexists. split; [auto|]. split; [|reflexivity].
    exists key, []. eexists. split; [split; [|reflexivity]|].
    + apply wide_cut_iff; [|exact N]. apply Forall_app in Hd as [_ Hd]. apply Forall_app in Hd as [Hd _]. exact Hd.
    + split; [|reflexivity]. exists type, (le_enc 4 type). eexists. split; [auto|]. split; [|reflexivity]. exists v, data, []. split; [exact D|]. split; [auto|]. rewrite app_nil_r. reflexivity.
Qed.

Lemma tt_size v d : tt_bytes v d -> 9 <= len d.
Proof.
  intros (kd & type & data & _ & _ & _ & D & ->). rewrite !len_app, !len_le_enc. pose proof (len_nonneg kd). assert (1 <= len data); [|lia].
  destruct D; rewrite ?len_app, ?len_le_enc; try (unfold len; cbn [length]; lia); try lia.
Qed.

Lemma tt_iff data : is_bytes data -> forall fuel pos stop l, 0 <= pos -> len data < pos + Z.of_nat fuel ->
  (tt_values fuel data pos stop = Done (Ok l) <-> tt_stored data stop pos l).
Proof.
  intros Hb. induction fuel as [|fuel IH]; intros pos stop l Hp Hf; cbn [tt_values].
  - destruct (Z.ltb_spec pos stop).
    + split; [discriminate|]. intros H'. inversion H' as [|? v d l' Hl B S T]; subst; [lia|]. apply stored_at_inside in S. pose proof (tt_size _ _ B). lia.
    + split; [intros E; assert (l = []) by congruence; subst l; constructor; assumption|]. intros H'. inversion H'; subst; [reflexivity|lia].
  - destruct (Z.ltb_spec pos stop).
    2:{ split; [intros E; assert (l = []) by congruence; subst l; constructor; assumption|]. intros H'. inversion H'; subst; [reflexivity|lia]. }
    destruct (Z.leb_spec (len data) pos).
    { split; [discriminate|]. intros H'. inversion H' as [|? v d l' Hl B S T]; subst; [lia|]. apply stored_at_inside in S. pose proof (tt_size _ _ B). lia. }
    destruct (tt_reads_value data pos Hb ltac:(lia)) as [R1 R2]. split.
    + destruct (rd_tt_value data pos) as [[v p]|]; [|discriminate]. destruct (proj1 (R1 v p) eq_refl) as (d & B & S & ->). pose proof (tt_size _ _ B). destruct (tt_values fuel data (pos + len d) stop) as [[l'|]|] eqn:Q; cbn [rbind]; try discriminate.
      intros E. assert (l = v :: l') by congruence. subst l. econstructor; [assumption|exact B|exact S|]. apply IH in Q; [exact Q|lia|lia].
    + intros H'. inversion H' as [|? v d l' Hl B S T]; subst; [lia|]. rewrite (proj2 (R1 v (pos + len d))) by eauto. pose proof (tt_size _ _ B). apply IH in T; [|lia|lia]. rewrite T. reflexivity.
Qed.

Lemma tt_ends data : is_bytes data -> forall fuel pos stop, 0 <= pos -> Z.max 0 (len data - pos) < Z.of_nat fuel ->
  exists x, tt_values fuel data pos stop = Done x /\ (forall y, x = Err y -> y = ParseError \/ y = ValueError /\ len data < stop).
Proof.
  intros Hb. induction fuel as [|fuel IH]; intros pos stop Hp Hf; [lia|]. cbn [tt_values]. destruct (Z.ltb_spec pos stop); [|eexists; split; [reflexivity|discriminate]].
  destruct (Z.leb_spec (len data) pos); [eexists; split; [reflexivity|]; intros y E; right; split; [congruence|lia]|].
  destruct (tt_reads_value data pos Hb ltac:(lia)) as [R1 R2]. destruct (rd_tt_value data pos) as [[v p]|z]; [|eexists; split; [reflexivity|]; intros y E; left; apply R2; congruence].
  destruct (proj1 (R1 v p) eq_refl) as (d & B & S & ->). pose proof (tt_size _ _ B). destruct (IH (pos + len d) stop ltac:(lia) ltac:(lia)) as ([l|z] & -> & Hy); cbn [rbind]; eexists; (split; [reflexivity|]); [discriminate|].
  intros y E. apply Hy. congruence.
Qed.

(** Labels. *)
Lemma is_magic_iff v : is_magic v = true <-> magic_value v.
Proof.
  unfold is_magic, magic_value. destruct v as [z|z|s|s|d]; try (split; [discriminate|congruence]). rewrite list_eqb_eq. unfold dh_magic. split; [intros ->; reflexivity|congruence].
Qed.

Fixpoint count_magic (l : list dh_value) : Z := match l with [] => 0 | v :: l => (if is_magic v then 1 else 0) + count_magic l end.
Lemma count_nonneg l : 0 <= count_magic l.
Proof. induction l as [|v l IH]; cbn [count_magic]; [lia|]. destruct (is_magic v); lia. Qed.
Lemma magics_count l : magics l (count_magic l).
Proof.
  induction l as [|v l IH]; cbn [count_magic]; [constructor|]. destruct (is_magic v) eqn:M.
  - rewrite Z.add_comm. constructor; [apply is_magic_iff; exact M|exact IH].
  - rewrite Z.add_0_l. apply mg_no; [|exact IH]. intros H. apply is_magic_iff in H. congruence.
Qed.

Lemma labels_length l : forall set index, length (dh_labels set index l) = length l.
Proof. induction l as [|v l IH]; intros set index; cbn [dh_labels length]; [reflexivity|]. f_equal. apply IH. Qed.

Lemma labels_nth l : forall set index k, 0 <= set <= 2 -> (k < length l)%nat ->
  exists s i, nth_error (dh_labels set index l) k = Some (s, i) /\ s = Z.min 2 (set + count_magic (firstn (S k) l)) /\
    ((count_magic (firstn (S k) l) = 0 /\ i = index + Z.of_nat k) \/
     exists j v, (j <= k)%nat /\ nth_error l j = Some v /\ magic_value v /\ (forall n w, (j < n <= k)%nat -> nth_error l n = Some w -> ~ magic_value w) /\ i = Z.of_nat (k - j)).
Proof.
  induction l as [|v l IH]; intros set index k Hs Hk; [cbn [length] in Hk; lia|]. cbn [dh_labels].
  set (set' := if is_magic v then if set <? 2 then set + 1 else set else set). set (index' := if is_magic v then 0 else index).
  assert (Es : set' = Z.min 2 (set + (if is_magic v then 1 else 0))) by (subst set'; destruct (is_magic v); [destruct (Z.ltb_spec set 2)|]; lia).
  destruct k as [|k].
  - cbn [nth_error firstn count_magic]. exists set', index'. split; [reflexivity|]. rewrite Z.add_0_r. split; [exact Es|]. subst index'. destruct (is_magic v) eqn:M.
    + right. exists 0%nat, v. split; [lia|]. split; [reflexivity|]. split; [apply is_magic_iff; exact M|]. split; [intros n w Hn; lia|reflexivity].
    + left. split; [reflexivity|]. cbn. lia.
  - assert (Hs' : 0 <= set' <= 2) by (rewrite Es; destruct (is_magic v); lia).
    cbn [nth_error]. destruct (IH set' (index' + 1) k Hs' ltac:(cbn [length] in Hk; lia)) as (s & i & N & E & H). exists s, i. split; [exact N|].
    change (firstn (S (S k)) (v :: l)) with (v :: firstn (S k) l). cbn [count_magic]. pose proof (count_nonneg (firstn (S k) l)). split; [rewrite E, Es; destruct (is_magic v); lia|].
    destruct H as [[C I]|(j & w & Hj & Nj & Mj & Aj & I)].
    + rewrite C. destruct (is_magic v) eqn:M.
      * right. exists 0%nat, v. split; [lia|]. split; [reflexivity|]. split; [apply is_magic_iff; exact M|]. split; [|subst index'; lia].
        intros n w Hn. destruct n as [|n]; [lia|]. cbn [nth_error]. intros Nn Mw. assert (Iw : In w (firstn (S k) l)).
        { rewrite <- (firstn_skipn (S k) l) in Nn. rewrite nth_error_app1 in Nn by (rewrite firstn_length; cbn [length] in Hk; lia). eapply nth_error_In; exact Nn. }
        assert (G : forall l, In w l -> count_magic l <> 0).
        { intros l0. induction l0 as [|x l0 IH0]; intros I0; [contradiction|]. cbn [count_magic]. pose proof (count_nonneg l0). destruct I0 as [<-|I0]; [apply is_magic_iff in Mw; rewrite Mw; lia|]. specialize (IH0 I0). destruct (is_magic x); lia. }
        exact (G _ Iw C).
      * left. split; [reflexivity|]. subst index'. lia.
    + right. exists (S j), w. split; [lia|]. split; [exact Nj|]. split; [exact Mj|]. split; [|rewrite I; f_equal; lia]. intros n x Hn. destruct n as [|n]; [lia|]. cbn [nth_error]. apply Aj. lia.
Qed.

(** Threat tracking data. *)
Ltac fa_out := repeat match goal with H : Forall _ (_ :: _) |- _ => apply Forall_cons_iff in H as [? H] end.
Lemma reads_header : reads rd_tt_header (fun h d => exists version values_size unknown, Forall n32 [version; fst h; values_size; snd h; unknown] /\
  d = le_enc 4 version ++ le_enc 4 (fst h) ++ le_enc 4 values_size ++ le_enc 4 (snd h) ++ le_enc 4 unknown).
Proof.
  unfold rd_tt_header. eapply reads_iff; [dh_reads|]. intros [h t] d _. cbn [fst snd]. split.
  - intros H. rel_out. match goal with H : _ = (_, _) |- _ => injection H as -> -> | H : (_, _) = _ |- _ => injection H as -> -> | _ => idtac end. eexists _, _, _. split; [|rewrite ?app_nil_r; reflexivity]. repeat (constructor; [eassumption|]); constructor.
  - intros (v & vs & u & F & ->).
    fa_out. rel_in. all: try match goal with |- (_, _) = (_, _) => reflexivity end. all: try match goal with |- ?x = ?y => is_evar x; reflexivity | |- ?x = ?y => is_evar y; reflexivity end. all: rewrite ?app_nil_r; try reflexivity; assumption.
Qed.

Lemma tt_stored_pos data stop pos l : tt_stored data stop pos l -> 0 <= pos -> l <> [] -> pos < stop.
Proof. intros [? H|] _ N; [contradiction|assumption]. Qed.

Lemma read_tt_iff data fuel l : is_bytes data -> len data < Z.of_nat fuel -> (read_tt fuel data = Done (Ok l) <-> tt_file l data).
Proof.
  intros Hb Hf. pose proof (len_nonneg data). unfold tt_file. destruct data as [|c data'] eqn:Ed.
  { cbn [read_tt]. split; [discriminate|]. intros [(size & rest & _ & _ & E & _)|(? & ? & ? & ? & rest & _ & E & _)]; apply (f_equal len) in E; rewrite !len_app, !len_le_enc in E; pose proof (len_nonneg rest); change (len []) with 0 in E; lia. }
  rewrite <- Ed in *. assert (R : read_tt fuel data = rdo size <- Done (rd_data (rd_int (FU LE 4)) data); if negb (size =? 1) then tt_values fuel data 4 size else rdo h <- Done (rd_data rd_tt_header data); tt_values fuel data (fst h + 4) (snd h)) by (rewrite Ed; reflexivity).
  rewrite R. clear R Ed c data'. split.
  - destruct (rd_data (rd_int (FU LE 4)) data) as [size|z] eqn:Es; cbn [rbind]; [|discriminate]. apply (rd_data_iff _ _ _ _ reads_n32 Hb) in Es as (d & rest & [Hs ->] & Ed).
    destruct (Z.eqb_spec size 1) as [->|Ns]; cbn [negb].
    + destruct (rd_data rd_tt_header data) as [[h t]|z] eqn:Eh; cbn [rbind]; [|discriminate]. apply (rd_data_iff _ _ _ _ reads_header Hb) in Eh as (d & rest' & (v & vs & u & F & ->) & Ed'). cbn [fst snd] in *.
      fa_out. intros T. apply tt_iff in T; [|exact Hb|unfold n32 in *; lia|unfold n32 in *; lia].
      right. exists h, vs, t, u, rest'. split; [repeat (constructor; [assumption|]); constructor|]. split; [|exact T]. rewrite Ed' at 1. rewrite Ed in Ed'. rewrite <- !app_assoc in Ed'. apply app_split in Ed' as [E1 _]; [|reflexivity]. rewrite E1, <- !app_assoc. reflexivity.
    + intros T. apply tt_iff in T; [|exact Hb|lia|lia]. left. exists size, rest. split; [exact Hs|]. split; [exact Ns|]. split; [exact Ed|exact T].
  - intros [(size & rest & Hs & Ns & Ed & T)|(h & vs & t & u & rest & F & Ed & T)].
    + rewrite (proj2 (rd_data_iff _ _ _ size reads_n32 Hb)) by (exists (le_enc 4 size), rest; auto). cbn [rbind]. destruct (Z.eqb_spec size 1); [contradiction|]. cbn [negb]. apply tt_iff; [exact Hb|lia|lia|exact T].
    + rewrite (proj2 (rd_data_iff _ _ _ 1 reads_n32 Hb)) by (eexists _, _; split; [split; [unfold n32; lia|reflexivity]|exact Ed]). cbn [rbind negb Z.eqb Pos.eqb].
      rewrite (proj2 (rd_data_iff _ _ _ (h, t) reads_header Hb)).
      2: { eexists _, rest. split; [exists 1, vs, u; split; [constructor; [unfold n32; lia|exact F]|reflexivity]|]. cbn [fst snd]. rewrite Ed, <- !app_assoc. reflexivity. }
      cbn [rbind fst snd]. fa_out. apply tt_iff; [exact Hb|unfold n32 in *; lia|unfold n32 in *; lia|exact T].
Qed.

Lemma read_tt_ends data fuel : is_bytes data -> len data < Z.of_nat fuel -> exists x, read_tt fuel data = Done x /\ (forall y, x = Err y -> y = ParseError \/ y = ValueError).
Proof.
  intros Hb Hf. pose proof (len_nonneg data). destruct data as [|c data'] eqn:Ed; [eexists; split; [reflexivity|]; intros y E; right; congruence|].
  rewrite <- Ed in *. assert (R : read_tt fuel data = rdo size <- Done (rd_data (rd_int (FU LE 4)) data); if negb (size =? 1) then tt_values fuel data 4 size else rdo h <- Done (rd_data rd_tt_header data); tt_values fuel data (fst h + 4) (snd h)) by (rewrite Ed; reflexivity).
  rewrite R. clear R Ed c data'. destruct (rd_data (rd_int (FU LE 4)) data) as [size|z] eqn:Es; cbn [rbind].
  2: { eexists; split; [reflexivity|]. intros y E. left. apply (rd_data_errors _ _ _ _ reads_n32 Hb Es) || (assert (y = z) as -> by congruence; exact (rd_data_errors _ _ _ _ reads_n32 Hb Es)). }
  assert (G : forall pos stop, 0 <= pos -> exists x, tt_values fuel data pos stop = Done x /\ (forall y, x = Err y -> y = ParseError \/ y = ValueError)).
  { intros pos stop Hp. destruct (tt_ends data Hb fuel pos stop Hp ltac:(lia)) as (x & E & Hx). exists x. split; [exact E|]. intros y Ey. destruct (Hx y Ey) as [|[]]; auto. }
  destruct (size =? 1); cbn [negb]; [|apply G; lia]. destruct (rd_data rd_tt_header data) as [[h t]|z] eqn:Eh; cbn [rbind].
  - apply (rd_data_iff _ _ _ _ reads_header Hb) in Eh as (d & rest' & (v & vs & u & F & ->) & Ed'). cbn [fst snd] in *. fa_out. apply G. unfold n32 in *. lia.
  - eexists; split; [reflexivity|]. intros y E. left. assert (y = z) as -> by congruence. exact (rd_data_errors _ _ _ _ reads_header Hb Eh).
Qed.

Lemma tt_values_run data l ds : Forall2 tt_bytes l ds -> forall fuel pos stop, is_bytes data -> stored_at data pos (concat ds) -> 0 <= pos -> len data < pos + Z.of_nat fuel -> pos + len (concat ds) <= stop ->
  (fuel >= length l)%nat /\ tt_values fuel data pos stop = rdo m <- tt_values (fuel - length l) data (pos + len (concat ds)) stop; Done (Ok (l ++ m)).
Proof.
  induction 1 as [|v d l ds B F IH]; intros fuel pos stop Hb S Hp Hf Hs.
  - split; [cbn [length]; lia|]. cbn [concat length app]. change (len []) with 0. rewrite Z.add_0_r, Nat.sub_0_r. destruct (tt_values fuel data pos stop) as [[m|z]|]; reflexivity.
  - cbn [concat] in *. rewrite len_app in *. pose proof (tt_size _ _ B). pose proof (len_nonneg (concat ds)). pose proof (stored_at_inside _ _ _ S) as In_. rewrite len_app in In_. apply stored_at_app in S as [S1 S2].
    destruct fuel as [|fuel]; [lia|]. destruct (IH fuel (pos + len d) stop Hb S2 ltac:(lia) ltac:(lia) ltac:(lia)) as [Hl E].
    split; [cbn [length]; lia|]. cbn [tt_values length Nat.sub]. destruct (Z.ltb_spec pos stop); [|lia]. destruct (Z.leb_spec (len data) pos); [lia|].
    rewrite (proj2 (proj1 (tt_reads_value data pos Hb ltac:(lia)) v (pos + len d))) by (exists d; auto). rewrite E, <- Z.add_assoc.
    destruct (tt_values (fuel - length l) data (pos + (len d + len (concat ds))) stop) as [[m|z]|]; reflexivity.
Qed.

Lemma read_tt_sized size t fuel : n32 size -> size <> 1 -> is_bytes t -> read_tt fuel (le_enc 4 size ++ t) = tt_values fuel (le_enc 4 size ++ t) 4 size.
Proof.
  intros Hs Ns Ht. assert (Hb : is_bytes (le_enc 4 size ++ t)) by (apply is_bytes_app; split; [apply le_enc_bytes|exact Ht]).
  assert (E : rd_data (rd_int (FU LE 4)) (le_enc 4 size ++ t) = Ok size) by (apply (rd_data_iff _ _ _ _ reads_n32 Hb); exists (le_enc 4 size), t; auto).
  unfold read_tt. rewrite E. cbn [rbind]. destruct (Z.eqb_spec size 1); [contradiction|]. reflexivity.
Qed.

Lemma read_tt_size l v ds d size rest fuel : is_bytes (concat ds ++ d ++ rest) -> Forall2 tt_bytes l ds -> tt_bytes v d ->
  4 + len (concat ds) < size <= 4 + len (concat ds) + len d -> size < 2 ^ 32 -> 4 + len (concat ds ++ d ++ rest) < Z.of_nat fuel ->
  read_tt fuel (le_enc 4 size ++ concat ds ++ d ++ rest) = Done (Ok (l ++ [v])).
Proof.
  intros Hb F B Hs Hs' Hf. pose proof (len_nonneg (concat ds)). rewrite read_tt_sized; [|unfold n32; lia|lia|exact Hb].
  set (data := le_enc 4 size ++ concat ds ++ d ++ rest). assert (Hd : is_bytes data) by (apply is_bytes_app; split; [apply le_enc_bytes|exact Hb]).
  assert (Ld : len data = 4 + len (concat ds ++ d ++ rest)) by (unfold data; rewrite len_app, len_le_enc; reflexivity).
  assert (S : stored_at data 4 (concat ds ++ d)) by (exists (le_enc 4 size), rest; split; [unfold data; rewrite <- !app_assoc; reflexivity|apply len_le_enc]).
  apply stored_at_app in S as [S1 S2]. apply tt_iff; [exact Hd|lia|lia|].
  clearbody data. assert (G : forall l ds pos, Forall2 tt_bytes l ds -> stored_at data pos (concat ds) -> stored_at data (pos + len (concat ds)) d -> pos + len (concat ds) < size <= pos + len (concat ds) + len d -> tt_stored data size pos (l ++ [v])).
  { clear - B. intros l ds pos F. revert pos. induction F as [|w e l ds W F IH]; intros pos S1 S2 Hs; cbn [concat app] in *.
    - change (len []) with 0 in *. rewrite Z.add_0_r in *. eapply ts_value; [lia|exact B|exact S2|]. apply ts_end. lia.
    - rewrite len_app in *. pose proof (len_nonneg e). pose proof (len_nonneg (concat ds)). apply stored_at_app in S1 as [Sa Sb]. rewrite Z.add_assoc in *. eapply ts_value; [lia|exact W|exact Sa|]. apply IH; [exact Sb|exact S2|lia]. }
  eapply G; [exact F|exact S1|exact S2|lia].
Qed.

Lemma read_tt_short fuel l ds size : is_bytes (concat ds) -> Forall2 tt_bytes l ds -> 4 + len (concat ds) < size < 2 ^ 32 -> 4 + len (concat ds) < Z.of_nat fuel ->
  read_tt fuel (le_enc 4 size ++ concat ds) = Done (Err ValueError).
Proof.
  intros Hb F Hs Hf. pose proof (len_nonneg (concat ds)). rewrite read_tt_sized; [|unfold n32; lia|lia|exact Hb].
  set (data := le_enc 4 size ++ concat ds). assert (Hd : is_bytes data) by (apply is_bytes_app; split; [apply le_enc_bytes|exact Hb]).
  assert (Ld : len data = 4 + len (concat ds)) by (unfold data; rewrite len_app, len_le_enc; reflexivity).
  assert (S : stored_at data 4 (concat ds)) by (exists (le_enc 4 size), []; split; [unfold data; rewrite app_nil_r; reflexivity|apply len_le_enc]).
  destruct (tt_values_run data l ds F fuel 4 size Hd S ltac:(lia) ltac:(lia) ltac:(lia)) as [Hl E]. rewrite E. clear E.
  assert (Hn : (length l < fuel)%nat).
  { enough (9 * Z.of_nat (length l) <= len (concat ds)) by lia. clear - F. induction F as [|v d l ds B F IH]; cbn [concat length]; [change (len []) with 0; lia|]. rewrite len_app. pose proof (tt_size _ _ B). lia. }
  destruct (fuel - length l)%nat as [|k] eqn:Ek; [lia|]. cbn [tt_values]. destruct (Z.ltb_spec (4 + len (concat ds)) size); [|lia]. destruct (Z.leb_spec (len data) (4 + len (concat ds))); [reflexivity|lia].
Qed.

(** Proofs about the output of the LevelDB and IndexedDB scripts. *)

From Verif Require Import Base BaseFacts CoreModel CoreProofs VarModel VarFacts SeqModel SeqSpec SeqFacts StrModel StrFacts DictModel LdbModel LdbProofs LdbTableProofs TextProofs NkaProofs KcProofs SpvProofs LdsModel LdsSpec.

Lemma repr_body_prefix q : q = 34 \/ q = 39 -> forall a b x y, is_bytes a -> is_bytes b ->
  concat (map (repr_char q) a) ++ q :: x = concat (map (repr_char q) b) ++ q :: y -> a = b /\ x = y.
Proof.
  intros Hq. induction a as [|c a IH]; intros [|d b] x y Ha Hb E; cbn [map concat] in E.
  - cbn [app] in E. assert (E2 := f_equal (@tl Z) E). cbn [tl] in E2. auto.
  - exfalso. cbn [app] in E. symmetry in E. rewrite <- app_assoc in E. eapply repr_head; [exact Hq|eapply Forall_inv; exact Hb|exact E].
  - exfalso. cbn [app] in E. rewrite <- app_assoc in E. eapply repr_head; [exact Hq|eapply Forall_inv; exact Ha|exact E].
  - rewrite <- !app_assoc in E.
    assert (c = d) as ->.
    { apply (repr_prefix_free q); [exact Hq|eapply Forall_inv; exact Ha|eapply Forall_inv; exact Hb|]. eapply compat_app; exact E. }
    apply app_inv_head in E. destruct (IH b x y) as (-> & ->); [eapply Forall_inv_tail; exact Ha|eapply Forall_inv_tail; exact Hb|exact E|]. auto.
Qed.

Lemma repr_prefix a b x y : is_bytes a -> is_bytes b -> bytes_repr a ++ x = bytes_repr b ++ y -> a = b /\ x = y.
Proof.
  intros Ha Hb. unfold bytes_repr. set (qa := if _ && _ then 34 else 39). set (qb := if has_char 39 b && _ then 34 else 39).
  assert (Hq : qa = 34 \/ qa = 39) by (unfold qa; destruct (_ && _); auto). clearbody qa qb.
  cbn [app]. intros E. assert (Eq : qa = qb) by congruence. subst qb. assert (E2 := f_equal (@tl Z) E). cbn [tl] in E2.
  rewrite <- !app_assoc in E2. cbn [app] in E2. exact (repr_body_prefix qa Hq a b x y Ha Hb E2).
Qed.

Lemma repr_no_break a : is_bytes a -> ~ In 10 (bytes_repr a).
Proof.
  intros Ha. unfold bytes_repr. set (q := if _ && _ then 34 else 39). assert (Hq : q = 34 \/ q = 39) by (unfold q; destruct (_ && _); auto). clearbody q.
  assert (C : forall c, is_byte c -> ~ In 10 (repr_char q c)).
  { intros c Hc I. assert (T : negb (existsb (Z.eqb 10) (repr_char q c)) = true).
    { apply (byte_forall (fun c => negb (existsb (Z.eqb 10) (repr_char q c)))); [|exact Hc]. destruct Hq; subst q; vm_compute; reflexivity. }
    apply negb_true_iff in T. assert (existsb (Z.eqb 10) (repr_char q c) = true) by (apply existsb_exists; exists 10; split; [exact I|reflexivity]). congruence. }
  intros I. apply in_app_or in I as [[I|[]]|I]; [lia|]. apply in_app_or in I as [I|[I|[]]]; [|lia].
  apply in_concat in I as (s & I & J). apply in_map_iff in I as (c & <- & I). unfold is_bytes in Ha. rewrite Forall_forall in Ha. exact (C c (Ha c I) J).
Qed.

Lemma fmt_d_no n c : c <> 45 -> ~ is_digit_char c -> ~ In c (fmt_d n).
Proof. unfold fmt_d. apply fmt_int_not_in. lia. Qed.

Lemma not_digit c : c < 48 \/ 57 < c < 97 \/ 102 < c -> ~ is_digit_char c.
Proof. unfold is_digit_char. lia. Qed.

Lemma type_inj a b : type_text a = type_text b -> same_type a b.
Proof.
  unfold type_text, same_type. destruct (Z.eqb_spec a 0), (Z.eqb_spec a 1), (Z.eqb_spec b 0), (Z.eqb_spec b 1); subst; try lia; try discriminate; intros _; auto; right; lia.
Qed.

Lemma type_plain a : ~ In 32 (type_text a) /\ ~ In 10 (type_text a).
Proof.
  unfold type_text. destruct (a =? 0); [|destruct (a =? 1)]; cbn; split; intros H; repeat (destruct H as [H|H]; [discriminate|]); exact H.
Qed.

(** What follows the key. *)
Definition line_rest (seq t : Z) (v : bytes) : str := s2z " @ "%string ++ fmt_d seq ++ s2z " : "%string ++ type_text t ++ s2z " => "%string ++ bytes_repr v ++ [10].

Lemma rest_inj s t v s' t' v' x y : is_bytes v -> is_bytes v' -> 0 <= s -> 0 <= s' ->
  line_rest s t v ++ x = line_rest s' t' v' ++ y -> s = s' /\ same_type t t' /\ v = v' /\ x = y.
Proof.
  intros V V' S S' E. unfold line_rest in E. rewrite <- !app_assoc in E. apply app_inv_head in E.
  change (s2z " : "%string) with (32 :: [58; 32]) in E. cbn [app] in E. apply cut in E as (E1 & E); [|apply fmt_d_no; [lia|apply not_digit; lia]|apply fmt_d_no; [lia|apply not_digit; lia]].
  apply fmt_d_inj in E1; [|assumption|assumption]. assert (E2 := f_equal (@tl Z) E). cbn [tl] in E2. assert (E3 := f_equal (@tl Z) E2). cbn [tl] in E3.
  change (s2z " => "%string) with (32 :: [61; 62; 32]) in E3. cbn [app] in E3. apply cut in E3 as (E4 & E3); [|apply type_plain|apply type_plain].
  assert (E5 := f_equal (zskipn 3) E3). cbn in E5. apply repr_prefix in E5 as (-> & E6); [|assumption|assumption]. assert (E7 := f_equal (@tl Z) E6). cbn [tl] in E7.
  auto using type_inj.
Qed.

Lemma rest_line s t v : is_bytes v -> exists l, line_rest s t v = l ++ [10] /\ ~ In 10 l.
Proof.
  intros V. exists (s2z " @ "%string ++ fmt_d s ++ s2z " : "%string ++ type_text t ++ s2z " => "%string ++ bytes_repr v). split; [unfold line_rest; rewrite <- !app_assoc; reflexivity|].
  intros I. rewrite !in_app_iff in I. destruct I as [I|[I|[I|[I|[I|I]]]]]; try (cbn in I; repeat (destruct I as [I|I]; [discriminate|]); exact I).
  - revert I. apply fmt_d_no; [lia|apply not_digit; lia].
  - revert I. apply type_plain.
  - revert I. apply repr_no_break. exact V.
Qed.

Lemma entries_inj : forall l l', Forall entry_ok l -> Forall entry_ok l' -> concat (map entry_line l) = concat (map entry_line l') -> Forall2 same_entry l l'.
Proof.
  assert (N : forall e, entry_line e = bytes_repr (te_key e) ++ line_rest (te_seq e) (te_type e) (te_value e)) by reflexivity.
  induction l as [|e l IH]; intros [|e' l'] F F' E; cbn [map concat] in E.
  - constructor.
  - exfalso. rewrite N in E. unfold bytes_repr in E. discriminate.
  - exfalso. rewrite N in E. unfold bytes_repr in E. discriminate.
  - inversion F as [|? ? (K & V & S) F1]; subst. inversion F' as [|? ? (K' & V' & S') F1']; subst. rewrite !N, <- !app_assoc in E.
    apply repr_prefix in E as (Ek & E); [|assumption|assumption]. apply rest_inj in E as (E1 & E2 & E3 & E); [|assumption..].
    constructor; [repeat split; assumption|]. apply IH; assumption.
Qed.

(** ** IndexedDB *)

(** The segments of a key: numbers, and the rest of the key. *)
Definition segments_ok (l : list str) : Prop :=
  exists ns r, l = map fmt_d ns ++ r /\ (length ns = 3 \/ length ns = 4)%nat /\ Forall (fun n => 0 <= n) ns /\ (r = [] \/ exists b, is_bytes b /\ r = [bytes_repr b]).

Lemma read_id_nonneg : forall n data r s a v k, is_bytes data -> 0 <= a -> 0 <= s -> read_id n data r s a = Ok (v, k) -> 0 <= v.
Proof.
  induction n as [|n IH]; intros data r s a v k B A S E; cbn [read_id] in E; [congruence|].
  destruct (pyindex data r) as [b|] eqn:P; [|discriminate]. cbn [bind] in E.
  assert (Hb : is_byte b).
  { apply pyindex_in in P. unfold is_bytes in B. rewrite Forall_forall in B. apply B. exact P. }
  eapply IH; [exact B| | |exact E]; [|lia]. unfold is_byte in Hb. apply Z.lor_nonneg. split; [exact A|]. apply Z.shiftl_nonneg. lia.
Qed.

Lemma segments_of k l : is_bytes k -> key_segments k = Ok l -> segments_ok l.
Proof.
  intros B E. unfold key_segments, read_key_prefix in E.
  destruct (pyindex k 0) as [b|] eqn:P; [|discriminate]. cbn [bind] in E.
  destruct (read_id _ k 1 0 0) as [[d n1]|] eqn:R1; [|discriminate]. cbn [bind] in E.
  destruct (read_id _ k n1 0 0) as [[o n2]|] eqn:R2; [|discriminate]. cbn [bind] in E.
  destruct (read_id _ k n2 0 0) as [[i n3]|] eqn:R3; [|discriminate]. cbn [bind] in E.
  assert (D : 0 <= d) by (eapply read_id_nonneg; [exact B| | |exact R1]; lia). assert (O : 0 <= o) by (eapply read_id_nonneg; [exact B| | |exact R2]; lia).
  assert (I : 0 <= i) by (eapply read_id_nonneg; [exact B| | |exact R3]; lia).
  assert (T : forall n, (if n <? len k then [bytes_repr (pyslice_from k n)] else []) = [] \/ exists b, is_bytes b /\ (if n <? len k then [bytes_repr (pyslice_from k n)] else []) = [bytes_repr b]).
  { intros n. destruct (n <? len k); [|auto]. right. eexists. split; [|reflexivity]. apply is_bytes_pyslice_from. exact B. }
  destruct ((d =? 0) && (o =? 0) && (i =? 0)).
  - destruct (pyindex k n3) as [m|] eqn:Pm; [|discriminate]. cbn [bind] in E.
    assert (M : 0 <= m) by (apply pyindex_in in Pm; unfold is_bytes in B; rewrite Forall_forall in B; specialize (B m Pm); unfold is_byte in B; lia).
    exists [d; o; i; m], (if n3 + 1 <? len k then [bytes_repr (pyslice_from k (n3 + 1))] else []). split; [|split; [cbn; lia|split; [auto|apply T]]].
    destruct (n3 + 1 <? len k); cbn in E |- *; congruence.
  - cbn [bind] in E. exists [d; o; i], (if n3 <? len k then [bytes_repr (pyslice_from k n3)] else []). split; [|split; [cbn; lia|split; [auto|apply T]]].
    destruct (n3 <? len k); cbn in E |- *; congruence.
Qed.

Lemma span (a b : list Z) c d x y : Forall is_digit_char a -> Forall is_digit_char b -> ~ is_digit_char c -> ~ is_digit_char d -> a ++ c :: x = b ++ d :: y -> a = b /\ c = d /\ x = y.
Proof.
  intros A. revert b. induction A as [|u a U A IH]; intros b B C D E; destruct B as [|v b V B]; cbn [app] in E.
  - assert (c = d) by congruence. assert (E2 := f_equal (@tl Z) E). auto.
  - exfalso. apply C. assert (c = v) as -> by congruence. exact V.
  - exfalso. apply D. assert (u = d) as <- by congruence. exact U.
  - assert (u = v) as -> by congruence. assert (E2 := f_equal (@tl Z) E). cbn [tl] in E2. destruct (IH b B C D E2) as (-> & -> & ->). auto.
Qed.

Definition comma : str := s2z ", "%string.

Lemma join_tail (a : str) l x : join comma (a :: l) ++ 62 :: x = a ++ match l with [] => 62 :: x | _ => 44 :: 32 :: join comma l ++ 62 :: x end.
Proof. destruct l as [|b l]; [reflexivity|]. change (join comma (a :: b :: l)) with (a ++ comma ++ join comma (b :: l)). rewrite <- !app_assoc. reflexivity. Qed.

Lemma join_inj : forall ns ns' r r' x x', Forall (fun n => 0 <= n) ns -> Forall (fun n => 0 <= n) ns' ->
  (r = [] \/ exists b, is_bytes b /\ r = [bytes_repr b]) -> (r' = [] \/ exists b, is_bytes b /\ r' = [bytes_repr b]) -> map fmt_d ns ++ r <> [] -> map fmt_d ns' ++ r' <> [] ->
  join comma (map fmt_d ns ++ r) ++ 62 :: x = join comma (map fmt_d ns' ++ r') ++ 62 :: x' -> map fmt_d ns ++ r = map fmt_d ns' ++ r' /\ x = x'.
Proof.
  assert (DG : forall n, 0 <= n -> Forall is_digit_char (fmt_d n)) by (intros n H; unfold fmt_d; apply fmt_int_nonneg_chars; lia).
  assert (H0 : forall n b (l : list str) x y, 0 <= n -> is_bytes b -> fmt_d n ++ x = bytes_repr b ++ y -> False).
  { intros n b l x y H B E. pose proof (DG n H) as F. destruct (fmt_d n) as [|c f] eqn:Ef; [revert Ef; unfold fmt_d; apply fmt_int_nonempty; lia|]. inversion F as [|? ? C _]; subst.
    unfold bytes_repr in E. set (q := if _ && _ then 34 else 39) in E. assert (Hq : q = 34 \/ q = 39) by (unfold q; destruct (_ && _); auto). clearbody q. cbn [app] in E. assert (c = q) by congruence.
    unfold is_digit_char in C. lia. }
  induction ns as [|n ns IH]; intros ns' r r' x x' F F' R R' N N' E.
  - cbn [map app] in N, E |- *. destruct R as [->|(b & B & ->)]; [contradiction|]. destruct ns' as [|n' ns'].
    + cbn [map app] in N', E |- *. destruct R' as [->|(b' & B' & ->)]; [contradiction|]. cbn [join] in E. apply repr_prefix in E as (-> & E); [|assumption|assumption].
      assert (E2 := f_equal (@tl Z) E). auto.
    + exfalso. cbn [map app] in E. rewrite (join_tail (fmt_d n')) in E. cbn [join] in E. symmetry in E. inversion F'; subst. eapply (H0 n' b []); [| |exact E]; assumption.
  - inversion F as [|? ? Hn F1]; subst. cbn [map app] in E |- *. rewrite (join_tail (fmt_d n)) in E. destruct ns' as [|n' ns'].
    + exfalso. cbn [map app] in N', E. destruct R' as [->|(b' & B' & ->)]; [contradiction|]. cbn [join] in E. eapply (H0 n b' []); [| |exact E]; assumption.
    + inversion F' as [|? ? Hn' F1']; subst. cbn [map app] in E |- *. rewrite (join_tail (fmt_d n')) in E.
      assert (N44 : ~ is_digit_char 44) by (apply not_digit; lia). assert (N62 : ~ is_digit_char 62) by (apply not_digit; lia).
      destruct (map fmt_d ns ++ r) as [|s l] eqn:L; destruct (map fmt_d ns' ++ r') as [|s' l'] eqn:L'.
      * apply span in E as (-> & _ & ->); auto.
      * apply span in E as (_ & E & _); auto. discriminate.
      * apply span in E as (_ & E & _); auto. discriminate.
      * apply span in E as (-> & _ & E); auto. assert (E2 := f_equal (@tl Z) E). cbn [tl] in E2. rewrite <- L, <- L' in E2 |- *.
        destruct (IH ns' r r' x x' F1 F1' R R') as (-> & ->); [rewrite L; discriminate|rewrite L'; discriminate|exact E2|]. auto.
Qed.

Lemma segments_join l l' x y : segments_ok l -> segments_ok l' -> join comma l ++ 62 :: x = join comma l' ++ 62 :: y -> l = l' /\ x = y.
Proof.
  intros (ns & r & -> & L & F & R) (ns' & r' & -> & L' & F' & R') E. apply join_inj in E; auto; destruct ns; destruct ns'; cbn in *; try discriminate; lia.
Qed.

Lemma segments_no_break l : segments_ok l -> ~ In 10 (join comma l).
Proof.
  intros (ns & r & -> & _ & _ & R). assert (F : Forall (fun s : str => ~ In 10 s) (map fmt_d ns ++ r)).
  { apply Forall_app. split; [apply Forall_map, Forall_forall; intros n _; apply fmt_d_no; [lia|apply not_digit; lia]|]. destruct R as [->|(b & B & ->)]; [constructor|]. constructor; [apply repr_no_break; exact B|constructor]. }
  induction F as [|s l S F IH]; [intros []|]. destruct l as [|t l]; [exact S|]. change (join comma (s :: t :: l)) with (s ++ comma ++ join comma (t :: l)).
  intros I. apply in_app_or in I as [I|I]; [exact (S I)|]. apply in_app_or in I as [[I|[I|[]]]|I]; [discriminate..|exact (IH I)].
Qed.

Lemma ientries_inj : forall l l', Forall ientry_ok l -> Forall ientry_ok l' -> concat (map ientry_line l) = concat (map ientry_line l') -> Forall2 same_ientry l l'.
Proof.
  assert (N : forall e, ientry_line e = [60; 60] ++ join comma (ie_segments e) ++ 62 :: 62 :: line_rest (ie_seq e) (ie_type e) (ie_value e)) by reflexivity.
  induction l as [|e l IH]; intros [|e' l'] F F' E; cbn [map concat] in E.
  - constructor.
  - exfalso. rewrite N in E. discriminate.
  - exfalso. rewrite N in E. discriminate.
  - inversion F as [|? ? ((k & K & Ek) & V & S) F1]; subst. inversion F' as [|? ? ((k' & K' & Ek') & V' & S') F1']; subst. rewrite !N, <- !app_assoc in E.
    apply app_inv_head in E. cbn [app] in E. apply segments_join in E as (Es & E); [|exact (segments_of _ _ K Ek)|exact (segments_of _ _ K' Ek')].
    assert (E0 := f_equal (@tl Z) E). cbn [tl] in E0. apply rest_inj in E0 as (E1 & E2 & E3 & E4); [|assumption..].
    constructor; [repeat split; assumption|]. apply IH; assumption.
Qed.

(** ** The entries that are read *)

Lemma bytes_slice l a b : is_bytes l -> is_bytes (pyslice l a b).
Proof. intros H. unfold pyslice. apply is_bytes_zfirstn, is_bytes_zskipn, H. Qed.
Lemma bytes_slice_to l b : is_bytes l -> is_bytes (pyslice_to l b).
Proof. intros H. unfold pyslice_to. apply is_bytes_zfirstn, H. Qed.

Lemma read_entries_ok : forall fuel td eo off shared acc es, is_bytes td -> is_bytes shared -> Forall entry_ok acc -> read_entries fuel td eo off shared acc = Done (Ok es) -> Forall entry_ok es.
Proof.
  induction fuel as [|fuel IH]; intros td eo off shared acc es B S A E; cbn [read_entries] in E; destruct (off <? eo); try discriminate; try (injection E as <-; exact A).
  destruct (read_varint _) as [[sh n1]|]; [|discriminate]. cbv zeta in E. destruct (read_varint _) as [[ns n2]|]; [|discriminate]. destruct (read_varint _) as [[vs n3]|]; [|discriminate].
  set (kp := pyslice td (off + n1 + n2 + n3) (off + n1 + n2 + n3 + ns)) in E. assert (Kp : is_bytes kp) by (apply bytes_slice, B). clearbody kp.
  assert (G : exists kd ks, (if 0 <? sh then (pyslice_to shared sh ++ kp, ns + sh) else (kp, ns)) = (kd, ks) /\ is_bytes kd).
  { destruct (0 <? sh); eexists _, _; (split; [reflexivity|]); [|exact Kp]. apply is_bytes_app. split; [apply bytes_slice_to, S|exact Kp]. }
  destruct G as (kd & ks & Eq & Kd). rewrite Eq in E. destruct (ks <? 8); [discriminate|].
  destruct (struct_bs [FU LE 8] (pyslice_from kd (-8))) as [vals|] eqn:Es; [|discriminate]. 
  apply struct_bs_fval in Es; [|apply is_bytes_pyslice_from, Kd|kinds_wf]. inversion Es as [|? v ? ? V R]; subst. inversion R; subst. destruct v as [suffix|]; [|contradiction].
  eapply IH; [exact B|exact Kd| |exact E]. apply Forall_app. split; [exact A|]. constructor; [|constructor]. split; [apply bytes_slice_to, Kd|]. split; [apply bytes_slice, B|].
  cbn [te_seq]. apply Z.shiftr_nonneg. cbn in V. lia.
Qed.

Lemma read_table_ok fuel snappy zstd content o s es : is_bytes content -> unpacks snappy -> unpacks zstd -> read_table fuel snappy zstd content o s = Done (Ok es) -> Forall entry_ok es.
Proof.
  intros B S Z E. unfold read_table in E. destruct (read_block snappy zstd content o s) as [td|] eqn:R; [|discriminate].
  assert (T : is_bytes td).
  { unfold read_block in R. destruct (read_at content o s) as [d|] eqn:A; [|discriminate]. cbn [bind] in R. destruct (guard _ _); [|discriminate]. cbn [bind] in R.
    assert (D : is_bytes d).
    { unfold read_at in A. destruct (o <? 0); [discriminate|]. injection A as <-. destruct (s <? 0); [apply is_bytes_zskipn, B|apply is_bytes_zfirstn, is_bytes_zskipn, B]. }
    destruct (read_struct _ _ _) as [[|[c|] [|? [|]]]|]; try discriminate. cbn [bind] in R. destruct (c =? 0); [congruence|]. destruct (c =? 1); [exact (S _ _ R)|]. destruct (c =? 2); [exact (Z _ _ R)|discriminate]. }
  unfold read_table_data in E. destruct (struct_bs _ _) as [[|[n|] [|]]|]; try discriminate. cbv zeta in E. destruct (_ <? _) in E; [discriminate|].
  eapply read_entries_ok; [exact T|constructor|constructor|exact E].
Qed.

Lemma data_blocks_ok fuel snappy zstd content : is_bytes content -> unpacks snappy -> unpacks zstd -> forall index es x, 
  read_data_blocks fuel snappy zstd content index = Done (Ok (es, x)) -> Forall entry_ok es.
Proof.
  intros B S Z. induction index as [|e index IH]; intros es x E; cbn [read_data_blocks] in E; [injection E as <- <-; constructor|].
  destruct (read_block_handle (te_value e)) as [[[o s] n]|]; [|injection E as <- <-; constructor].
  destruct (read_table fuel snappy zstd content o s) as [[l|]|] eqn:T; [|injection E as <- <-; constructor|discriminate].
  destruct (read_data_blocks fuel snappy zstd content index) as [[[l' x']|]|]; try discriminate. injection E as <- <-. apply Forall_app. split; [exact (read_table_ok _ _ _ _ _ _ _ B S Z T)|eapply IH; reflexivity].
Qed.

Lemma table_entries_ok fuel snappy zstd content ix es x : is_bytes content -> unpacks snappy -> unpacks zstd -> 
  read_table_entries fuel snappy zstd content ix = Done (Ok (es, x)) -> Forall entry_ok es.
Proof.
  intros B S Z E. unfold read_table_entries in E. destruct (read_table _ _ _ _ _ _) as [[l|]|]; [|injection E as <- <-; constructor|discriminate]. exact (data_blocks_ok _ _ _ _ B S Z _ _ _ E).
Qed.

Lemma ientries_ok : forall es x l y, Forall entry_ok es -> read_ientries es x = (l, y) -> Forall ientry_ok l.
Proof.
  induction es as [|e es IH]; intros x l y F E; cbn [read_ientries] in E; [injection E as <- <-; constructor|]. inversion F as [|? ? (K & V & S) F']; subst.
  destruct (key_segments (te_key e)) as [segs|] eqn:Ek; [|injection E as <- <-; constructor]. destruct (read_ientries es x) as [l' y'] eqn:R. injection E as <- <-.
  constructor; [|eapply IH; eassumption]. split; [exists (te_key e); auto|]. auto.
Qed.

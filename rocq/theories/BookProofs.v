From Verif Require Import Base BaseFacts CoreModel CoreProofs TextModel SeqModel SeqSpec SeqFacts MemFacts DictModel RdModel RdSpec RdFacts BookModel BookSpec.
From Coq Require String.
Import String.StringSyntax.

Lemma reads_l32 : reads (rd_int (FU LE 4)) (fun v d => u32 v /\ d = le_enc 4 v).
Proof. apply reads_int. cbn; lia. Qed.
Lemma reads_l64 : reads (rd_int (FU LE 8)) (fun v d => u64 v /\ d = le_enc 8 v).
Proof. apply reads_int. cbn; lia. Qed.

Ltac le_reads := match goal with
  | |- reads (rd_bind _ _) _ => eapply reads_bind; [le_reads|intros ?; le_reads]
  | |- reads (rd_int (FU LE 4)) _ => apply reads_l32
  | |- reads (rd_int (FU LE 8)) _ => apply reads_l64
  | |- _ => reads_tac eauto
  end.

Lemma reads_of {A} (r : result A) : (forall x, r = Err x -> x = ParseError) -> reads (rd_of r) (fun a d => r = Ok a /\ d = []).
Proof.
  intros H. destruct r as [a|x].
  - eapply reads_iff; [exact (reads_ret a)|]. intros b d _. split; intros [E ->]; split; congruence.
  - rewrite (H x eq_refl). intros content pos _ _. unfold rd_of. cbn [bind]. split; [|congruence]. intros a p. split; [discriminate|]. intros (d & [E _] & _). discriminate.
Qed.

Lemma reads_sle n : (0 < n)%nat -> reads (rd_int (FS LE n)) (sle n).
Proof.
  intros Hn. eapply reads_iff; [apply (reads_int (FS LE n)); cbn; exact Hn|]. intros v d _. unfold sle. cbn [fval_ok enc_field enc_int]. tauto.
Qed.

Lemma stored_at_fun content off a b : stored_at content off a -> stored_at content off b -> len a = len b -> a = b.
Proof. rewrite !stored_at_iff. intros (_ & _ & A) (_ & _ & B) L. rewrite L in A. congruence. Qed.

Lemma bytes_app_l (a b : bytes) : is_bytes (a ++ b) -> is_bytes a.
Proof. intros H. apply Forall_app in H as [H _]. exact H. Qed.

Lemma decode_ok utf8 type data : is_bytes data ->
  (forall v, book_decode utf8 type data = Ok v <-> book_data utf8 type v data) /\ (forall x, book_decode utf8 type data = Err x -> x = ParseError).
Proof.
  intros Hb. unfold book_decode.
  assert (Inum : forall n t, (0 < n)%nat -> (forall v d r, sle n v d -> book_data utf8 t (BInt v) (d ++ r)) -> (forall v, book_data utf8 t v data -> exists z d r, v = BInt z /\ sle n z d /\ data = d ++ r) ->
    (forall v, rd_data (rd v <- rd_int (FS LE n); rd_ret (BInt v)) data = Ok v <-> book_data utf8 t v data) /\ (forall x, rd_data (rd v <- rd_int (FS LE n); rd_ret (BInt v)) data = Err x -> x = ParseError)).
  { intros n t Hn I O. assert (R : reads (rd v <- rd_int (FS LE n); rd_ret (BInt v)) (fun v d => exists z, v = BInt z /\ sle n z d)).
    { eapply reads_iff; [eapply reads_bind; [exact (reads_sle n Hn)|intros a; apply reads_ret]|]. intros v d _. split.
      - intros (z & d1 & d2 & S & [-> ->] & ->). exists z. rewrite app_nil_r. auto.
      - intros (z & -> & S). exists z, d, []. rewrite app_nil_r. auto. }
    split; [|intros x; eapply rd_data_errors; eassumption]. intros v. rewrite (rd_data_iff _ _ _ _ R Hb). split.
    - intros (d & r & (z & -> & S) & ->). apply I. exact S.
    - intros H. destruct (O v H) as (z & d & r & -> & S & E). eauto 10. }
  assert (Fnum : forall n t, (forall d r, len d = n -> book_data utf8 t (BFloat d) (d ++ r)) -> (forall v, book_data utf8 t v data -> exists d r, v = BFloat d /\ len d = n /\ data = d ++ r) ->
    (forall v, rd_data (rd v <- rd_bytes n; rd_ret (BFloat v)) data = Ok v <-> book_data utf8 t v data) /\ (forall x, rd_data (rd v <- rd_bytes n; rd_ret (BFloat v)) data = Err x -> x = ParseError)).
  { intros n t I O. assert (R : reads (rd v <- rd_bytes n; rd_ret (BFloat v)) (fun v d => v = BFloat d /\ len d = n)).
    { eapply reads_iff; [eapply reads_bind; [exact (reads_bytes n)|intros a; apply reads_ret]|]. intros v d _. split.
      - intros (z & d1 & d2 & [L ->] & [-> ->] & ->). rewrite app_nil_r. auto.
      - intros (-> & L). exists d, d, []. rewrite app_nil_r. auto. }
    split; [|intros x; eapply rd_data_errors; eassumption]. intros v. rewrite (rd_data_iff _ _ _ _ R Hb). split.
    - intros (d & r & (-> & L) & ->). apply I. exact L.
    - intros H. destruct (O v H) as (d & r & -> & L & E). eauto 10. }
  destruct (Z.eqb_spec type 0x101) as [->|N1].
  { assert (R : reads (rd s <- rd_some (utf8 data); rd_ret (BText s)) (fun v d => d = [] /\ exists s, v = BText s /\ utf8 data = Some s)).
    { eapply reads_iff; [eapply reads_bind; [exact (reads_some (utf8 data))|intros a; apply reads_ret]|]. intros v d _. split.
      - intros (z & d1 & d2 & [L ->] & [-> ->] & ->). split; [reflexivity|]. eauto.
      - intros (-> & s & -> & E). exists s, [], []. auto. }
    split; [|intros x; eapply rd_data_errors; eassumption]. intros v. rewrite (rd_data_iff _ _ _ _ R Hb). split.
    - intros (d & r & (-> & s & -> & E) & _). apply bd_text. exact E.
    - intros H. inversion H; subst; [|cbn [In] in *; tauto]. exists [], data. eauto. }
  destruct (Z.eqb_spec type 0x301) as [->|N2]. { apply Inum; [lia|apply bd_int8|]. intros v H. inversion H; subst; [eauto 10|cbn [In] in *; tauto]. }
  destruct (Z.eqb_spec type 0x302) as [->|N3]. { apply Inum; [lia|apply bd_int16|]. intros v H. inversion H; subst; [eauto 10|cbn [In] in *; tauto]. }
  destruct (Z.eqb_spec type 0x303) as [->|N4]. { apply Inum; [lia|apply bd_int32|]. intros v H. inversion H; subst; [eauto 10|cbn [In] in *; tauto]. }
  destruct (Z.eqb_spec type 0x304) as [->|N5]. { apply Inum; [lia|apply bd_int64|]. intros v H. inversion H; subst; [eauto 10|cbn [In] in *; tauto]. }
  destruct (Z.eqb_spec type 0x305) as [->|N6]. { apply Fnum; [apply bd_float|]. intros v H. inversion H; subst; [eauto 10|cbn [In] in *; tauto]. }
  destruct (Z.eqb_spec type 0x306) as [->|N7]. { apply Fnum; [apply bd_double|]. intros v H. inversion H; subst; [eauto 10|cbn [In] in *; tauto]. }
  destruct (Z.eqb_spec type 0x601) as [->|N8].
  { set (n := Z.to_nat (len data / 4)).
    assert (R : reads (rd l <- rd_times n (rd_int (FU LE 4)); rd_ret (BInts l)) (fun v d => exists l, v = BInts l /\ length l = n /\ ints_ok (FU LE 4) l /\ d = enc_ints (FU LE 4) l)).
    { eapply reads_iff; [eapply reads_bind; [exact (reads_ints (FU LE 4) n ltac:(cbn; lia))|intros a; apply reads_ret]|]. intros v d _. split.
      - intros (l & d1 & d2 & (L & O & ->) & [-> ->] & ->). exists l. rewrite app_nil_r. auto.
      - intros (l & -> & L & O & ->). exists l, (enc_ints (FU LE 4) l), []. rewrite app_nil_r. auto. }
    assert (Le : forall l, len (enc_ints (FU LE 4) l) = 4 * len l).
    { intros l. induction l as [|v l IH]; [reflexivity|]. change (enc_ints (FU LE 4) (v :: l)) with (le_enc 4 v ++ enc_ints (FU LE 4) l). rewrite len_app, len_le_enc, len_cons, IH. lia. }
    split; [|intros x; eapply rd_data_errors; eassumption]. intros v. rewrite (rd_data_iff _ _ _ _ R Hb). split.
    - intros (d & r & (l & -> & L & O & ->) & E). rewrite E. apply bd_ints; [exact O|]. apply (f_equal len) in E. rewrite len_app, Le in E.
      assert (len l = len data / 4) by (unfold len at 1; rewrite L; subst n; rewrite Z2Nat.id; [reflexivity|apply Z.div_pos; [apply len_nonneg|lia]]).
      pose proof (Z.div_mod (len data) 4 ltac:(lia)). pose proof (Z.mod_pos_bound (len data) 4 ltac:(lia)). lia.
    - intros H. inversion H as [| | | | | | |l r O L E1 E2 E3|]; subst; [|cbn [In] in *; tauto]. exists (enc_ints (FU LE 4) l), r. split; [|reflexivity]. exists l. split; [reflexivity|]. split; [|auto].
      subst n. rewrite len_app, Le. replace (4 * len l + len r) with (len r + len l * 4) by lia. pose proof (len_nonneg r). rewrite Z.div_add, Z.div_small by lia. unfold len. lia. }
  split; [|discriminate]. intros v. split.
  - intros E. assert (v = BData data) by congruence. subst v. apply bd_data. cbn [In]. lia.
  - intros H. inversion H; subst; try contradiction; try reflexivity; exfalso; lia.
Qed.

Lemma record_reads utf8 : reads (rd_book_record utf8) (fun tv d => exists data, u32 (fst tv) /\ u32 (len data) /\ book_data utf8 (fst tv) (snd tv) data /\ d = le_enc 4 (len data) ++ le_enc 4 (fst tv) ++ data).
Proof.
  intros content pos Hb Hp. revert content pos Hb Hp.
  assert (G : reads (rd_book_record utf8) (fun tv d => exists data, u32 (fst tv) /\ u32 (len data) /\ is_bytes data /\ book_data utf8 (fst tv) (snd tv) data /\ d = le_enc 4 (len data) ++ le_enc 4 (fst tv) ++ data)).
  2:{ eapply reads_iff; [exact G|]. intros tv d Hd. cbv beta. split; intros (data & H).
      - destruct H as (A & B & _ & H). exists data. tauto.
      - exists data. destruct H as (A & B & C & ->). do 2 (split; [assumption|]). split; [|split; [exact C|reflexivity]]. apply Forall_app in Hd as [_ Hd]. apply Forall_app in Hd as [_ Hd]. exact Hd. }
  unfold rd_book_record.
  assert (K : forall size type, reads (rd data <- rd_bytes size; (rd v <- rd_of (book_decode utf8 type data); rd_ret (type, v)))
      (fun tv d => fst tv = type /\ len d = size /\ is_bytes d /\ book_data utf8 type (snd tv) d)).
  { intros size type content pos Hb Hp. destruct (reads_bytes size content pos Hb Hp) as [B1 B2]. unfold rd_bind. destruct (rd_bytes size content pos) as [[data p]|x] eqn:E; cbn [bind].
    2:{ split; [|intros y Q; assert (x = y) by congruence; subst y; apply B2; reflexivity]. intros a p. split; [discriminate|]. intros (d & (_ & L & _) & S & ->). exfalso.
        assert (Q : Err x = Ok (d, pos + len d)) by (apply B1; eauto). discriminate. }
    destruct (proj1 (B1 data p) eq_refl) as (d & [L Ed] & S & ->). subst d.
    assert (Hd : is_bytes data) by (destruct S as (pre & post & -> & _); apply Forall_app in Hb as [_ Hb]; apply Forall_app in Hb as [Hb _]; exact Hb).
    destruct (decode_ok utf8 type data Hd) as [D1 D2]. unfold rd_of. destruct (book_decode utf8 type data) as [v|x] eqn:Ev; cbn [bind].
    - unfold rd_ret. split; [|discriminate]. intros [t' v'] p. split.
      + intros Q. assert (t' = type /\ v' = v /\ p = pos + len data) as (-> & -> & ->) by (repeat split; congruence). exists data. cbn [fst snd]. split; [|auto].
        split; [reflexivity|]. split; [exact L|]. split; [exact Hd|]. apply D1. reflexivity.
      + cbn [fst snd]. intros (d & (-> & L' & Hd' & D) & S' & ->). assert (d = data) by (eapply stored_at_fun; [exact S'|exact S|lia]). subst d. apply D1 in D. congruence.
    - split; [|intros y Q; assert (x = y) by congruence; subst y; apply D2; reflexivity]. intros [t' v'] p. split; [discriminate|]. cbn [fst snd]. intros (d & (-> & L' & Hd' & D) & S' & ->).
      assert (d = data) by (eapply stored_at_fun; [exact S'|exact S|lia]). subst d. apply D1 in D. discriminate. }
  eapply reads_iff; [eapply reads_bind; [exact reads_l32|intros size; eapply reads_bind; [exact reads_l32|intros type; apply K]]|].
  intros [t v] d _. cbn [fst snd]. split.
  - intros (size & d1 & d2 & [Hs ->] & (type & d3 & d4 & [Ht ->] & (<- & L & Hd & D) & ->) & ->). exists d4. rewrite L. auto 10.
  - intros (data & Ht & Hs & Hd & D & ->). exists (len data), (le_enc 4 (len data)). eexists. split; [auto|]. split; [|reflexivity]. exists t, (le_enc 4 t), data. auto 10.
Qed.

Lemma record_ok utf8 content off : is_bytes content -> 0 <= off ->
  (forall type v, book_record utf8 content off = Ok (type, v) <-> book_record_at utf8 content off type v) /\ (forall x, book_record utf8 content off = Err x -> x = ParseError).
Proof.
  intros Hb Ho. unfold book_record. destruct (reads_at _ _ content off (record_reads utf8) ltac:(apply solid_bind, solid_int; cbn; lia) Hb Ho) as [R1 R2].
  destruct (rd_book_record utf8 content off) as [[[t w] p]|x]; cbn [bind].
  - split; [|discriminate]. intros type v. unfold book_record_at. split.
    + intros E. assert (t = type /\ w = v) as [-> ->] by (split; congruence). destruct (proj1 (R1 (type, v) p) eq_refl) as (d & (data & A & B & C & ->) & S & _). exists data. auto.
    + intros (data & A & B & C & S). assert (Q : Ok ((t, w), p) = Ok ((type, v), off + len (le_enc 4 (len data) ++ le_enc 4 type ++ data))); [|congruence]. apply R1. eexists. split; [|split; [exact S|reflexivity]]. exists data. auto.
  - split; [|intros y E; assert (x = y) by congruence; subst y; apply R2; reflexivity]. intros type v. split; [discriminate|]. intros (data & A & B & C & S). exfalso.
    assert (Q : Err x = Ok ((type, v), off + len (le_enc 4 (len data) ++ le_enc 4 type ++ data))); [|discriminate]. apply R1. eexists. split; [|split; [exact S|reflexivity]]. exists data. auto.
Qed.

Lemma ints_iff utf8 content : is_bytes content -> forall offs, Forall u32 offs -> forall l,
  book_integers utf8 content 48 offs = Ok l <-> Forall2 (fun o z => exists t, book_record_at utf8 content (48 + o) t (BInt z)) offs l.
Proof.
  intros Hb offs. induction offs as [|o offs IH]; intros F l; cbn [book_integers].
  - split; [intros E; assert (l = []) by congruence; subst l; constructor|intros H; inversion H; reflexivity].
  - inversion F as [|? ? Ho F']; subst. destruct (record_ok utf8 content (48 + o) Hb ltac:(unfold u32 in Ho; lia)) as [R1 _]. specialize (IH F'). split.
    + destruct (book_record utf8 content (48 + o)) as [[t v]|]; cbn [bind]; [|discriminate]. destruct v as [|z| | |]; cbn [bind]; try discriminate.
      destruct (book_integers utf8 content 48 offs) as [l'|]; cbn [bind]; [|discriminate]. intros E. assert (l = z :: l') by congruence. subst l. constructor; [exists t; apply R1; reflexivity|]. apply IH. reflexivity.
    + intros H. inversion H as [|? z ? l' (t & A) B]; subst. apply R1 in A. rewrite A. cbn [bind]. apply IH in B. rewrite B. reflexivity.
Qed.

Lemma strings_iff utf8 content : is_bytes content -> forall offs, Forall u32 offs -> forall l,
  book_strings utf8 content 48 offs = Ok l <-> Forall2 (fun o z => exists t, book_record_at utf8 content (48 + o) t (BText z)) offs l.
Proof.
  intros Hb offs. induction offs as [|o offs IH]; intros F l; cbn [book_strings].
  - split; [intros E; assert (l = []) by congruence; subst l; constructor|intros H; inversion H; reflexivity].
  - inversion F as [|? ? Ho F']; subst. destruct (record_ok utf8 content (48 + o) Hb ltac:(unfold u32 in Ho; lia)) as [R1 _]. specialize (IH F'). split.
    + destruct (book_record utf8 content (48 + o)) as [[t v]|]; cbn [bind]; [|discriminate]. destruct v as [z| | | |]; cbn [bind]; try discriminate.
      destruct (book_strings utf8 content 48 offs) as [l'|]; cbn [bind]; [|discriminate]. intros E. assert (l = z :: l') by congruence. subst l. constructor; [exists t; apply R1; reflexivity|]. apply IH. reflexivity.
    + intros H. inversion H as [|? z ? l' (t & A) B]; subst. apply R1 in A. rewrite A. cbn [bind]. apply IH in B. rewrite B. reflexivity.
Qed.

(** The errors of the arrays. *)
Definition book_error (x : exn) : Prop := x = ParseError \/ x = AttributeError \/ x = ValueError.

Lemma ints_errors utf8 content : is_bytes content -> forall offs, Forall u32 offs -> forall x, book_integers utf8 content 48 offs = Err x -> book_error x.
Proof.
  intros Hb offs. unfold book_error. induction offs as [|o offs IH]; intros F x; cbn [book_integers]; [discriminate|].
  inversion F as [|? ? Ho F']; subst. destruct (record_ok utf8 content (48 + o) Hb ltac:(unfold u32 in Ho; lia)) as [_ R2]. specialize (IH F').
  destruct (book_record utf8 content (48 + o)) as [[t v]|y]; cbn [bind]; [|intros E; left; apply R2; congruence].
  destruct v as [|z| | |]; cbn [bind]; try (intros E; right; left; congruence).
  destruct (book_integers utf8 content 48 offs) as [l'|y]; cbn [bind]; [discriminate|]. intros E. apply IH. congruence.
Qed.
Lemma strings_errors utf8 content : is_bytes content -> forall offs, Forall u32 offs -> forall x, book_strings utf8 content 48 offs = Err x -> book_error x.
Proof.
  intros Hb offs. unfold book_error. induction offs as [|o offs IH]; intros F x; cbn [book_strings]; [discriminate|].
  inversion F as [|? ? Ho F']; subst. destruct (record_ok utf8 content (48 + o) Hb ltac:(unfold u32 in Ho; lia)) as [_ R2]. specialize (IH F').
  destruct (book_record utf8 content (48 + o)) as [[t v]|y]; cbn [bind]; [|intros E; left; apply R2; congruence].
  destruct v as [z| | | |]; cbn [bind]; try (intros E; right; left; congruence).
  destruct (book_strings utf8 content 48 offs) as [l'|y]; cbn [bind]; [discriminate|]. intros E. apply IH. congruence.
Qed.

Lemma data_u32 utf8 type l data : book_data utf8 type (BInts l) data -> Forall u32 l.
Proof.
  intros H. inversion H as [| | | | | | |l' r O L E1 E2 E3|]; subst. clear H L. induction O as [|v l Hv O IH]; constructor; [exact Hv|exact IH].
Qed.

Lemma data_bytes utf8 type d data : book_data utf8 type (BData d) data -> data = d.
Proof. intros H. inversion H; reflexivity. Qed.

Lemma at_bytes content off d : is_bytes content -> stored_at content off d -> is_bytes d.
Proof. intros Hb (pre & post & -> & _). apply Forall_app in Hb as [_ Hb]. apply Forall_app in Hb as [Hb _]. exact Hb. Qed.

Definition flags_reader : reader book_item := rd flags <- rd_int (FU LE 8); rd valid <- rd_int (FU LE 8); rd unknown <- rd_int (FU LE 8); rd_ret (IFlags flags valid unknown).
Lemma flags_reads : reads flags_reader (fun i d => exists a b c, i = IFlags a b c /\ u64 a /\ u64 b /\ u64 c /\ d = le_enc 8 a ++ le_enc 8 b ++ le_enc 8 c).
Proof.
  eapply reads_iff; [unfold flags_reader; le_reads|]. intros i d _. split.
  - intros H. rel_out. rewrite app_nil_r. eauto 10.
  - intros (a & b & c & -> & Ha & Hc & Hd & ->). exists a, (le_enc 8 a). eexists. split; [auto|]. split; [|reflexivity]. exists b, (le_enc 8 b). eexists. split; [auto|]. split; [|reflexivity].
    exists c, (le_enc 8 c), []. split; [auto|]. split; [split; reflexivity|rewrite app_nil_r; reflexivity].
Qed.

Lemma stream_errors {A} (r : reader A) e v x : reads r e -> (forall d, v = BData d -> is_bytes d) -> book_stream r v = Err x -> book_error x.
Proof.
  intros R Hv. unfold book_error, book_stream. destruct v as [| | | |d]; try (intros E; right; left; congruence). destruct d as [|b d]; [intros E; right; right; congruence|].
  intros E. left. eapply rd_data_errors; [exact R| |exact E]. apply Hv. reflexivity.
Qed.

Lemma item_errors utf8 content tv x : is_bytes content -> u32 (snd tv) -> book_item_of utf8 content 48 tv = Err x -> book_error x.
Proof.
  intros Hb Ho. destruct tv as [tag off]. cbn [snd] in Ho. unfold book_item_of. destruct (record_ok utf8 content (48 + off) Hb ltac:(unfold u32 in Ho; lia)) as [R1 R2].
  destruct (book_record utf8 content (48 + off)) as [[type v]|y]; cbn [bind]; [|intros E; left; apply R2; congruence].
  destruct (proj1 (R1 type v) eq_refl) as (data & Ht & Hs & D & S).
  assert (Hv : forall d, v = BData d -> is_bytes d).
  { intros d ->. apply data_bytes in D. subst d. apply at_bytes in S; [|exact Hb]. apply Forall_app in S as [_ S]. apply Forall_app in S as [_ S]. exact S. }
  destruct (type =? 0x400).
  { destruct (book_stream (rd_bytes 8) v) eqn:Q; cbn [bind]; [discriminate|]. intros E. eapply stream_errors; [apply reads_bytes|exact Hv|]. rewrite Q. congruence. }
  destruct (tag =? 0x1004).
  { destruct v as [| | |l|]; cbn [bind]; try (intros E; right; left; congruence). destruct (book_strings utf8 content 48 l) eqn:Q; cbn [bind]; [discriminate|].
    intros E. eapply strings_errors; [exact Hb|eapply data_u32; exact D|]. rewrite Q. congruence. }
  destruct (tag =? 0x1005).
  { destruct v as [| | |l|]; cbn [bind]; try (intros E; right; left; congruence). destruct (book_integers utf8 content 48 l) eqn:Q; cbn [bind]; [discriminate|].
    intros E. eapply ints_errors; [exact Hb|eapply data_u32; exact D|]. rewrite Q. congruence. }
  destruct ((tag =? 0x1010) || (tag =? 0x2020)); [|discriminate]. fold flags_reader.
  destruct (book_stream flags_reader v) eqn:Q; cbn [bind]; [discriminate|]. intros E. eapply stream_errors; [apply flags_reads|exact Hv|]. rewrite Q. congruence.
Qed.

Lemma item_iff utf8 content tv i : is_bytes content -> u32 (snd tv) ->
  (book_item_of utf8 content 48 tv = Ok i <->
   fst i = fst tv /\ exists type v, book_record_at utf8 content (48 + snd tv) type v /\ book_meaning utf8 content (fst tv) type v (snd i)).
Proof.
  intros Hb Ho. destruct tv as [tag off], i as [tag' i]. cbn [fst snd] in *. unfold book_item_of.
  destruct (record_ok utf8 content (48 + off) Hb ltac:(unfold u32 in Ho; lia)) as [R1 _].
  assert (St : forall {A} (r : reader A) e v a, reads r e -> (forall a d, e a d -> 0 < len d) -> (forall d, v = BData d -> is_bytes d) ->
    (book_stream r v = Ok a <-> exists d rest, v = BData (d ++ rest) /\ e a d)).
  { intros A r e v a R P Hv. unfold book_stream. split.
    - destruct v as [| | | |d]; try discriminate. destruct d as [|b d]; [discriminate|]. intros E. apply (rd_data_iff _ _ _ _ R (Hv _ eq_refl)) in E as (d1 & rest & Ea & ->). eauto.
    - intros (d & rest & -> & Ea). pose proof (P _ _ Ea). destruct d as [|b d]; [change (len (@nil Z)) with 0 in *; lia|]. apply (rd_data_iff _ _ _ _ R (Hv _ eq_refl)). eauto. }
  assert (Hv : forall type d, book_record_at utf8 content (48 + off) type (BData d) -> is_bytes d).
  { intros type d (data & _ & _ & D & S). apply data_bytes in D. subst d. apply at_bytes in S; [|exact Hb]. apply Forall_app in S as [_ S]. apply Forall_app in S as [_ S]. exact S. }
  assert (Ho' : forall type l, book_record_at utf8 content (48 + off) type (BInts l) -> Forall u32 l) by (intros type l (data & _ & _ & D & _); eapply data_u32; exact D).
  assert (P8 : forall (a d : bytes), len a = 8 /\ d = a -> 0 < len d) by (intros a d [L ->]; lia).
  assert (P24 : forall (i : book_item) d, (exists a b c, i = IFlags a b c /\ u64 a /\ u64 b /\ u64 c /\ d = le_enc 8 a ++ le_enc 8 b ++ le_enc 8 c) -> 0 < len d).
  { intros j d (a & b & c & _ & _ & _ & _ & ->). rewrite !len_app, !len_le_enc. lia. }
  split.
  - destruct (book_record utf8 content (48 + off)) as [[type v]|]; cbn [bind]; [|discriminate]. pose proof (proj1 (R1 type v) eq_refl) as Rec.
    destruct (Z.eqb_spec type 0x400) as [->|N].
    { destruct (book_stream (rd_bytes 8) v) as [d|] eqn:Q; cbn [bind]; [|discriminate]. intros E. assert (tag' = tag /\ i = ITime d) as [-> ->] by (split; congruence). split; [reflexivity|].
      apply (St _ _ _ _ _ (reads_bytes 8) P8) in Q; [|intros x ->; eapply Hv; exact Rec]. destruct Q as (d' & rest & -> & L & ->). exists 0x400, (BData (d ++ rest)). split; [exact Rec|]. apply bm_time. exact L. }
    destruct (Z.eqb_spec tag 0x1004) as [->|N1].
    { destruct v as [| | |l|]; cbn [bind]; try discriminate. destruct (book_strings utf8 content 48 l) as [l'|] eqn:Q; cbn [bind]; [|discriminate]. intros E. assert (tag' = 0x1004 /\ i = IStrings l') as [-> ->] by (split; congruence). split; [reflexivity|].
      exists type, (BInts l). split; [exact Rec|]. apply bm_path; [exact N|]. apply strings_iff; [exact Hb|eapply Ho'; exact Rec|exact Q]. }
    destruct (Z.eqb_spec tag 0x1005) as [->|N2].
    { destruct v as [| | |l|]; cbn [bind]; try discriminate. destruct (book_integers utf8 content 48 l) as [l'|] eqn:Q; cbn [bind]; [|discriminate]. intros E. assert (tag' = 0x1005 /\ i = IIntegers l') as [-> ->] by (split; congruence). split; [reflexivity|].
      exists type, (BInts l). split; [exact Rec|]. apply bm_ids; [exact N|]. apply ints_iff; [exact Hb|eapply Ho'; exact Rec|exact Q]. }
    destruct ((tag =? 0x1010) || (tag =? 0x2020)) eqn:F.
    { fold flags_reader. destruct (book_stream flags_reader v) as [j|] eqn:Q; cbn [bind]; [|discriminate]. intros E. assert (tag' = tag /\ i = j) as [-> ->] by (split; congruence). split; [reflexivity|].
      apply (St _ _ _ _ _ flags_reads P24) in Q; [|intros x ->; eapply Hv; exact Rec]. destruct Q as (d & rest & -> & a & b & c & -> & Ha & Hc & Hd & ->). eexists _, _. split; [exact Rec|].
      rewrite <- !app_assoc. apply orb_true_iff in F. rewrite !Z.eqb_eq in F. apply bm_flags; assumption. }
    cbn [bind]. intros E. assert (tag' = tag /\ i = IValue v) as [-> ->] by (split; congruence). split; [reflexivity|]. exists type, v. split; [exact Rec|]. apply bm_other; [exact N|].
    apply orb_false_iff in F. rewrite !Z.eqb_neq in F. cbn [In]. lia.
  - intros (-> & type & v & Rec & M). rewrite (proj2 (R1 type v) Rec). cbn [bind].
    inversion M as [tag' d r L E1 E2 E3 E4|type' offs l N F E1 E2 E3 E4|type' offs l N F E1 E2 E3 E4|tag' type' a b c r N T Ha Hc Hd E1 E2 E3 E4|tag' type' v' N T E1 E2 E3 E4]; subst.
    + assert (Q : book_stream (rd_bytes 8) (BData (d ++ r)) = Ok d).
      { apply (St _ _ _ _ _ (reads_bytes 8) P8); [intros x E; eapply Hv; rewrite <- E; exact Rec|]. exists d, r. auto. }
      change (1024 =? 1024) with true. cbv iota. rewrite Q. reflexivity.
    + destruct (Z.eqb_spec type 0x400); [contradiction|]. rewrite Z.eqb_refl. cbn [bind]. apply strings_iff in F; [|exact Hb|eapply Ho'; exact Rec]. rewrite F. reflexivity.
    + destruct (Z.eqb_spec type 0x400); [contradiction|]. cbn [Z.eqb Pos.eqb bind]. apply ints_iff in F; [|exact Hb|eapply Ho'; exact Rec]. rewrite F. reflexivity.
    + destruct (Z.eqb_spec type 0x400); [contradiction|]. destruct (Z.eqb_spec tag 0x1004); [lia|]. destruct (Z.eqb_spec tag 0x1005); [lia|].
      assert (Q : (tag =? 0x1010) || (tag =? 0x2020) = true) by (apply orb_true_iff; rewrite !Z.eqb_eq; exact T). rewrite Q. fold flags_reader.
      assert (Q2 : book_stream flags_reader (BData (le_enc 8 a ++ le_enc 8 b ++ le_enc 8 c ++ r)) = Ok (IFlags a b c)).
      { apply (St _ _ _ _ _ flags_reads P24); [intros x E; eapply Hv; rewrite <- E; exact Rec|]. exists (le_enc 8 a ++ le_enc 8 b ++ le_enc 8 c), r. rewrite <- !app_assoc. split; [reflexivity|]. eauto 10. }
      rewrite Q2. reflexivity.
    + cbn [In] in T. destruct (Z.eqb_spec type 0x400); [contradiction|]. destruct (Z.eqb_spec tag 0x1004); [lia|]. destruct (Z.eqb_spec tag 0x1005); [lia|].
      destruct (Z.eqb_spec tag 0x1010); [lia|]. destruct (Z.eqb_spec tag 0x2020); [lia|]. reflexivity.
Qed.

Lemma items_iff utf8 content : is_bytes content -> forall toc, Forall (fun tv => u32 (snd tv)) toc -> forall l,
  book_items utf8 content 48 toc = Ok l <->
  Forall2 (fun tv i => fst i = fst tv /\ exists type v, book_record_at utf8 content (48 + snd tv) type v /\ book_meaning utf8 content (fst tv) type v (snd i)) toc l.
Proof.
  intros Hb toc. induction toc as [|tv toc IH]; intros F l; cbn [book_items].
  - split; [intros E; assert (l = []) by congruence; subst l; constructor|intros H; inversion H; reflexivity].
  - inversion F as [|? ? Ho F']; subst. specialize (IH F'). split.
    + destruct (book_item_of utf8 content 48 tv) as [i|] eqn:Q; cbn [bind]; [|discriminate]. destruct (book_items utf8 content 48 toc) as [l'|]; cbn [bind]; [|discriminate].
      intros E. assert (l = i :: l') by congruence. subst l. constructor; [apply item_iff; assumption|]. apply IH. reflexivity.
    + intros H. inversion H as [|? i ? l' A B]; subst. apply (item_iff utf8 content tv i Hb Ho) in A. rewrite A. cbn [bind]. apply IH in B. rewrite B. reflexivity.
Qed.

Lemma items_errors utf8 content : is_bytes content -> forall toc, Forall (fun tv => u32 (snd tv)) toc -> forall x, book_items utf8 content 48 toc = Err x -> book_error x.
Proof.
  intros Hb toc. induction toc as [|tv toc IH]; intros F x; cbn [book_items]; [discriminate|]. inversion F as [|? ? Ho F']; subst. specialize (IH F').
  destruct (book_item_of utf8 content 48 tv) as [i|] eqn:Q; cbn [bind]; [|intros E; eapply item_errors; [exact Hb|exact Ho|rewrite Q; congruence]].
  destruct (book_items utf8 content 48 toc) as [l'|]; cbn [bind]; [discriminate|]. intros E. apply IH. congruence.
Qed.

Lemma entry_reads : reads rd_book_tag book_entry.
Proof.
  eapply reads_iff; [unfold rd_book_tag; le_reads|]. intros [t o] d _. unfold book_entry. cbn [fst snd]. split.
  - intros (t' & x1 & r1 & [Ht ->] & (o' & x2 & r2 & [Ho ->] & (u & x3 & r3 & [Hu ->] & [E ->] & ->) & ->) & ->).
    assert (t = t' /\ o = o') as [-> ->] by (split; congruence). exists u. rewrite app_nil_r. auto.
  - intros (u & Ht & Ho & Hu & ->). exists t, (le_enc 4 t). eexists. split; [auto|]. split; [|reflexivity]. exists o, (le_enc 4 o). eexists. split; [auto|]. split; [|reflexivity].
    exists u, (le_enc 4 u), []. split; [auto|]. split; [split; reflexivity|rewrite app_nil_r; reflexivity].
Qed.

Lemma toc_reads : reads rd_book_toc book_toc.
Proof.
  eapply reads_iff; [unfold rd_book_toc; le_reads|].
  all: try (apply reads_times; exact entry_reads). all: try exact entry_reads.
  intros l d _. unfold book_toc. split.
  - intros (size & x1 & r1 & [Hs ->] & (u & x2 & r2 & [Hu ->] & ([] & x3 & r3 & [G1 ->] & (id & x4 & r4 & [Hid ->] & (next & x5 & r5 & [Hn ->] & (n & x6 & r6 & [Hc ->] & (l' & x7 & r7 & (L & ds & F & ->) & ([] & x8 & r8 & [G2 ->] & [-> ->] & ->) & ->) & ->) & ->) & ->) & ->) & ->) & ->).
    apply Z.eqb_eq in G1, G2. subst u next. exists size, id, ds. assert (Q : len l' = n) by (unfold len; rewrite L; apply Z2Nat.id; unfold u32 in Hc; lia). rewrite Q. repeat (split; [assumption|]).
    cbn [app]. rewrite !app_nil_r. reflexivity.
  - intros (size & id & ds & Hs & Hid & Hc & F & ->).
    exists size, (le_enc 4 size). eexists. split; [auto|]. split; [|reflexivity].
    exists 0xfffffffe, (le_enc 4 0xfffffffe). eexists. split; [split; [unfold u32; lia|reflexivity]|]. split; [|reflexivity].
    exists tt, []. eexists. split; [split; reflexivity|]. split; [|reflexivity].
    exists id, (le_enc 4 id). eexists. split; [auto|]. split; [|reflexivity].
    exists 0, (le_enc 4 0). eexists. split; [split; [unfold u32; lia|reflexivity]|]. split; [|reflexivity].
    exists (len l), (le_enc 4 (len l)). eexists. split; [auto|]. split; [|reflexivity].
    exists l, (concat ds), []. split; [split; [unfold len; lia|eauto]|]. split; [|rewrite app_nil_r; reflexivity].
    exists tt, [], []. split; [split; reflexivity|]. split; [split; reflexivity|reflexivity].
Qed.

Lemma header_reads : reads rd_book_header (fun so d => exists signature u1 u3, In signature [s2z "alis"%string; s2z "book"%string] /\ u32 (fst so) /\ u32 u1 /\ u32 (snd so) /\ len u3 = 32 /\
    d = signature ++ le_enc 4 (fst so) ++ le_enc 4 u1 ++ le_enc 4 (snd so) ++ u3).
Proof.
  eapply reads_iff; [unfold rd_book_header; le_reads|]. intros [size off] d _. cbn [fst snd]. split.
  - intros (sg & x1 & r1 & [L ->] & ([] & x2 & r2 & [G ->] & (s & x3 & r3 & [Hs ->] & (u1 & x4 & r4 & [H1 ->] & (o & x5 & r5 & [H2 ->] & (u3 & x6 & r6 & [H3 ->] & [E ->] & ->) & ->) & ->) & ->) & ->) & ->).
    assert (size = s /\ off = o) as [-> ->] by (split; congruence). exists sg, u1, u3. split; [|rewrite app_nil_r; cbn [app]; auto 10].
    apply orb_true_iff in G. cbn [In]. destruct G as [G|G]; apply list_eqb_eq in G; auto.
  - intros (sg & u1 & u3 & I & Hs & H1 & H2 & H3 & ->). exists sg, sg. eexists. split; [split; [|reflexivity]|]. { cbn [In] in I. destruct I as [<-|[<-|[]]]; reflexivity. }
    split; [|reflexivity]. exists tt, []. eexists. split; [split; [|reflexivity]|]. { cbn [In] in I. apply orb_true_iff. rewrite !list_eqb_eq. destruct I as [<-|[<-|[]]]; auto. }
    split; [|reflexivity]. exists size, (le_enc 4 size). eexists. split; [auto|]. split; [|reflexivity]. exists u1, (le_enc 4 u1). eexists. split; [auto|]. split; [|reflexivity].
    exists off, (le_enc 4 off). eexists. split; [auto|]. split; [|reflexivity]. exists u3, u3, []. split; [auto|]. split; [split; reflexivity|rewrite app_nil_r; reflexivity].
Qed.

Lemma toc_u32 toc d : book_toc toc d -> Forall (fun tv => u32 (snd tv)) toc.
Proof. intros (_ & _ & ds & _ & _ & _ & F & _). induction F as [|tv x l ds (u & _ & H & _) F IH]; constructor; assumption. Qed.

Lemma read_book_iff utf8 content items : is_bytes content -> (read_book utf8 content = Ok items <-> book_file utf8 items content).
Proof.
  intros Hb. pose proof (len_nonneg content) as Ln. unfold read_book, book_file.
  destruct (reads_at _ _ content 0 header_reads ltac:(apply solid_bind, solid_bytes; lia) Hb ltac:(lia)) as [H1 _].
  destruct (reads_at _ _ content 48 reads_l32 ltac:(apply solid_int; cbn; lia) Hb ltac:(lia)) as [S1 _].
  assert (T1 : forall size, u32 size -> forall a p, rd_book_toc content (48 + size) = Ok (a, p) <-> exists d, book_toc a d /\ stored_at content (48 + size) d /\ p = 48 + size + len d).
  { intros size Hs. apply (reads_at _ _ content (48 + size) toc_reads ltac:(apply solid_bind, solid_int; cbn; lia) Hb). unfold u32 in Hs. lia. }
  split.
  - destruct (rd_book_header content 0) as [[[sz off] p]|]; cbn [bind fst snd]; [|discriminate]. destruct (proj1 (H1 _ _) eq_refl) as (dh & (sg & u1 & u3 & I & Hs & Hu & Hof & H3 & ->) & St & _). cbn [fst snd] in *.
    destruct (Z.eqb_spec sz (len content)) as [->|]; cbn [guard bind]; [|discriminate]. destruct (Z.eqb_spec off 48) as [->|]; cbn [guard bind]; [|discriminate].
    destruct (rd_int (FU LE 4) content 48) as [[size p2]|]; cbn [bind]; [|discriminate]. destruct (proj1 (S1 size p2) eq_refl) as (d & [Hsz ->] & Sd & _).
    specialize (T1 size Hsz). destruct (rd_book_toc content (48 + size)) as [[toc p3]|]; cbn [bind]; [|discriminate]. destruct (proj1 (T1 toc p3) eq_refl) as (dt & Ht & Stt & _).
    intros E. apply items_iff in E; [|exact Hb|eapply toc_u32; exact Ht].
    eexists _, size, toc, dt. split; [|split; [exact St|]]. { exists sg, u1, u3. auto 10. }
    auto 10.
  - intros (dh & size & toc & dt & (sg & u1 & u3 & I & Hs & Hu & H3 & ->) & St & Hsz & Sd & Ht & Stt & F).
    rewrite (proj2 (H1 (len content, 48) (0 + len (sg ++ le_enc 4 (len content) ++ le_enc 4 u1 ++ le_enc 4 48 ++ u3)))).
    2:{ eexists. split; [|split; [exact St|reflexivity]]. cbn [fst snd]. exists sg, u1, u3. split; [exact I|]. split; [exact Hs|]. split; [exact Hu|]. split; [unfold u32; lia|]. auto. }
    cbn [bind fst snd]. rewrite !Z.eqb_refl. cbn [guard bind]. rewrite (proj2 (S1 size (48 + len (le_enc 4 size)))) by eauto. cbn [bind].
    rewrite (proj2 (T1 size Hsz toc (48 + size + len dt))) by eauto. cbn [bind]. apply items_iff; [exact Hb|eapply toc_u32; exact Ht|exact F].
Qed.

Lemma read_book_errors utf8 content x : is_bytes content -> read_book utf8 content = Err x -> book_error x.
Proof.
  intros Hb. pose proof (len_nonneg content) as Ln. unfold read_book.
  destruct (reads_at _ _ content 0 header_reads ltac:(apply solid_bind, solid_bytes; lia) Hb ltac:(lia)) as [_ H2].
  destruct (reads_at _ _ content 48 reads_l32 ltac:(apply solid_int; cbn; lia) Hb ltac:(lia)) as [S1 S2].
  destruct (rd_book_header content 0) as [[[sz off] p]|]; cbn [bind fst snd]; [|intros E; left; apply H2; congruence].
  destruct (Z.eqb_spec sz (len content)) as [->|]; cbn [guard bind]; [|intros E; left; congruence]. destruct (Z.eqb_spec off 48) as [->|]; cbn [guard bind]; [|intros E; left; congruence].
  destruct (rd_int (FU LE 4) content 48) as [[size p2]|]; cbn [bind]; [|intros E; left; apply S2; congruence]. destruct (proj1 (S1 size p2) eq_refl) as (d & [Hsz ->] & Sd & _).
  destruct (reads_at _ _ content (48 + size) toc_reads ltac:(apply solid_bind, solid_int; cbn; lia) Hb ltac:(unfold u32 in Hsz; lia)) as [T1 T2].
  destruct (rd_book_toc content (48 + size)) as [[toc p3]|]; cbn [bind]; [|intros E; left; apply T2; congruence]. destruct (proj1 (T1 toc p3) eq_refl) as (dt & Ht & Stt & _).
  apply items_errors; [exact Hb|eapply toc_u32; exact Ht].
Qed.

Lemma ints_typed utf8 content : is_bytes content -> forall offs, Forall u32 offs -> (forall p t w, In p offs -> book_record_at utf8 content (48 + p) t w -> exists z, w = BInt z) ->
  forall x, book_integers utf8 content 48 offs = Err x -> x = ParseError.
Proof.
  intros Hb offs. induction offs as [|o offs IH]; intros F T x; cbn [book_integers]; [discriminate|].
  inversion F as [|? ? Ho F']; subst. destruct (record_ok utf8 content (48 + o) Hb ltac:(unfold u32 in Ho; lia)) as [R1 R2].
  destruct (book_record utf8 content (48 + o)) as [[t v]|y]; cbn [bind]; [|intros E; apply R2; congruence].
  destruct (T o t v) as (z & ->); [left; reflexivity|apply R1; reflexivity|]. cbn [bind].
  destruct (book_integers utf8 content 48 offs) as [l'|y]; cbn [bind]; [discriminate|]. intros E. apply IH; [exact F'| |congruence]. intros p t' w I. apply T. right. exact I.
Qed.
Lemma strings_typed utf8 content : is_bytes content -> forall offs, Forall u32 offs -> (forall p t w, In p offs -> book_record_at utf8 content (48 + p) t w -> exists z, w = BText z) ->
  forall x, book_strings utf8 content 48 offs = Err x -> x = ParseError.
Proof.
  intros Hb offs. induction offs as [|o offs IH]; intros F T x; cbn [book_strings]; [discriminate|].
  inversion F as [|? ? Ho F']; subst. destruct (record_ok utf8 content (48 + o) Hb ltac:(unfold u32 in Ho; lia)) as [R1 R2].
  destruct (book_record utf8 content (48 + o)) as [[t v]|y]; cbn [bind]; [|intros E; apply R2; congruence].
  destruct (T o t v) as (z & ->); [left; reflexivity|apply R1; reflexivity|]. cbn [bind].
  destruct (book_strings utf8 content 48 offs) as [l'|y]; cbn [bind]; [discriminate|]. intros E. apply IH; [exact F'| |congruence]. intros p t' w I. apply T. right. exact I.
Qed.

Lemma item_typed utf8 content tag off x : is_bytes content -> u32 off ->
  (forall type v, book_record_at utf8 content (48 + off) type v -> book_type_ok utf8 content tag type v) -> book_item_of utf8 content 48 (tag, off) = Err x -> x = ParseError.
Proof.
  intros Hb Ho T. unfold book_item_of. destruct (record_ok utf8 content (48 + off) Hb ltac:(unfold u32 in Ho; lia)) as [R1 R2].
  destruct (book_record utf8 content (48 + off)) as [[type v]|y]; cbn [bind]; [|intros E; apply R2; congruence].
  pose proof (proj1 (R1 type v) eq_refl) as Rec. specialize (T type v Rec). unfold book_type_ok in T. destruct Rec as (data & Ht & Hs & D & S).
  assert (Hv : forall d, v = BData d -> is_bytes d).
  { intros d ->. apply data_bytes in D. subst d. apply at_bytes in S; [|exact Hb]. apply Forall_app in S as [_ S]. apply Forall_app in S as [_ S]. exact S. }
  destruct (type =? 0x400).
  { destruct T as (b & d & ->). cbn [book_stream]. destruct (rd_data (rd_bytes 8) (b :: d)) eqn:Q; cbn [bind]; [discriminate|]. intros E.
    eapply (rd_data_errors (rd_bytes 8) _ (b :: d)); [apply reads_bytes|apply Hv; reflexivity|]. rewrite Q. congruence. }
  destruct T as (T1 & T2 & T3).
  destruct (Z.eqb_spec tag 0x1004) as [->|].
  { destruct (T1 eq_refl) as (l & -> & T). cbn [bind]. destruct (book_strings utf8 content 48 l) eqn:Q; cbn [bind]; [discriminate|].
    intros E. eapply strings_typed; [exact Hb|eapply data_u32; exact D|exact T|]. rewrite Q. congruence. }
  destruct (Z.eqb_spec tag 0x1005) as [->|].
  { destruct (T2 eq_refl) as (l & -> & T). cbn [bind]. destruct (book_integers utf8 content 48 l) eqn:Q; cbn [bind]; [discriminate|].
    intros E. eapply ints_typed; [exact Hb|eapply data_u32; exact D|exact T|]. rewrite Q. congruence. }
  destruct ((tag =? 0x1010) || (tag =? 0x2020)) eqn:Et; [|discriminate]. fold flags_reader. apply orb_true_iff in Et. rewrite !Z.eqb_eq in Et. destruct (T3 Et) as (b & d & ->). cbn [book_stream].
  destruct (rd_data flags_reader (b :: d)) eqn:Q; cbn [bind]; [discriminate|]. intros E. eapply (rd_data_errors flags_reader _ (b :: d)); [apply flags_reads|apply Hv; reflexivity|]. rewrite Q. congruence.
Qed.

Lemma items_typed utf8 content : is_bytes content -> forall toc, Forall (fun tv => u32 (snd tv)) toc ->
  (forall tag off type v, In (tag, off) toc -> book_record_at utf8 content (48 + off) type v -> book_type_ok utf8 content tag type v) ->
  forall x, book_items utf8 content 48 toc = Err x -> x = ParseError.
Proof.
  intros Hb toc. induction toc as [|[tag off] toc IH]; intros F T x; cbn [book_items]; [discriminate|]. inversion F as [|? ? Ho F']; subst.
  destruct (book_item_of utf8 content 48 (tag, off)) as [i|] eqn:Q; cbn [bind]; [|intros E; apply (item_typed utf8 content tag off x Hb Ho); [intros type v; apply T; left; reflexivity|rewrite Q; congruence]].
  destruct (book_items utf8 content 48 toc) as [l'|]; cbn [bind]; [discriminate|]. intros E. apply IH; [exact F'| |congruence]. intros t o type v I. apply T. right. exact I.
Qed.

Lemma read_book_typed utf8 content x : is_bytes content ->
  (forall toc tag off type v, book_contents content toc -> In (tag, off) toc -> book_record_at utf8 content (48 + off) type v -> book_type_ok utf8 content tag type v) ->
  read_book utf8 content = Err x -> x = ParseError.
Proof.
  intros Hb T. pose proof (len_nonneg content) as Ln. unfold read_book.
  destruct (reads_at _ _ content 0 header_reads ltac:(apply solid_bind, solid_bytes; lia) Hb ltac:(lia)) as [_ H2].
  destruct (reads_at _ _ content 48 reads_l32 ltac:(apply solid_int; cbn; lia) Hb ltac:(lia)) as [S1 S2].
  destruct (rd_book_header content 0) as [[[sz off] p]|]; cbn [bind fst snd]; [|intros E; apply H2; congruence].
  destruct (Z.eqb_spec sz (len content)) as [->|]; cbn [guard bind]; [|intros E; congruence]. destruct (Z.eqb_spec off 48) as [->|]; cbn [guard bind]; [|intros E; congruence].
  destruct (rd_int (FU LE 4) content 48) as [[size p2]|]; cbn [bind]; [|intros E; apply S2; congruence]. destruct (proj1 (S1 size p2) eq_refl) as (d & [Hsz ->] & Sd & _).
  destruct (reads_at _ _ content (48 + size) toc_reads ltac:(apply solid_bind, solid_int; cbn; lia) Hb ltac:(unfold u32 in Hsz; lia)) as [T1 T2].
  destruct (rd_book_toc content (48 + size)) as [[toc p3]|]; cbn [bind]; [|intros E; apply T2; congruence]. destruct (proj1 (T1 toc p3) eq_refl) as (dt & Ht & Stt & _).
  apply items_typed; [exact Hb|eapply toc_u32; exact Ht|]. intros tag off type v. apply T. exists size, dt. auto.
Qed.

From Verif Require Import Base BaseFacts CoreModel CoreProofs VarModel VarFacts SeqModel SeqSpec SeqFacts StructFacts.
From Verif Require Import WmiModel WmiSpec.

Lemma le4_u32 z : is_u32 z <-> fval_ok (FU LE 4) (VI z).
Proof. unfold is_u32. cbn [fval_ok]. change (256 ^ Z.of_nat 4) with (2 ^ 32). reflexivity. Qed.

Lemma wf1 : Forall fkind_wf [FU LE 4].
Proof. kinds_wf. Qed.

Lemma le4_back z : is_u32 z -> le_int (le_enc 4 z) = z.
Proof. intros H. apply le_int_enc. change (256 ^ Z.of_nat 4) with (2 ^ 32). exact H. Qed.

Lemma le4_split d : is_bytes d -> 4 <= len d -> exists z r, is_u32 z /\ d = le_enc 4 z ++ r /\ le_int (zfirstn 4 d) = z.
Proof.
  intros Hb Hl. exists (le_int (zfirstn 4 d)), (zskipn 4 d).
  pose proof (le_int_bounds (zfirstn 4 d) (is_bytes_zfirstn _ _ Hb)) as B. rewrite len_zfirstn in B.
  replace (Z.min (Z.max 0 4) (len d)) with 4 in B by lia. change (256 ^ 4) with (2 ^ 32) in B.
  split; [exact B|]. split; [|reflexivity].
  pose proof (le_enc_int (zfirstn 4 d) (is_bytes_zfirstn _ _ Hb)) as E.
  assert (L : length (zfirstn 4 d) = 4%nat) by (apply Nat2Z.inj; fold (len (zfirstn 4 d)); rewrite len_zfirstn; lia).
  rewrite L in E. rewrite E. symmetry. apply zfirstn_zskipn.
Qed.

Lemma entries_len pad l d : 0 <= pad -> entries pad l d -> len d = (4 + pad) * len l.
Proof.
  intros Hp H. induction H as [|n l x d Hn Hx H IH]; [change (len (@nil Z)) with 0; lia|].
  rewrite !len_app, len_cons, IH, len_le_enc. lia.
Qed.

Lemma entries_back pad l d r : 0 <= pad -> entries pad l d -> le_ints 4 (4 + pad) (length l) (d ++ r) = l.
Proof.
  intros Hp H. induction H as [|n l x d Hn Hx H IH]; [reflexivity|]. cbn [length le_ints]. rewrite <- !app_assoc.
  f_equal.
  - rewrite zfirstn_app_len by (rewrite len_le_enc; reflexivity). apply le4_back, Hn.
  - rewrite app_assoc, zskipn_app_len by (rewrite len_app, len_le_enc; lia). exact IH.
Qed.

Lemma entries_read pad k : forall d, 0 <= pad -> is_bytes d -> len d = (4 + pad) * Z.of_nat k ->
  entries pad (le_ints 4 (4 + pad) k d) d.
Proof.
  induction k as [|k IH]; intros d Hp Hb Hl.
  - replace d with (@nil Z) by (symmetry; apply len_zero; lia). constructor.
  - cbn [le_ints]. destruct (le4_split d Hb ltac:(lia)) as (z & r & Hz & E & ->).
    assert (Hr : is_bytes r) by (rewrite E, is_bytes_app in Hb; tauto).
    assert (Lr : len r = pad + (4 + pad) * Z.of_nat k) by (rewrite E, len_app, len_le_enc in Hl; lia).
    assert (S : zskipn (4 + pad) d = zskipn pad r).
    { rewrite E, <- (zfirstn_zskipn r pad) at 1. rewrite app_assoc. apply zskipn_app_len. rewrite len_app, len_le_enc, len_zfirstn. lia. }
    rewrite S, E. rewrite <- (zfirstn_zskipn r pad) at 2. constructor; [exact Hz|rewrite len_zfirstn; lia|].
    apply IH; [exact Hp|apply is_bytes_zskipn, Hr|rewrite len_zskipn; lia].
Qed.

Lemma le_ints_length p s n d : length (le_ints p s n d) = n.
Proof. revert d. induction n as [|n IH]; intros d; [reflexivity|]. cbn [le_ints length]. rewrite IH. reflexivity. Qed.

Lemma read_table_iff size pad content off l n : is_bytes content -> 0 <= off -> 0 <= pad -> size = 4 + pad ->
  (read_table size content off = Ok (l, n) <-> exists d, stored_at content off d /\ table_bytes pad l d /\ n = len d).
Proof.
  intros Hb Ho Hp ->. unfold read_table. split.
  - destruct (read_var _ _ _ _) as [[[vs d] m]|] eqn:E; cbn [bind]; [|discriminate].
    pose proof (read_var_fval _ _ _ _ _ _ _ Hb wf1 E) as [F Hd]. vals F.
    pose proof (read_var_ok _ _ _ _ _ _ _ E) as (R & H0 & Hl & Ed & En).
    apply read_struct_iff in R as [St _]; [|exact Hb|kinds_wf|cbn; lia].
    intros Q. assert (l = le_ints 4 (4 + pad) (Z.to_nat z) d /\ n = m) as [-> ->] by (split; congruence). exists (le_enc 4 z ++ d).
    assert (Hz : is_u32 z) by (apply le4_u32; assumption).
    assert (Le : len (le_ints 4 (4 + pad) (Z.to_nat z) d) = z)
      by (unfold len; rewrite le_ints_length, Z2Nat.id; [reflexivity|unfold is_u32 in Hz; lia]).
    cbn [struct_size fsize Nat.add] in *. change (Z.of_nat 4) with 4 in *.
    split; [|split].
    + apply stored_at_app. cbn [enc_struct enc_field enc_int app] in St. rewrite app_nil_r in St. split; [exact St|].
      apply stored_at_iff. pose proof (stored_at_inside _ _ _ St) as [_ I]. rewrite len_le_enc in I. rewrite len_le_enc.
      change (Z.of_nat 4) with 4 in *. split; [lia|]. split; [lia|]. rewrite Hl. symmetry. exact Ed.
    + unfold table_bytes. rewrite Le. split; [exact Hz|]. eexists. split; [reflexivity|]. apply entries_read; [exact Hp|exact Hd|].
      rewrite Hl, Z2Nat.id by (unfold is_u32 in Hz; lia). reflexivity.
    + rewrite len_app, len_le_enc, En, Hl. reflexivity.
  - intros (d & (pre & post & -> & <-) & (Hu & d' & -> & He) & ->).
    pose proof (entries_len _ _ _ Hp He) as L.
    replace (pre ++ (le_enc 4 (len l) ++ d') ++ post) with (pre ++ enc_struct [FU LE 4] [VI (len l)] ++ d' ++ post)
      by (cbn [enc_struct enc_field enc_int]; rewrite app_nil_r, <- !app_assoc; reflexivity).
    rewrite read_var_enc; [|constructor; [apply le4_u32, Hu|constructor]|reflexivity|cbv beta iota; lia].
    cbn [bind]. f_equal. f_equal.
    + pose proof (entries_back _ _ _ [] Hp He) as B. rewrite app_nil_r in B. replace (Z.to_nat (len l)) with (length l) by (unfold len; lia). exact B.
    + rewrite len_app, len_le_enc. reflexivity.
Qed.

Lemma table_len pad l d : 0 <= pad -> table_bytes pad l d -> len d = 4 + (4 + pad) * len l.
Proof. intros Hp (_ & d' & -> & He). rewrite len_app, len_le_enc, (entries_len _ _ _ Hp He). lia. Qed.

Lemma read_map_tables_iff v content off l pos : is_bytes content -> 0 <= off ->
  (read_map_tables v content off = Ok (l, pos) <-> exists d, stored_at content off d /\ map_tables v l d /\ pos = off + len d).
Proof.
  intros Hb Ho. unfold read_map_tables.
  assert (Hs : map_entry_size v = 4 + (if v =? 1 then 0 else 20)) by (unfold map_entry_size; destruct (v =? 1); reflexivity).
  assert (Hp : 0 <= (if v =? 1 then 0 else 20)) by (destruct (v =? 1); lia).
  split.
  - destruct (read_table (map_entry_size v) content off) as [[t n]|] eqn:E1; cbn [bind]; [|discriminate].
    apply (read_table_iff _ _ _ _ _ _ Hb Ho Hp Hs) in E1 as (d1 & St1 & T1 & ->).
    pose proof (len_nonneg d1).
    destruct (read_table 4 content (off + len d1)) as [[u m]|] eqn:E2; cbn [bind]; [|discriminate].
    apply (read_table_iff 4 0) in E2 as (d2 & St2 & T2 & ->); [|exact Hb|lia|lia|lia].
    pose proof (len_nonneg d2).
    destruct (read_struct _ _ _) as [vs|] eqn:E3; cbn [bind]; [|discriminate].
    pose proof (read_struct_fval _ _ _ _ Hb wf1 E3) as F. vals F.
    apply read_struct_iff in E3 as [St3 _]; [|exact Hb|kinds_wf|cbn; lia].
    destruct (Z.eqb_spec z 0xdcba) as [->|]; cbn [guard bind]; [|discriminate].
    intros [= <- <-]. exists (d1 ++ d2 ++ le_enc 4 0xdcba). split; [|split].
    + apply stored_at_app. split; [exact St1|]. apply stored_at_app. split; [exact St2|].
      cbn [enc_struct enc_field enc_int app] in St3. rewrite app_nil_r in St3. exact St3.
    + exists d1, d2, u. auto.
    + rewrite !len_app, len_le_enc. lia.
  - intros (d & St & (t & u & unk & -> & T & U) & ->).
    apply stored_at_app in St as [St1 St]. apply stored_at_app in St as [St2 St3].
    pose proof (len_nonneg t). pose proof (len_nonneg u).
    rewrite (proj2 (read_table_iff _ _ content off l (len t) Hb Ho Hp Hs)) by eauto. cbn [bind].
    rewrite (proj2 (read_table_iff 4 0 content (off + len t) unk (len u) Hb ltac:(lia) ltac:(lia) ltac:(lia))) by eauto. cbn [bind].
    rewrite (proj2 (read_struct_iff content [FU LE 4] (off + len t + len u) [VI 0xdcba] Hb ltac:(kinds_wf) ltac:(cbn; lia))).
    + cbn [bind]. change (0xdcba =? 0xdcba) with true. cbn [guard bind]. f_equal. f_equal. rewrite !len_app, len_le_enc. lia.
    + split; [|repeat constructor; cbn; lia]. cbn [enc_struct enc_field enc_int app]. rewrite app_nil_r. exact St3.
Qed.

Lemma read_table_err size content off : 0 <= off -> is_bytes content -> errs (fun e => e = ParseError) (read_table size content off).
Proof.
  intros Ho Hb. unfold read_table. apply errs_bind; [apply errs_read_var; auto|]. intros [[vs d] n] E.
  pose proof (read_var_fval _ _ _ _ _ _ _ Hb wf1 E) as [F _]. vals F. apply errs_ok.
Qed.

Lemma read_map_tables_err v content off : 0 <= off -> is_bytes content -> errs (fun e => e = ParseError) (read_map_tables v content off).
Proof.
  intros Ho Hb. unfold read_map_tables. apply errs_bind; [apply read_table_err; auto|]. intros [t n] E1.
  assert (0 <= n).
  { unfold read_table in E1. destruct (read_var _ _ _ _) as [[[vs d] k]|] eqn:R; cbn [bind] in E1; [|discriminate].
    apply read_var_inside in R; [|cbn; lia]. cbn in R. destruct vs as [|[k'|] [|]]; try discriminate. injection E1 as _ <-. lia. }
  apply errs_bind; [apply read_table_err; [lia|exact Hb]|]. intros [u m] E2.
  assert (0 <= m).
  { unfold read_table in E2. destruct (read_var _ _ _ _) as [[[vs d] k]|] eqn:R; cbn [bind] in E2; [|discriminate].
    apply read_var_inside in R; [|cbn; lia]. cbn in R. destruct vs as [|[k'|] [|]]; try discriminate. injection E2 as _ <-. lia. }
  apply errs_bind; [apply errs_read_struct; [reflexivity|lia]|]. intros vs E3.
  pose proof (read_struct_fval _ _ _ _ Hb wf1 E3) as F. vals F. apply errs_bind; [apply errs_guard; reflexivity|].
  intros ? _. apply errs_ok.
Qed.

Lemma head_len v s h : map_head v s h -> len h = map_header_size v.
Proof. intros (_ & more & -> & L). rewrite !len_app, !len_le_enc, L. unfold map_header_size. destruct (v =? 1); reflexivity. Qed.

Lemma header_wf v : Forall fkind_wf (map_header v).
Proof. unfold map_header. destruct (v =? 1); kinds_wf. Qed.

Lemma header_pos v : (0 < struct_size (map_header v))%nat.
Proof. unfold map_header. destruct (v =? 1); cbn; lia. Qed.

(** The values behind the signature of a header. *)
Definition head_vals (v : Z) (r : list fval) (s : Z) : Prop :=
  exists a, if v =? 1 then r = [VI s; VI a] else exists b c, r = [VI s; VI a; VI b; VI c].

Lemma read_map_header_ok v content off r : is_bytes content -> read_map_header v content off = Ok r ->
  exists s, head_vals v r s /\ stored_at content off (le_enc 4 0xabcd ++ concat (map (fun x => match x with VI z => le_enc 4 z | VB b => b end) r)) /\
    Forall (fval_ok (FU LE 4)) r.
Proof.
  intros Hb. unfold read_map_header. destruct (read_struct _ _ _) as [vs|] eqn:E; cbn [bind]; [|discriminate].
  apply read_struct_iff in E as [St F]; [|exact Hb|apply header_wf|apply header_pos].
  unfold map_header, head_vals in *. destruct (v =? 1) eqn:V.
  - vals F. match goal with |- context [guard (?x =? _)] => destruct (Z.eqb_spec x 0xabcd) as [->|]; cbn [guard bind]; [|discriminate] end. intros [= <-].
    eexists. split; [eauto|]. split; [cbn [enc_struct enc_field enc_int map concat] in *; exact St|repeat (apply Forall_cons; [assumption|]); constructor].
  - vals F. match goal with |- context [guard (?x =? _)] => destruct (Z.eqb_spec x 0xabcd) as [->|]; cbn [guard bind]; [|discriminate] end. intros [= <-].
    eexists. split; [eauto|]. split; [cbn [enc_struct enc_field enc_int map concat] in *; exact St|repeat (apply Forall_cons; [assumption|]); constructor].
Qed.

Lemma read_map_header_head v content off r : is_bytes content -> read_map_header v content off = Ok r ->
  exists s r' h, r = VI s :: r' /\ stored_at content off h /\ map_head v s h.
Proof.
  intros Hb E. destruct (read_map_header_ok v content off r Hb E) as (s & (a & V) & St & F). unfold map_head.
  destruct (v =? 1).
  - subst r. exists s, [VI a]. eexists. split; [reflexivity|]. split; [exact St|]. inversion_clear F. split; [apply le4_u32; assumption|].
    eexists. split; [reflexivity|]. cbn [map concat]. rewrite app_nil_r, len_le_enc. reflexivity.
  - destruct V as (b & c & ->). exists s, [VI a; VI b; VI c]. eexists. split; [reflexivity|]. split; [exact St|].
    inversion_clear F. split; [apply le4_u32; assumption|].
    eexists. split; [reflexivity|]. cbn [map concat]. rewrite app_nil_r, !len_app, !len_le_enc. reflexivity.
Qed.

Lemma read_map_header_complete v s h content off : is_bytes content -> stored_at content off h -> map_head v s h ->
  exists r, read_map_header v content off = Ok (VI s :: r).
Proof.
  intros Hb St (Hs & more & -> & L). unfold read_map_header.
  pose proof (is_bytes_stored _ _ _ Hb St) as Hh. rewrite !is_bytes_app in Hh. destruct Hh as (_ & _ & Hm).
  assert (X : exists r, enc_struct (map_header v) (VI 0xabcd :: VI s :: r) = le_enc 4 0xabcd ++ le_enc 4 s ++ more /\
     Forall2 fval_ok (map_header v) (VI 0xabcd :: VI s :: r)).
  { unfold map_header. destruct (v =? 1).
    - destruct (le4_split more Hm ltac:(lia)) as (a & m1 & Ha & -> & _). rewrite len_app, len_le_enc in L.
      replace m1 with (@nil Z) by (symmetry; apply len_zero; lia).
      exists [VI a]. split; [reflexivity|]. repeat constructor; try (apply le4_u32; assumption); cbn; lia.
    - destruct (le4_split more Hm ltac:(lia)) as (a & m1 & Ha & -> & _). rewrite len_app, len_le_enc in L. rewrite is_bytes_app in Hm. destruct Hm as [_ Hm].
      destruct (le4_split m1 Hm ltac:(lia)) as (b & m2 & Hb' & -> & _). rewrite len_app, len_le_enc in L. rewrite is_bytes_app in Hm. destruct Hm as [_ Hm].
      destruct (le4_split m2 Hm ltac:(lia)) as (c & m3 & Hc & -> & _). rewrite len_app, len_le_enc in L.
      replace m3 with (@nil Z) by (symmetry; apply len_zero; lia).
      exists [VI a; VI b; VI c]. split; [reflexivity|].
      repeat (constructor; [first [apply le4_u32; assumption|cbn; lia]|]). constructor. }
  destruct X as (r & X & F). exists r.
  rewrite (proj2 (read_struct_iff content (map_header v) off (VI 0xabcd :: VI s :: r) Hb (header_wf v) (header_pos v))).
  - cbn [bind]. change (0xabcd =? 0xabcd) with true. reflexivity.
  - rewrite X. auto.
Qed.

Lemma read_map_header_err v content off : is_bytes content -> 0 <= off -> errs (fun e => e = ParseError) (read_map_header v content off).
Proof.
  intros Hb Ho. unfold read_map_header. apply errs_bind; [apply errs_read_struct; auto|]. intros vs E.
  pose proof (read_struct_fval _ _ _ _ Hb (header_wf v) E) as F. unfold map_header in F.
  destruct (v =? 1); vals F; (apply errs_bind; [apply errs_guard; reflexivity|]; intros ? _; apply errs_ok).
Qed.

Lemma map_version_iff content v : is_bytes content ->
  (map_version content = Ok v -> v = 2 /\ version2 content \/ v = 1 /\ ~ version2 content) /\
  (version2 content -> map_version content = Ok 2).
Proof.
  intros Hb.
  assert (C : version2 content -> map_version content = Ok 2).
  { intros (s & b & p & rest & Hs & Hb1 & Hb0 & Hp & E). unfold map_version, read_map_header.
    rewrite (proj2 (read_struct_iff content (map_header 2) 0 [VI 0xabcd; VI s; VI (b + 1); VI b; VI p] Hb (header_wf 2) (header_pos 2))).
    - cbn [bind]. change (0xabcd =? 0xabcd) with true. cbn [guard bind]. rewrite Z.eqb_refl. reflexivity.
    - split.
      + exists [], rest. split; [|reflexivity]. rewrite E. unfold map_header. change (2 =? 1) with false. cbn [enc_struct enc_field enc_int app].
        rewrite app_nil_r, <- !app_assoc. reflexivity.
      + unfold map_header. change (2 =? 1) with false. repeat (constructor; [first [apply le4_u32; assumption|cbn; lia]|]). constructor. }
  split; [|exact C]. intros E. pose proof E as E'. unfold map_version in E.
  destruct (read_map_header 2 content 0) as [r|] eqn:R; cbn [bind] in E; [|discriminate].
  destruct (read_map_header_ok _ _ _ _ Hb R) as (s & (a & V) & St & F). change (2 =? 1) with false in V. destruct V as (b & c & ->).
  injection E as <-. destruct (Z.eqb_spec a (b + 1)) as [->|N].
  - left. split; [reflexivity|]. destruct St as (pre & post & Ec & L). apply len_zero in L. subst pre. cbn [app] in Ec.
    exists s, b, c, post. repeat match goal with H : Forall _ (_ :: _) |- _ => inversion_clear H end.
    repeat (split; [apply le4_u32; assumption|]). rewrite Ec. cbn [map concat]. rewrite <- !app_assoc. reflexivity.
  - right. split; [reflexivity|]. intros H. apply C in H. rewrite H in E'. discriminate.
Qed.

Lemma map_version_err content : is_bytes content -> errs (fun e => e = ParseError) (map_version content).
Proof.
  intros Hb. unfold map_version. apply errs_bind; [apply read_map_header_err; [exact Hb|lia]|]. intros r E.
  destruct (read_map_header_ok _ _ _ _ Hb E) as (s & (a & V) & _). change (2 =? 1) with false in V. destruct V as (b & c & ->). apply errs_ok.
Qed.

(** A section of version 1 has more bytes than a header of version 2. *)
Lemma tables_len v l d : map_tables v l d -> 12 <= len d.
Proof.
  intros (t & u & unk & -> & T & U). apply table_len in T; [|destruct (v =? 1); lia]. apply table_len in U; [|lia].
  rewrite !len_app, len_le_enc, T, U. pose proof (len_nonneg l). pose proof (len_nonneg unk). destruct (v =? 1); lia.
Qed.

Lemma map_version_total v s h t content : is_bytes content -> map_head v s h -> stored_at content 0 (h ++ t) -> 12 <= len t ->
  exists w, map_version content = Ok w.
Proof.
  intros Hb (Hs & more & -> & L) St Lt. unfold map_version.
  destruct (read_map_header_complete 2 s (le_enc 4 0xabcd ++ le_enc 4 s ++ zfirstn 12 (more ++ t)) content 0 Hb) as [r R].
  - destruct St as (pre & post & E & L0). exists pre, (zskipn 12 (more ++ t) ++ post). split; [|exact L0]. rewrite E. f_equal.
    rewrite <- !app_assoc. do 2 f_equal. rewrite !app_assoc. f_equal. symmetry. apply zfirstn_zskipn.
  - split; [exact Hs|]. eexists. split; [reflexivity|]. change (2 =? 1) with false. cbv iota. rewrite len_zfirstn, len_app. pose proof (len_nonneg more). lia.
  - rewrite R. cbn [bind]. destruct (read_map_header_ok _ _ _ _ Hb R) as (s' & (a & V) & _). change (2 =? 1) with false in V. destruct V as (b & c & V).
    injection V as _ ->. eauto.
Qed.

Lemma read_map_sound content m : is_bytes content -> read_map content = Ok m -> map_file m content.
Proof.
  intros Hb. unfold read_map, read_map_again. destruct (map_version content) as [v|] eqn:V; cbn [bind]; [|discriminate].
  apply (proj1 (map_version_iff content v Hb)) in V.
  destruct (read_map_header v content 0) as [r|] eqn:H1; cbn [bind]; [|discriminate].
  apply read_map_header_head in H1 as (s & r' & h & -> & Sh & Hh); [|exact Hb].
  pose proof (head_len _ _ _ Hh) as Lh. pose proof (len_nonneg h).
  destruct (read_map_tables v content (map_header_size v)) as [[l1 pos]|] eqn:T1; cbn [bind]; [|discriminate].
  apply read_map_tables_iff in T1 as (t & Stt & Ht & ->); [|exact Hb|lia]. pose proof (len_nonneg t).
  assert (P : exists rest, content = h ++ t ++ rest).
  { rewrite <- Lh in Stt. change (len h) with (0 + len h) in Stt.
    pose proof (proj2 (stored_at_app content 0 h t) (conj Sh Stt)) as (pre & post & E & L). apply len_zero in L. subst pre.
    exists post. rewrite E, <- app_assoc. reflexivity. }
  destruct P as [rest P].
  assert (Sk : forall d, stored_at content (map_header_size v + len t) d <-> exists r, rest = d ++ r).
  { intros d. rewrite P, <- Lh. split.
    - intros (pre & post & E & L). exists post. rewrite app_assoc in E. apply (f_equal (zskipn (len h + len t))) in E.
      rewrite !zskipn_app_len in E by (rewrite ?len_app; lia). exact E.
    - intros [r ->]. exists (h ++ t), r. rewrite len_app, <- app_assoc. auto. }
  assert (No : forall e, read_map_header v content (map_header_size v + len t) = Err e -> ~ exists s h' rest', rest = h' ++ rest' /\ map_head v s h').
  { intros e E (s' & h' & r2 & -> & Hh'). destruct (read_map_header_complete v s' h' content (map_header_size v + len t) Hb) as [r3 R].
    - apply Sk. eauto.
    - exact Hh'.
    - rewrite R in E. discriminate. }
  destruct ((v =? 2) || (map_header_size v + len t <? len content)) eqn:C.
  - destruct (read_map_header v content (map_header_size v + len t)) as [r2|e] eqn:H2.
    + apply read_map_header_head in H2 as (s2 & r2' & h2 & -> & Sh2 & Hh2); [|exact Hb].
      pose proof (head_len _ _ _ Hh2) as Lh2. pose proof (len_nonneg h2).
      destruct (read_map_tables v content (map_header_size v + len t + map_header_size v)) as [[l2 p2]|] eqn:T2; cbn [bind]; [|discriminate].
      apply read_map_tables_iff in T2 as (t2 & Stt2 & Ht2 & ->); [|exact Hb|lia].
      intros [= <-]. exists h, t, rest. cbn [mf_version mf_sequence mf_table1 mf_table2]. repeat (split; [assumption|]).
      rewrite <- Lh2 in Stt2 at 2. pose proof (proj2 (stored_at_app _ _ h2 t2) (conj Sh2 Stt2)) as X. apply Sk in X as [r3 ->].
      exists s2, h2, t2, r3. rewrite <- app_assoc. auto.
    + assert (e = ParseError) as -> by (apply (read_map_header_err v content _ Hb) with (2 := H2); lia).
      destruct (Z.eqb_spec v 2) as [->|N]; [discriminate|]. intros [= <-]. assert (v = 1) as -> by tauto.
      exists h, t, rest. cbn [mf_version mf_sequence mf_table1 mf_table2]. repeat (split; [assumption|]).
      split; [reflexivity|]. eapply No. reflexivity.
  - intros [= <-]. apply Bool.orb_false_iff in C as [C1 C2]. assert (v = 1) as -> by (destruct V as [[-> _]|[-> _]]; [discriminate|reflexivity]).
    exists h, t, rest. cbn [mf_version mf_sequence mf_table1 mf_table2]. repeat (split; [assumption|]).
    split; [reflexivity|]. intros (s' & h' & r2 & -> & Hh'). pose proof (head_len _ _ _ Hh') as Lh'.
    rewrite P in C2. rewrite !len_app in C2. pose proof (len_nonneg r2). change (map_header_size 1) with 12 in *. lia.
Qed.

Lemma read_map_complete content m : is_bytes content -> map_file m content -> read_map content = Ok m.
Proof.
  intros Hb (h & t & rest & P & Hh & Ht & V & T2). destruct m as [v s l1 l2]. cbn [mf_version mf_sequence mf_table1 mf_table2] in *.
  pose proof (head_len _ _ _ Hh) as Lh. pose proof (len_nonneg h). pose proof (len_nonneg t).
  assert (Sht : stored_at content 0 (h ++ t)) by (exists [], rest; rewrite P, <- app_assoc; auto).
  assert (V1 : v = 1 \/ v = 2) by tauto.
  assert (Ev : map_version content = Ok v).
  { destruct (map_version_total v s h t content Hb Hh Sht (tables_len _ _ _ Ht)) as [w W]. rewrite W.
    apply (proj1 (map_version_iff content w Hb)) in W. f_equal. destruct V as [[-> ?]|[-> ?]], W as [[-> ?]|[-> ?]]; tauto. }
  unfold read_map, read_map_again. rewrite Ev. cbn [bind].
  apply stored_at_app in Sht as [Sh St]. cbn [Z.add] in St.
  destruct (read_map_header_complete v s h content 0 Hb Sh Hh) as [r R]. rewrite R. cbn [bind].
  rewrite (proj2 (read_map_tables_iff v content (map_header_size v) l1 (map_header_size v + len t) Hb ltac:(lia))) by (rewrite <- Lh; eauto).
  cbn [bind].
  assert (Sk : forall d r, rest = d ++ r -> stored_at content (map_header_size v + len t) d).
  { intros d r' ->. exists (h ++ t), r'. rewrite P, len_app, <- app_assoc, Lh. auto. }
  destruct l2 as [l2|].
  - destruct T2 as (s2 & h2 & t2 & r2 & E & Hh2 & Ht2). pose proof (head_len _ _ _ Hh2) as Lh2.
    assert (C : (v =? 2) || (map_header_size v + len t <? len content) = true).
    { destruct V1 as [-> | ->]; [|reflexivity]. change (1 =? 2) with false. cbn [orb]. apply Z.ltb_lt. rewrite P, E, !len_app.
      pose proof (len_nonneg r2). pose proof (len_nonneg t2). change (map_header_size 1) with 12 in *. lia. }
    rewrite C. destruct (read_map_header_complete v s2 h2 content (map_header_size v + len t) Hb) as [r3 R3]; [eapply Sk; exact E|exact Hh2|].
    rewrite R3. rewrite app_assoc in E. apply Sk in E. apply stored_at_app in E as [_ E]. rewrite Lh2 in E.
    rewrite (proj2 (read_map_tables_iff v content (map_header_size v + len t + map_header_size v) l2 (map_header_size v + len t + map_header_size v + len t2) Hb ltac:(lia))) by eauto.
    reflexivity.
  - destruct T2 as [-> No]. destruct ((1 =? 2) || _); [|reflexivity].
    destruct (read_map_header 1 content (map_header_size 1 + len t)) as [r3|e] eqn:R3.
    + apply read_map_header_head in R3 as (s2 & r2' & h2 & -> & Sh2 & Hh2); [|exact Hb]. exfalso. apply No.
      destruct Sh2 as (pre & post & E & L). exists s2, h2, post. split; [|exact Hh2].
      rewrite P in E. rewrite app_assoc in E. apply (f_equal (zskipn (map_header_size 1 + len t))) in E.
      rewrite !zskipn_app_len in E by (rewrite ?len_app; lia). exact E.
    + assert (e = ParseError) as -> by (apply (read_map_header_err 1 content (map_header_size 1 + len t) Hb); [lia|exact R3]). reflexivity.
Qed.

Lemma read_map_err content e : is_bytes content -> read_map content = Err e -> e = ParseError.
Proof.
  intros Hb. revert e. change (errs (fun e => e = ParseError) (read_map content)). unfold read_map, read_map_again.
  apply errs_bind; [apply map_version_err, Hb|]. intros v _.
  apply errs_bind; [apply read_map_header_err; [exact Hb|lia]|]. intros r R.
  apply read_map_header_head in R as (s & r' & h & -> & _ & _); [|exact Hb].
  assert (0 <= map_header_size v) by (unfold map_header_size; destruct (v =? 1); lia).
  apply errs_bind; [apply read_map_tables_err; [lia|exact Hb]|]. intros [l1 pos] T.
  apply read_map_tables_iff in T as (t & _ & _ & ->); [|exact Hb|lia]. pose proof (len_nonneg t).
  destruct (_ || _); [|apply errs_ok].
  destruct (read_map_header v content _) as [r2|e] eqn:R2.
  - apply errs_bind; [apply read_map_tables_err; [lia|exact Hb]|]. intros [l2 p2] _. apply errs_ok.
  - assert (e = ParseError) as -> by (apply (read_map_header_err v content (map_header_size v + len t) Hb); [lia|exact R2]).
    destruct (v =? 2); [apply errs_err; reflexivity|apply errs_ok].
Qed.

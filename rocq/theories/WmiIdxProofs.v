From Coq Require Import Wellfounded.
From Verif Require Import Base BaseFacts CoreModel CoreProofs VarModel VarFacts SeqModel SeqSpec SeqFacts StructFacts StrModel DictModel.
From Verif Require Import GzipModel GzipProofs WmiModel WmiSpec WmiMapProofs.

(** ** Parts of a structure *)

Lemma take_int_iff sz d z r : is_bytes d ->
  (take_int (Z.of_nat sz) d = Ok (z, r) <-> 0 <= z < 256 ^ Z.of_nat sz /\ d = le_enc sz z ++ r).
Proof.
  intros Hb. unfold take_int. split.
  - destruct (Z.leb_spec (Z.of_nat sz) (len d)) as [L|]; [|discriminate]. intros E.
    assert (z = le_int (zfirstn (Z.of_nat sz) d) /\ r = zskipn (Z.of_nat sz) d) as [-> ->] by (split; congruence).
    pose proof (le_int_bounds _ (is_bytes_zfirstn (Z.of_nat sz) d Hb)) as B. rewrite len_zfirstn in B.
    replace (Z.min (Z.max 0 (Z.of_nat sz)) (len d)) with (Z.of_nat sz) in B by lia. split; [exact B|].
    pose proof (le_enc_int _ (is_bytes_zfirstn (Z.of_nat sz) d Hb)) as F.
    replace (length (zfirstn (Z.of_nat sz) d)) with sz in F by (apply Nat2Z.inj; fold (len (zfirstn (Z.of_nat sz) d)); rewrite len_zfirstn; lia).
    rewrite F. symmetry. apply zfirstn_zskipn.
  - intros [Hz ->]. rewrite len_app, len_le_enc. pose proof (len_nonneg r). destruct (Z.leb_spec (Z.of_nat sz) (Z.of_nat sz + len r)); [|lia].
    rewrite zfirstn_app_len, zskipn_app_len by (rewrite len_le_enc; reflexivity). rewrite le_int_enc by exact Hz. reflexivity.
Qed.

Lemma le_ints_enc sz l r : Forall (fun z => 0 <= z < 256 ^ Z.of_nat sz) l ->
  le_ints (Z.of_nat sz) (Z.of_nat sz) (length l) (enc_ints (FU LE sz) l ++ r) = l.
Proof.
  unfold enc_ints. induction 1 as [|z l Hz H IH]; [reflexivity|]. cbn [length le_ints map concat enc_field enc_int].
  rewrite <- app_assoc. rewrite zfirstn_app_len, zskipn_app_len by (rewrite len_le_enc; reflexivity).
  rewrite le_int_enc by exact Hz. f_equal. exact IH.
Qed.

Lemma le_ints_read sz k : forall d, is_bytes d -> Z.of_nat sz * Z.of_nat k <= len d ->
  let l := le_ints (Z.of_nat sz) (Z.of_nat sz) k d in
  Forall (fun z => 0 <= z < 256 ^ Z.of_nat sz) l /\ d = enc_ints (FU LE sz) l ++ zskipn (Z.of_nat sz * Z.of_nat k) d.
Proof.
  induction k as [|k IH]; intros d Hb L; cbn [le_ints].
  - split; [constructor|]. rewrite Z.mul_0_r, zskipn_0 by lia. reflexivity.
  - destruct (IH (zskipn (Z.of_nat sz) d)) as [F E]; [apply is_bytes_zskipn, Hb|rewrite len_zskipn; lia|].
    assert (T : take_int (Z.of_nat sz) d = Ok (le_int (zfirstn (Z.of_nat sz) d), zskipn (Z.of_nat sz) d))
      by (unfold take_int; destruct (Z.leb_spec (Z.of_nat sz) (len d)); [reflexivity|lia]).
    apply (take_int_iff sz d _ _ Hb) in T as [B T]. split; [constructor; [exact B|exact F]|].
    unfold enc_ints in *. cbn [map concat enc_field enc_int]. rewrite <- app_assoc. rewrite T at 1. f_equal. rewrite E at 1. f_equal.
    rewrite zskipn_zskipn by lia. f_equal. lia.
Qed.

Lemma take_ints_iff sz n d l r : is_bytes d -> 0 <= n ->
  (take_ints (Z.of_nat sz) n d = Ok (l, r) <->
   len l = n /\ Forall (fun z => 0 <= z < 256 ^ Z.of_nat sz) l /\ d = enc_ints (FU LE sz) l ++ r).
Proof.
  intros Hb Hn. unfold take_ints. split.
  - destruct (Z.leb_spec (Z.of_nat sz * n) (len d)) as [L|]; [|discriminate]. intros E.
    assert (l = le_ints (Z.of_nat sz) (Z.of_nat sz) (Z.to_nat n) d /\ r = zskipn (Z.of_nat sz * n) d) as [-> ->] by (split; congruence).
    destruct (le_ints_read sz (Z.to_nat n) d Hb) as [F G]; [rewrite Z2Nat.id; lia|]. rewrite Z2Nat.id in G by lia.
    split; [unfold len; rewrite le_ints_length; lia|]. split; assumption.
  - intros (L & F & ->). rewrite len_app. rewrite len_enc_ints by (exact F). cbn [fsize]. pose proof (len_nonneg r).
    destruct (Z.leb_spec (Z.of_nat sz * n) (len l * Z.of_nat sz + len r)); [|nia].
    rewrite zskipn_app_len by (rewrite len_enc_ints by exact F; cbn [fsize]; lia).
    replace (Z.to_nat n) with (length l) by (unfold len in L; lia). rewrite le_ints_enc by exact F. reflexivity.
Qed.

Lemma take_bytes_iff n d x r : 0 <= n -> (take_bytes n d = Ok (x, r) <-> len x = n /\ d = x ++ r).
Proof.
  intros Hn. unfold take_bytes. split.
  - destruct (Z.leb_spec n (len d)) as [L|]; [|discriminate]. intros E.
    assert (x = zfirstn n d /\ r = zskipn n d) as [-> ->] by (split; congruence).
    split; [rewrite len_zfirstn; lia|]. symmetry. apply zfirstn_zskipn.
  - intros [L ->]. rewrite len_app. pose proof (len_nonneg r). destruct (Z.leb_spec n (len x + len r)); [|lia].
    rewrite zfirstn_app_len, zskipn_app_len by lia. reflexivity.
Qed.

Definition body_layout subs key_offsets key_data value_offsets value_data (d : bytes) : Prop :=
  exists nkeys key_size unknown rest,
    is_u32 nkeys /\ len unknown = nkeys /\ len subs = nkeys + 1 /\ len key_offsets = nkeys /\
    is_u16 key_size /\ len key_data = 2 * key_size /\ is_u16 (len value_offsets) /\ is_u16 (len value_data) /\
    Forall is_u32 unknown /\ Forall is_u32 subs /\ Forall is_u16 key_offsets /\ Forall is_u16 value_offsets /\
    d = le_enc 4 nkeys ++ enc_ints (FU LE 4) unknown ++ enc_ints (FU LE 4) subs ++
        enc_ints (FU LE 2) key_offsets ++ le_enc 2 key_size ++ key_data ++
        le_enc 2 (len value_offsets) ++ enc_ints (FU LE 2) value_offsets ++
        le_enc 2 (len value_data) ++ value_data ++ rest.

Lemma is_bytes_tail (a b : bytes) : is_bytes (a ++ b) -> is_bytes b.
Proof. rewrite is_bytes_app. tauto. Qed.

Lemma page_body_iff d subs ko kd vo vd : is_bytes d ->
  (page_body d = Ok (subs, ko, kd, vo, vd) <-> body_layout subs ko kd vo vd d).
Proof.
  intros Hb. unfold page_body, body_layout. split.
  - change 4 with (Z.of_nat 4) at 1 2 3. change (take_ints 2) with (take_ints (Z.of_nat 2)). change (take_int 2) with (take_int (Z.of_nat 2)).
    destruct (take_int (Z.of_nat 4) d) as [[nk d1]|] eqn:E1; cbn [bind]; [|discriminate].
    apply take_int_iff in E1 as [B1 ->]; [|exact Hb]. apply is_bytes_tail in Hb.
    destruct (take_ints (Z.of_nat 4) nk d1) as [[unk d2]|] eqn:E2; cbn [bind]; [|discriminate].
    apply take_ints_iff in E2 as (L2 & F2 & ->); [|exact Hb|lia]. apply is_bytes_tail in Hb.
    destruct (take_ints (Z.of_nat 4) (nk + 1) d2) as [[sb d3]|] eqn:E3; cbn [bind]; [|discriminate].
    apply take_ints_iff in E3 as (L3 & F3 & ->); [|exact Hb|lia]. apply is_bytes_tail in Hb.
    destruct (take_ints (Z.of_nat 2) nk d3) as [[ko' d4]|] eqn:E4; cbn [bind]; [|discriminate].
    apply take_ints_iff in E4 as (L4 & F4 & ->); [|exact Hb|lia]. apply is_bytes_tail in Hb.
    destruct (take_int (Z.of_nat 2) d4) as [[ks d5]|] eqn:E5; cbn [bind]; [|discriminate].
    apply take_int_iff in E5 as [B5 ->]; [|exact Hb]. apply is_bytes_tail in Hb.
    destruct (take_bytes (2 * ks) d5) as [[kd' d6]|] eqn:E6; cbn [bind]; [|discriminate].
    apply take_bytes_iff in E6 as [L6 ->]; [|lia]. apply is_bytes_tail in Hb.
    destruct (take_int (Z.of_nat 2) d6) as [[nv d7]|] eqn:E7; cbn [bind]; [|discriminate].
    apply take_int_iff in E7 as [B7 ->]; [|exact Hb]. apply is_bytes_tail in Hb.
    destruct (take_ints (Z.of_nat 2) nv d7) as [[vo' d8]|] eqn:E8; cbn [bind]; [|discriminate].
    apply take_ints_iff in E8 as (L8 & F8 & ->); [|exact Hb|lia]. apply is_bytes_tail in Hb.
    destruct (take_int (Z.of_nat 2) d8) as [[vs d9]|] eqn:E9; cbn [bind]; [|discriminate].
    apply take_int_iff in E9 as [B9 ->]; [|exact Hb]. apply is_bytes_tail in Hb.
    destruct (take_bytes vs d9) as [[vd' d10]|] eqn:E10; cbn [bind]; [|discriminate].
    apply take_bytes_iff in E10 as [L10 ->]; [|lia].
    intros [= <- <- <- <- <-]. exists nk, ks, unk, d10. rewrite L8, L10.
    repeat (split; [first [assumption|lia]|]). reflexivity.
  - intros (nk & ks & unk & rest & B1 & L2 & L3 & L4 & B5 & L6 & B8 & B10 & F2 & F3 & F4 & F8 & ->).
    change (take_int 4) with (take_int (Z.of_nat 4)). change (take_ints 4) with (take_ints (Z.of_nat 4)).
    change (take_ints 2) with (take_ints (Z.of_nat 2)). change (take_int 2) with (take_int (Z.of_nat 2)).
    rewrite (proj2 (take_int_iff 4 _ _ _ Hb) (conj B1 eq_refl)). cbn [bind]. apply is_bytes_tail in Hb. unfold is_u32, is_u16 in *.
    rewrite (proj2 (take_ints_iff 4 nk _ _ _ Hb ltac:(lia)) (conj L2 (conj F2 eq_refl))). cbn [bind]. apply is_bytes_tail in Hb.
    rewrite (proj2 (take_ints_iff 4 (nk + 1) _ _ _ Hb ltac:(lia)) (conj L3 (conj F3 eq_refl))). cbn [bind]. apply is_bytes_tail in Hb.
    rewrite (proj2 (take_ints_iff 2 nk _ _ _ Hb ltac:(lia)) (conj L4 (conj F4 eq_refl))). cbn [bind]. apply is_bytes_tail in Hb.
    rewrite (proj2 (take_int_iff 2 _ _ _ Hb) (conj B5 eq_refl)). cbn [bind]. apply is_bytes_tail in Hb.
    rewrite (proj2 (take_bytes_iff (2 * ks) _ _ _ ltac:(lia)) (conj L6 eq_refl)). cbn [bind]. apply is_bytes_tail in Hb.
    rewrite (proj2 (take_int_iff 2 _ _ _ Hb) (conj B8 eq_refl)). cbn [bind]. apply is_bytes_tail in Hb.
    rewrite (proj2 (take_ints_iff 2 (len vo) _ _ _ Hb ltac:(lia)) (conj eq_refl (conj F8 eq_refl))). cbn [bind]. apply is_bytes_tail in Hb.
    rewrite (proj2 (take_int_iff 2 _ _ _ Hb) (conj B10 eq_refl)). cbn [bind]. apply is_bytes_tail in Hb.
    rewrite (proj2 (take_bytes_iff (len vd) _ _ _ ltac:(lia)) (conj eq_refl eq_refl)). reflexivity.
Qed.

Lemma take_int_err sz d : errs (fun e => e = ParseError) (take_int sz d).
Proof. unfold take_int. destruct (_ <=? _); [apply errs_ok|apply errs_err; reflexivity]. Qed.
Lemma take_ints_err sz n d : errs (fun e => e = ParseError) (take_ints sz n d).
Proof. unfold take_ints. destruct (_ <=? _); [apply errs_ok|apply errs_err; reflexivity]. Qed.
Lemma take_bytes_err n d : errs (fun e => e = ParseError) (take_bytes n d).
Proof. unfold take_bytes. destruct (_ <=? _); [apply errs_ok|apply errs_err; reflexivity]. Qed.

Lemma page_body_err d : errs (fun e => e = ParseError) (page_body d).
Proof.
  unfold page_body.
  repeat (apply errs_bind; [first [apply take_int_err|apply take_ints_err|apply take_bytes_err]|]; intros [? ?] _). apply errs_ok.
Qed.

Lemma body_parts subs ko kd vo vd d : is_bytes d -> body_layout subs ko kd vo vd d -> is_bytes kd /\ is_bytes vd.
Proof.
  intros Hb (nk & ks & unk & rest & H). destruct H as (_ & _ & _ & _ & _ & _ & _ & _ & _ & _ & _ & _ & ->).
  rewrite !is_bytes_app in Hb. tauto.
Qed.

(** ** Keys and values *)

Lemma key_segments_iff kd off segs : is_bytes kd -> 0 <= off -> (key_segments kd off = Ok segs <-> key_at kd off segs).
Proof.
  intros Hb Ho. unfold key_segments, key_at. set (x := zskipn (2 * off) kd).
  assert (Hx : is_bytes x) by (apply is_bytes_zskipn, Hb).
  assert (St : forall d, d <> [] -> (stored_at kd (2 * off) d <-> exists r, x = d ++ r)).
  { intros d Hd. destruct (Z.le_gt_cases (2 * off) (len kd)) as [L|L].
    - apply stored_at_from. lia.
    - split.
      + intros H. apply stored_at_inside in H. pose proof (len_nonneg d). lia.
      + intros [r E]. unfold x in E. rewrite zskipn_all in E by lia. symmetry in E. apply app_eq_nil in E. tauto. }
  assert (G : (do (n, d) <- take_int 2 x; do (l, _) <- take_ints 2 n d; Ok l) = Ok segs <->
     is_u16 (len segs) /\ Forall is_u16 segs /\ stored_at kd (2 * off) (le_enc 2 (len segs) ++ enc_ints (FU LE 2) segs)).
  { change (take_ints 2) with (take_ints (Z.of_nat 2)). change (take_int 2) with (take_int (Z.of_nat 2)). split.
    - destruct (take_int (Z.of_nat 2) x) as [[n d]|] eqn:E1; cbn [bind]; [|discriminate].
      apply take_int_iff in E1 as [B1 E1]; [|exact Hx]. assert (Hd : is_bytes d) by (rewrite E1 in Hx; apply is_bytes_tail in Hx; exact Hx).
      destruct (take_ints (Z.of_nat 2) n d) as [[l r]|] eqn:E2; cbn [bind]; [|discriminate].
      apply take_ints_iff in E2 as (L2 & F2 & ->); [|exact Hd|lia]. intros [= <-]. rewrite L2. split; [exact B1|]. split; [exact F2|].
      apply St; [discriminate|]. exists r. rewrite <- app_assoc. exact E1.
    - intros (B & F & H). apply St in H as [r E]; [|discriminate]. rewrite <- app_assoc in E.
      rewrite (proj2 (take_int_iff 2 _ _ _ Hx) (conj B E)). cbn [bind]. unfold is_u16 in B.
      rewrite E in Hx. apply is_bytes_tail in Hx.
      rewrite (proj2 (take_ints_iff 2 (len segs) _ _ _ Hx ltac:(lia)) (conj eq_refl (conj F eq_refl))). reflexivity. }
  destruct x as [|b x]; [|exact G]. rewrite <- G. cbn. split; discriminate.
Qed.

Lemma page_value_iff vd off s : is_bytes vd -> 0 <= off -> (page_value vd off = Ok s <-> value_at vd off s).
Proof.
  intros Hb Ho. unfold page_value, value_at. set (x := zskipn off vd).
  assert (Hx : is_bytes x) by (apply is_bytes_zskipn, Hb). split.
  - destruct (cstring_end x) as [t|] eqn:E; [|discriminate]. apply cstring_end_spec in E as (r & E & Hn).
    destruct (forallb _ t) eqn:A; [|discriminate]. intros [= <-]. split.
    + rewrite forallb_forall in A. apply Forall_forall. intros c Hc. specialize (A c Hc). apply Z.ltb_lt in A.
      rewrite E, is_bytes_app in Hx. destruct Hx as [Hx _]. unfold is_bytes in Hx. rewrite Forall_forall in Hx. specialize (Hx c Hc).
      unfold is_byte in Hx. assert (c <> 0) by (intros ->; contradiction). lia.
    + destruct (Z.le_gt_cases off (len vd)) as [L|L].
      * apply stored_at_from; [lia|]. exists r. fold x. rewrite E, <- app_assoc. reflexivity.
      * unfold x in E. rewrite zskipn_all in E by lia. symmetry in E. apply app_eq_nil in E as [_ E]. discriminate.
  - intros [F H]. pose proof (stored_at_inside _ _ _ H) as [_ I]. rewrite len_app in I. pose proof (len_nonneg s). change (len [0]) with 1 in I.
    apply stored_at_from in H as [r E]; [|lia]. fold x in E. rewrite E, <- app_assoc. cbn [app]. rewrite cstring_end_app.
    + replace (forallb (fun c => c <? 128) s) with true; [reflexivity|]. symmetry. apply forallb_forall. intros c Hc.
      rewrite Forall_forall in F. apply F in Hc. apply Z.ltb_lt. lia.
    + intros HH. rewrite Forall_forall in F. apply F in HH. lia.
Qed.

Lemma join_key l : 92 :: join [92] l = key_text l.
Proof.
  destruct l as [|s l]; [reflexivity|]. unfold key_text. revert s. induction l as [|t l IH]; intros s.
  - cbn [join flat_map]. rewrite app_nil_r. reflexivity.
  - cbn [join]. change (flat_map (cons 92) (s :: t :: l)) with ((92 :: s) ++ flat_map (cons 92) (t :: l)). rewrite <- IH. reflexivity.
Qed.

Lemma pyindex_iff {A} (l : list A) i x : 0 <= i -> (pyindex l i = Ok x <-> nth_error l (Z.to_nat i) = Some x).
Proof.
  intros Hi. unfold pyindex. cbv zeta. destruct (Z.ltb_spec i 0); [lia|]. destruct (Z.ltb_spec i 0); [lia|].
  rewrite znth_error_nth by exact Hi. destruct (nth_error l (Z.to_nat i)); split; congruence.
Qed.

Lemma key_path_iff values segs k : Forall is_u16 segs ->
  (key_path values segs = Ok k <-> exists strings, k = key_text strings /\ Forall2 (fun i s => nth_error values (Z.to_nat i) = Some s) segs strings).
Proof.
  intros Hs. unfold key_path.
  assert (M : forall l, mapr (pyindex values) segs = Ok l <-> Forall2 (fun i s => nth_error values (Z.to_nat i) = Some s) segs l).
  { intros l. apply mapr_iff. intros x y Hx. rewrite Forall_forall in Hs. apply Hs in Hx. unfold is_u16 in Hx. apply pyindex_iff. lia. }
  split.
  - destruct (mapr _ segs) as [l|] eqn:E; cbn [bind]; [|discriminate]. intros H. exists l. split; [rewrite <- join_key; congruence|]. apply M. reflexivity.
  - intros (l & -> & F). apply M in F. rewrite F. cbn [bind]. rewrite join_key. reflexivity.
Qed.

(** ** Pages *)

Lemma drop_spec n : existsb (Z.eqb n) [0; 0xffffffff] = true <-> ~ is_page n.
Proof.
  unfold is_page. cbn [existsb]. rewrite !Bool.orb_true_iff, !Z.eqb_eq.
  destruct (Z.eq_dec n 0), (Z.eq_dec n 0xffffffff); intuition; discriminate.
Qed.

Lemma Forall2_flip' {A B} (R : A -> B -> Prop) l m : Forall2 R l m <-> Forall2 (fun b a => R a b) m l.
Proof. split; induction 1; constructor; assumption. Qed.

Lemma Forall2_ext_r {A B} (P : B -> Prop) (R S : A -> B -> Prop) l m : (forall a b, P b -> (R a b <-> S a b)) -> Forall P m -> (Forall2 R l m <-> Forall2 S l m).
Proof.
  intros H F. split; intros G; revert F; induction G; intros F; constructor; inversion F; subst; auto; apply H; auto.
Qed.

Lemma key_at_u16 kd ko segs : Forall2 (key_at kd) ko segs -> Forall (Forall is_u16) segs.
Proof. induction 1 as [|o s ko segs (_ & H & _) F IH]; constructor; assumption. Qed.

Lemma Forall_nonneg16 l : Forall is_u16 l -> forall x, In x l -> 0 <= x.
Proof. intros F x Hx. rewrite Forall_forall in F. apply F in Hx. unfold is_u16 in Hx. lia. Qed.

(** The keys and sub pages of a body. *)
Lemma body_iff d subs keys : is_bytes d ->
  ((exists ko kd vo vd segs vals, page_body d = Ok (subs, ko, kd, vo, vd) /\ mapr (key_segments kd) ko = Ok segs /\
      mapr (page_value vd) vo = Ok vals /\ mapr (key_path vals) segs = Ok keys) <-> body_bytes subs keys d).
Proof.
  intros Hb. split.
  - intros (ko & kd & vo & vd & segs & vals & E & K & V & P). apply page_body_iff in E; [|exact Hb].
    pose proof (body_parts _ _ _ _ _ _ Hb E) as [Hk Hv]. destruct E as (nk & ks & unk & rest & E).
    assert (Fo : Forall is_u16 ko /\ Forall is_u16 vo) by tauto. destruct Fo as [Fo Fo'].
    exists nk, ks, unk, ko, kd, vo, vd, rest. repeat (split; [tauto|]).
    apply (mapr_iff _ (key_at kd)) in K; [|intros x y Hx; apply key_segments_iff; [exact Hk|exact (Forall_nonneg16 _ Fo _ Hx)]].
    apply (mapr_iff _ (value_at vd)) in V; [|intros x y Hx; apply page_value_iff; [exact Hv|exact (Forall_nonneg16 _ Fo' _ Hx)]].
    exists segs, vals. split; [exact K|]. split; [exact V|].
    apply Forall2_flip'. apply key_at_u16 in K.
    apply (mapr_iff (key_path vals) (fun b a => exists strings, a = key_text strings /\ Forall2 (fun i s => nth_error vals (Z.to_nat i) = Some s) b strings)) in P; [exact P|].
    intros x y Hx. apply key_path_iff. rewrite Forall_forall in K. apply K, Hx.
  - intros (nk & ks & unk & ko & kd & vo & vd & rest & H).
    assert (E : body_layout subs ko kd vo vd d) by (exists nk, ks, unk, rest; tauto).
    pose proof (body_parts _ _ _ _ _ _ Hb E) as [Hk Hv].
    assert (Fo : Forall is_u16 ko /\ Forall is_u16 vo) by tauto. destruct Fo as [Fo Fo'].
    assert (X : exists segments values,
      Forall2 (key_at kd) ko segments /\ Forall2 (value_at vd) vo values /\
      Forall2 (fun key l => exists strings, key = key_text strings /\ Forall2 (fun i s => nth_error values (Z.to_nat i) = Some s) l strings) keys segments) by tauto.
    destruct X as (segs & vals & K & V & P). exists ko, kd, vo, vd, segs, vals.
    split; [apply page_body_iff; assumption|].
    split; [apply (mapr_iff _ (key_at kd)); [intros x y Hx; apply key_segments_iff; [exact Hk|exact (Forall_nonneg16 _ Fo _ Hx)]|exact K]|].
    split; [apply (mapr_iff _ (value_at vd)); [intros x y Hx; apply page_value_iff; [exact Hv|exact (Forall_nonneg16 _ Fo' _ Hx)]|exact V]|].
    apply key_at_u16 in K. apply Forall2_flip' in P.
    apply (mapr_iff (key_path vals) (fun b a => exists strings, a = key_text strings /\ Forall2 (fun i s => nth_error vals (Z.to_nat i) = Some s) b strings)); [|exact P].
    intros x y Hx. apply key_path_iff. rewrite Forall_forall in K. apply K, Hx.
Qed.

Lemma wf4 : Forall fkind_wf [FU LE 4; FU LE 4; FU LE 4; FU LE 4].
Proof. kinds_wf. Qed.

Lemma four_app (a b c d r : bytes) : a ++ b ++ c ++ d ++ r = (a ++ b ++ c ++ d) ++ r.
Proof. rewrite <- !app_assoc. reflexivity. Qed.

Lemma page_header d vs : is_bytes d -> len d = 8192 ->
  (struct_bs [FU LE 4; FU LE 4; FU LE 4; FU LE 4] (zfirstn 16 d) = Ok vs <->
   exists a b c e, vs = [VI a; VI b; VI c; VI e] /\ is_u32 a /\ is_u32 b /\ is_u32 c /\ is_u32 e /\
     d = le_enc 4 a ++ le_enc 4 b ++ le_enc 4 c ++ le_enc 4 e ++ zskipn 16 d).
Proof.
  intros Hb L. rewrite struct_bs_iff; [|apply is_bytes_zfirstn, Hb|apply wf4|cbn; lia]. split.
  - intros (r & E & F). pose proof (enc_struct_length _ _ F) as Ls. assert (r = []) as ->.
    { apply len_zero. apply (f_equal len) in E. rewrite len_app, len_zfirstn, L in E. assert (Ls' : len (enc_struct [FU LE 4; FU LE 4; FU LE 4; FU LE 4] vs) = 16) by (unfold len; rewrite Ls; reflexivity). rewrite Ls' in E. change (Z.min (Z.max 0 16) 8192) with 16 in E. lia. }
    rewrite app_nil_r in E. inv2 F.
    repeat match goal with H : fval_ok (FU _ _) ?v |- _ => is_var v; destruct v as [|]; [|contradiction] end.
    match type of E with context [enc_struct _ [VI ?a; VI ?b; VI ?c; VI ?e]] => exists a, b, c, e end.
    split; [reflexivity|]. repeat (split; [apply le4_u32; assumption|]).
    rewrite <- (zfirstn_zskipn d 16) at 1. rewrite E. cbn [enc_struct enc_field enc_int]. rewrite app_nil_r, <- !app_assoc. reflexivity.
  - intros (a & b & c & e & -> & Ha & Hb' & Hc & He & E). exists []. split.
    + rewrite E. rewrite (four_app _ _ _ _ (zskipn 16 d)). cbn [enc_struct enc_field enc_int]. rewrite !app_nil_r. rewrite zfirstn_app_len; [reflexivity|rewrite !len_app, !len_le_enc; reflexivity].
    + repeat (constructor; [apply le4_u32; assumption|]). constructor.
Qed.

Lemma index_page_iff content off p : is_bytes content -> 0 <= off <= len content ->
  (index_page content off = Ok p <-> exists d, stored_at content off d /\ page_bytes p d).
Proof.
  intros Hb Ho. unfold index_page. split.
  - destruct (read_next content off 8192) as [[d q]|] eqn:R; cbn [bind]; [|discriminate].
    apply read_next_iff in R as (St & L & _); [|lia|lia]. pose proof (is_bytes_stored _ _ _ Hb St) as Hd.
    destruct (struct_bs _ _) as [vs|] eqn:H; cbn [bind]; [|discriminate].
    apply page_header in H as (a & b & c & e & -> & Ha & Hb' & Hc & He & E); [|exact Hd|exact L]. intros H. exists d. split; [exact St|].
    unfold page_bytes. split; [exact L|]. revert H. destruct (Z.eqb_spec a 0xaccc) as [->|N].
    + destruct (page_body (zskipn 16 d)) as [[[[[subs ko] kd] vo] vd]|] eqn:B; cbn [bind]; [|discriminate].
      destruct (mapr (key_segments kd) ko) as [segs|] eqn:K; cbn [bind]; [|discriminate].
      destruct (mapr (page_value vd) vo) as [vals|] eqn:V; cbn [bind]; [|discriminate].
      destruct (mapr (key_path vals) segs) as [keys|] eqn:P; cbn [bind]; [|discriminate].
      intros H. assert (p = mkwpage 0xaccc e (filter (fun n => negb (existsb (Z.eqb n) [0; 0xffffffff])) subs) keys) as -> by congruence.
      cbn [wp_type wp_root wp_subs wp_keys]. split; [exact Ha|]. split; [exact He|]. exists b, c, (zskipn 16 d).
      split; [exact Hb'|]. split; [exact Hc|]. split; [exact E|]. right. split; [reflexivity|]. exists subs.
      split; [|eexists; split; [exact drop_spec|reflexivity]]. apply body_iff; [apply is_bytes_zskipn, Hd|]. exists ko, kd, vo, vd, segs, vals. auto.
    + intros [= <-]. cbn [wp_type wp_root wp_subs wp_keys]. split; [exact Ha|]. split; [exact He|]. exists b, c, (zskipn 16 d).
      split; [exact Hb'|]. split; [exact Hc|]. split; [exact E|]. left. auto.
  - intros (d & St & L & Ht & Hr & b & c & body & Hb' & Hc & E & D). pose proof (is_bytes_stored _ _ _ Hb St) as Hd.
    rewrite (proj2 (read_next_iff content off 8192 d (off + 8192) Ho ltac:(lia))) by auto. cbn [bind].
    assert (Eb : body = zskipn 16 d).
    { rewrite E, (four_app _ _ _ _ body). rewrite zskipn_app_len; [reflexivity|rewrite !len_app, !len_le_enc; reflexivity]. }
    rewrite (proj2 (page_header d [VI (wp_type p); VI b; VI c; VI (wp_root p)] Hd L))
      by (exists (wp_type p), b, c, (wp_root p); rewrite <- Eb; auto 10).
    cbn [bind]. destruct p as [ty root subs keys]. cbn [wp_type wp_root wp_subs wp_keys] in *.
    destruct D as [(N & -> & ->)|(-> & stored & B & drop & Hdrop & ->)].
    + destruct (Z.eqb_spec ty 0xaccc); [contradiction|reflexivity].
    + change (0xaccc =? 0xaccc) with true. cbv iota. rewrite Eb in B. apply body_iff in B as (ko & kd & vo & vd & segs & vals & B & K & V & P); [|apply is_bytes_zskipn, Hd].
      rewrite B. cbn [bind]. rewrite K. cbn [bind]. rewrite V. cbn [bind]. rewrite P. cbn [bind]. do 2 f_equal. apply filter_ext.
      intros n. f_equal. apply Bool.eq_true_iff_eq. rewrite Hdrop. apply drop_spec.
Qed.

Definition page_exn (e : exn) : Prop := In e [ParseError; ValueError; IndexError; OtherError].

Lemma index_page_err content off : is_bytes content -> errs page_exn (index_page content off).
Proof.
  intros Hb. unfold index_page.
  apply errs_bind; [intros e E; apply read_next_errors in E; subst e; left; reflexivity|]. intros [d q] R.
  assert (Hd : is_bytes d).
  { unfold read_next in R. destruct (_ =? _); [|discriminate]. injection R as <- _. apply is_bytes_zfirstn, is_bytes_zskipn, Hb. }
  apply errs_bind; [apply errs_struct_bs; unfold page_exn; cbn; auto|]. intros vs E.
  apply struct_bs_fval in E; [|apply is_bytes_zfirstn, Hd|apply wf4]. vals E.
  destruct (_ =? 0xaccc); [|apply errs_ok].
  apply errs_bind; [intros e E; apply page_body_err in E; subst e; left; reflexivity|]. intros [[[[subs ko] kd] vo] vd] _.
  apply errs_bind.
  - intros e E. apply mapr_errors in E as (x & _ & E). unfold key_segments in E. destruct (zskipn _ _) as [|y l]; [injection E as <-; unfold page_exn; cbn; auto|].
    destruct (take_int 2 (y :: l)) as [[n d']|e'] eqn:T; cbn [bind] in E; [|apply take_int_err in T; left; congruence].
    destruct (take_ints 2 n d') as [[l' r]|e'] eqn:T'; cbn [bind] in E; [discriminate|]. apply take_ints_err in T'. left. congruence.
  - intros segs _. apply errs_bind.
    + intros e E. apply mapr_errors in E as (x & _ & E). unfold page_value in E. destruct (cstring_end _); [|injection E as <-; unfold page_exn; cbn; auto].
      destruct (forallb _ _); [discriminate|injection E as <-; left; reflexivity].
    + intros vals _. apply errs_bind; [|intros ? _; apply errs_ok]. intros e E. apply mapr_errors in E as (x & _ & E). unfold key_path in E.
      destruct (mapr (pyindex vals) x) as [|e'] eqn:M; cbn [bind] in E; [discriminate|]. apply mapr_errors in M as (i & _ & M).
      injection E as <-. unfold pyindex in M. destruct (_ <? 0); [|destruct (znth_error _ _); [discriminate|]]; injection M as <-; unfold page_exn; cbn; auto.
Qed.

(** ** Traversal *)

Lemma mapped_iff table n q : 0 <= n -> (resolve table n = Ok q <-> mapped table n q).
Proof. intros Hn. unfold resolve, mapped. rewrite pyindex_iff by exact Hn. tauto. Qed.

Lemma mapped_u32 table n q : Forall is_u32 table -> mapped table n q -> is_u32 q.
Proof. intros F [_ H]. apply nth_error_In in H. rewrite Forall_forall in F. apply F, H. Qed.

Lemma mapped_page_some table content n p : is_bytes content -> Forall is_u32 table -> 0 <= n ->
  (mapped_index_page table content n = Ok (Some p) <-> is_mapped_page table content n p).
Proof.
  intros Hb Hu Hn. unfold mapped_index_page, is_mapped_page. split.
  - destruct (resolve table n) as [q|] eqn:R; cbn [bind]; [|discriminate]. apply mapped_iff in R; [|exact Hn].
    pose proof (mapped_u32 _ _ _ Hu R) as Hq. unfold is_u32 in Hq. unfold get_index_page.
    destruct (Z.leb_spec (len content) (q * 8192)); [discriminate|]. destruct (index_page content (q * 8192)) as [p'|] eqn:E; cbn [bind]; [|discriminate].
    intros [= ->]. apply index_page_iff in E as (d & St & P); [|exact Hb|lia]. eauto.
  - intros (q & d & M & St & P). pose proof (mapped_u32 _ _ _ Hu M) as Hq. unfold is_u32 in Hq. apply (mapped_iff _ _ _ Hn) in M. rewrite M. cbn [bind].
    unfold get_index_page. pose proof (stored_at_inside _ _ _ St) as [_ I]. rewrite (proj1 P) in I. destruct (Z.leb_spec (len content) (q * 8192)); [lia|].
    rewrite (proj2 (index_page_iff content (q * 8192) p Hb ltac:(lia))) by eauto. reflexivity.
Qed.

Lemma mapped_page_none table content n : 0 <= n ->
  (mapped_index_page table content n = Ok None <-> no_mapped_page table content n).
Proof.
  intros Hn. unfold mapped_index_page, no_mapped_page. split.
  - destruct (resolve table n) as [q|] eqn:R; cbn [bind]; [|discriminate]. apply mapped_iff in R; [|exact Hn]. unfold get_index_page.
    destruct (Z.leb_spec (len content) (q * 8192)); [|destruct (index_page _ _); discriminate]. eauto.
  - intros (q & M & L). apply (mapped_iff _ _ _ Hn) in M. rewrite M. cbn [bind]. unfold get_index_page. destruct (Z.leb_spec (len content) (q * 8192)); [reflexivity|lia].
Qed.

Lemma page_subs_u32 table content n p : is_mapped_page table content n p -> Forall is_u32 (wp_subs p).
Proof.
  intros (q & d & _ & _ & _ & _ & _ & _ & _ & body & _ & _ & _ & [(_ & -> & _)|(_ & stored & B & drop & _ & ->)]); [constructor|].
  destruct B as (nk & ks & unk & ko & kd & vo & vd & rest & B). assert (F : Forall is_u32 stored) by tauto.
  rewrite Forall_forall in *. intros x Hx. apply filter_In in Hx. apply F. tauto.
Qed.

Definition subs_loop (pk : option wpage -> run (list str)) (table : list Z) (content : bytes) : list Z -> run (list str) :=
  fix subs (l : list Z) : run (list str) :=
    match l with
    | [] => Done (Ok [])
    | n :: l =>
        match mapped_index_page table content n with
        | Err e => Done (Err e)
        | Ok q => rdo a <- pk q; rdo b <- subs l; Done (Ok (a ++ b))
        end
    end.

Lemma page_keys_S fuel table content p :
  page_keys (S fuel) table content (Some p) =
  rdo l <- subs_loop (page_keys fuel table content) table content (wp_subs p); Done (Ok (wp_keys p ++ l)).
Proof. reflexivity. Qed.

Lemma page_keys_sound table content : is_bytes content -> Forall is_u32 table -> forall fuel n q l, 0 <= n ->
  mapped_index_page table content n = Ok q -> page_keys fuel table content q = Done (Ok l) -> tree_keys table content n l.
Proof.
  intros Hb Hu. induction fuel as [|fuel IH]; intros n [p|] l Hn M K.
  - discriminate.
  - injection K as <-. constructor. apply mapped_page_none; assumption.
  - apply mapped_page_some in M; [|assumption..]. rewrite page_keys_S in K.
    destruct (subs_loop _ _ _ _) as [[l'|]|] eqn:E; cbn [rbind] in K; try discriminate. injection K as <-. econstructor; [exact M|].
    pose proof (page_subs_u32 _ _ _ _ M) as F. clear M. revert l' E. induction F as [|m ms Hm F IHF]; intros l' E.
    + injection E as <-. constructor.
    + cbn [subs_loop] in E. destruct (mapped_index_page table content m) as [q|] eqn:Q; [|discriminate].
      destruct (page_keys fuel table content q) as [[a|]|] eqn:A; cbn [rbind] in E; try discriminate.
      fold (subs_loop (page_keys fuel table content) table content) in E.
      destruct (subs_loop _ _ _ ms) as [[b|]|] eqn:B; cbn [rbind] in E; try discriminate. injection E as <-.
      constructor; [|apply IHF; reflexivity]. eapply IH; [unfold is_u32 in Hm; lia|exact Q|exact A].
  - injection K as <-. constructor. apply mapped_page_none; assumption.
Qed.

Scheme tree_keys_ind2 := Minimality for tree_keys Sort Prop
  with trees_keys_ind2 := Minimality for trees_keys Sort Prop.
Combined Scheme tree_trees_ind from tree_keys_ind2, trees_keys_ind2.

Lemma page_keys_complete table content : is_bytes content -> Forall is_u32 table ->
  (forall n l, tree_keys table content n l -> exists q, mapped_index_page table content n = Ok q /\
     exists f0, forall fuel, (f0 <= fuel)%nat -> page_keys fuel table content q = Done (Ok l)) /\
  (forall ns l, trees_keys table content ns l -> exists f0, forall fuel, (f0 <= fuel)%nat ->
     subs_loop (page_keys fuel table content) table content ns = Done (Ok l)).
Proof.
  intros Hb Hu. apply tree_trees_ind.
  - intros n H. exists None. split; [apply mapped_page_none; [destruct H as (q & [? _] & _); assumption|exact H]|].
    exists 0%nat. intros [|fuel] _; reflexivity.
  - intros n p l H _ (f0 & IH). exists (Some p). split; [apply mapped_page_some; try assumption; destruct H as (q & d & [? _] & _); assumption|].
    exists (S f0). intros [|fuel] Hf; [lia|]. rewrite page_keys_S, IH by lia. reflexivity.
  - exists 0%nat. intros fuel _. reflexivity.
  - intros n ns a b _ (q & Q & f1 & H1) _ (f2 & H2). exists (Nat.max f1 f2). intros fuel Hf. cbn [subs_loop].
    fold (subs_loop (page_keys fuel table content) table content). rewrite Q, H1 by lia. cbn [rbind]. rewrite H2 by lia. reflexivity.
Qed.

Lemma root_u32 v21 table content root : root_number v21 table content root -> 0 <= root.
Proof.
  unfold root_number. destruct v21; [|lia]. intros (p & (q & d & _ & _ & P) & _ & <-). destruct P as (_ & _ & H & _). unfold is_u32 in H. lia.
Qed.

Lemma index_root_ok v21 table content q : is_bytes content -> Forall is_u32 table -> index_root v21 table content = Ok q ->
  exists root, root_number v21 table content root /\ mapped_index_page table content root = Ok q.
Proof.
  intros Hb Hu. unfold index_root, root_number. destruct v21.
  - destruct (mapped_index_page table content 0) as [[p|]|] eqn:M; cbn [bind]; try discriminate.
    apply mapped_page_some in M; [|exact Hb|exact Hu|lia].
    destruct (Z.eqb_spec (wp_type p) 0xaddd) as [T|]; cbn [guard bind]; [|discriminate]. intros E. exists (wp_root p). split; [eauto|exact E].
  - cbn [bind]. intros E. exists 1. auto.
Qed.

Lemma index_root_complete v21 table content root : is_bytes content -> Forall is_u32 table -> root_number v21 table content root ->
  index_root v21 table content = mapped_index_page table content root.
Proof.
  intros Hb Hu. unfold index_root, root_number. destruct v21.
  - intros (p & M & T & <-). apply (mapped_page_some table content 0 p Hb Hu ltac:(lia)) in M. rewrite M. cbn [bind]. rewrite T. reflexivity.
  - intros ->. reflexivity.
Qed.

Lemma index_keys_iff v21 table content l : is_bytes content -> Forall is_u32 table ->
  ((exists fuel, index_keys fuel v21 table content = Done (Ok l)) <->
   exists root, root_number v21 table content root /\ tree_keys table content root l).
Proof.
  intros Hb Hu. unfold index_keys. split.
  - intros [fuel H]. destruct (index_root v21 table content) as [q|] eqn:R; [|discriminate].
    apply index_root_ok in R as (root & Hr & M); [|exact Hb|exact Hu]. exists root. split; [exact Hr|].
    eapply page_keys_sound; try eassumption. eapply root_u32. exact Hr.
  - intros (root & Hr & T). destruct (proj1 (page_keys_complete table content Hb Hu) _ _ T) as (q & Q & f0 & H).
    exists f0. rewrite (index_root_complete _ _ _ _ Hb Hu Hr), Q. apply H. lia.
Qed.

(** ** Reachability *)

Lemma page_unique table content n p p' : is_bytes content -> Forall is_u32 table -> is_mapped_page table content n p -> is_mapped_page table content n p' -> p = p'.
Proof.
  intros Hb Hu H H'. assert (Hn : 0 <= n) by (destruct H as (q & d & [? _] & _); assumption).
  apply (mapped_page_some table content n _ Hb Hu Hn) in H. apply (mapped_page_some table content n _ Hb Hu Hn) in H'. congruence.
Qed.

Lemma page_or_none table content n p : is_bytes content -> Forall is_u32 table -> is_mapped_page table content n p -> no_mapped_page table content n -> False.
Proof.
  intros Hb Hu H H'. assert (Hn : 0 <= n) by (destruct H as (q & d & [? _] & _); assumption).
  apply (mapped_page_some table content n _ Hb Hu Hn) in H. apply (mapped_page_none table content n Hn) in H'. congruence.
Qed.

Lemma tree_keys_in table content : is_bytes content -> Forall is_u32 table ->
  (forall n l, tree_keys table content n l -> forall k, In k l <-> exists m p, reaches table content n m /\ is_mapped_page table content m p /\ In k (wp_keys p)) /\
  (forall ns l, trees_keys table content ns l -> forall k, In k l <-> exists n m p, In n ns /\ reaches table content n m /\ is_mapped_page table content m p /\ In k (wp_keys p)).
Proof.
  intros Hb Hu. apply tree_trees_ind.
  - intros n H k. split; [intros []|]. intros (m & p & R & M & _). exfalso. inversion R as [|? m' ? (p' & M' & _) R']; subst.
    + exact (page_or_none _ _ _ _ Hb Hu M H).
    + exact (page_or_none _ _ _ _ Hb Hu M' H).
  - intros n p l H _ IH k. rewrite in_app_iff, IH. split.
    + intros [I|(n' & m & p' & I & R & M & K)]; [exists n, p; split; [constructor|auto]|].
      exists m, p'. split; [|auto]. econstructor; [exists p; split; [exact H|exact I]|exact R].
    + intros (m & p' & R & M & K). inversion R as [|? m' ? (p'' & M' & I) R']; subst.
      * left. rewrite (page_unique _ _ _ _ _ Hb Hu H M). exact K.
      * right. rewrite (page_unique _ _ _ _ _ Hb Hu M' H) in I. exists m', m, p'. auto.
  - intros k. split; [intros []|]. intros (n & m & p & [] & _).
  - intros n ns a b _ IH1 _ IH2 k. rewrite in_app_iff, IH1, IH2. split.
    + intros [(m & p & H)|(n' & m & p & I & H)]; [exists n, m, p|exists n', m, p]; cbn [In]; tauto.
    + intros (n' & m & p & [->|I] & H); [left; eauto|right; exists n', m, p; auto].
Qed.

Lemma reaches_trans table content a b c : reaches table content a b -> reaches table content b c -> reaches table content a c.
Proof. induction 1 as [|n m k H R IH]; intros H'; [exact H'|]. econstructor; [exact H|apply IH, H']. Qed.

Definition below (table : list Z) (content : bytes) (m n : Z) : Prop := refers table content n m.

Lemma tree_keys_acc table content : is_bytes content -> Forall is_u32 table ->
  (forall n l, tree_keys table content n l -> Acc (below table content) n) /\
  (forall ns l, trees_keys table content ns l -> forall n, In n ns -> Acc (below table content) n).
Proof.
  intros Hb Hu. apply tree_trees_ind.
  - intros n H. constructor. intros m (p & M & _). exfalso. exact (page_or_none _ _ _ _ Hb Hu M H).
  - intros n p l H _ IH. constructor. intros m (p' & M & I). rewrite (page_unique _ _ _ _ _ Hb Hu M H) in I. apply IH, I.
  - intros n [].
  - intros n ns a b _ IH1 _ IH2 n' [->|I]; auto.
Qed.

Lemma acc_reaches table content n k : Acc (below table content) n -> reaches table content n k -> Acc (below table content) k.
Proof. intros A R. induction R as [|n m k H R IH]; [exact A|]. apply IH. destruct A as [A]. apply A, H. Qed.

Lemma acc_no_cycle table content n : Acc (below table content) n -> ~ reaches1 table content n n.
Proof.
  induction 1 as [n _ IH]. intros (m & H & R). apply (IH m H). 
  inversion R as [|? k ? H' R']; subst; [exists n; split; [exact H|constructor]|].
  exists k. split; [exact H'|]. eapply reaches_trans; [exact R'|]. econstructor; [exact H|constructor].
Qed.

(** ** Acyclic trees *)

Lemma pigeon (table : list Z) (visited : list Z) : NoDup visited -> (forall n, In n visited -> exists q, mapped table n q) -> (length visited <= length table)%nat.
Proof.
  intros N H. replace (length table) with (length (map Z.of_nat (seq 0 (length table)))) by (rewrite map_length, seq_length; reflexivity).
  apply NoDup_incl_length; [exact N|]. intros n Hn. destruct (H n Hn) as (q & Hp & E).
  assert (Z.to_nat n < length table)%nat by (apply nth_error_Some; congruence).
  apply in_map_iff. exists (Z.to_nat n). split; [lia|]. apply in_seq. lia.
Qed.

Lemma page_keys_ends table content root : is_bytes content -> Forall is_u32 table ->
  (forall n, reaches table content root n -> ~ reaches1 table content n n) ->
  forall fuel visited n q, reaches table content root n -> 0 <= n ->
    NoDup visited -> (forall m, In m visited -> reaches1 table content m n /\ exists q, mapped table m q) ->
    (length table <= length visited + fuel)%nat ->
    mapped_index_page table content n = Ok q -> page_keys fuel table content q <> OutOfFuel.
Proof.
  intros Hb Hu Ac. induction fuel as [|fuel IH]; intros visited n q Rn Hn N V L M.
  - destruct q as [p|]; [|discriminate]. exfalso. apply mapped_page_some in M; [|assumption..].
    assert (P : (length (n :: visited) <= length table)%nat).
    { apply pigeon.
      - constructor; [|exact N]. intros I. apply V in I as [I _]. exact (Ac n Rn I).
      - intros m [<-|I]; [destruct M as (q & d & M & _); eauto|apply V in I; tauto]. }
    cbn [length] in P. lia.
  - destruct q as [p|]; [|discriminate]. apply mapped_page_some in M; [|assumption..]. rewrite page_keys_S.
    assert (G : subs_loop (page_keys fuel table content) table content (wp_subs p) <> OutOfFuel).
    { pose proof (page_subs_u32 _ _ _ _ M) as F. assert (I : incl (wp_subs p) (wp_subs p)) by apply incl_refl. revert I.
      generalize (wp_subs p) at 1 3. intros l I.
      assert (Fl : Forall is_u32 l) by (rewrite Forall_forall in *; auto). clear F. induction l as [|m l IHl]; [discriminate|].
      cbn [subs_loop]. fold (subs_loop (page_keys fuel table content) table content).
      destruct (mapped_index_page table content m) as [q|] eqn:Q; [|discriminate].
      assert (Rf : refers table content n m) by (exists p; split; [exact M|apply I; left; reflexivity]).
      assert (Hm : 0 <= m) by (inversion_clear Fl as [|? ? Hm ?]; unfold is_u32 in Hm; lia).
      assert (X : page_keys fuel table content q <> OutOfFuel).
      { apply (IH (n :: visited) m q); [|exact Hm| | |cbn [length]; lia|exact Q].
        - eapply reaches_trans; [exact Rn|]. econstructor; [exact Rf|constructor].
        - constructor; [|exact N]. intros J. apply V in J as [J _]. exact (Ac n Rn J).
        - intros k [<-|J].
          + split; [exists m; split; [exact Rf|constructor]|]. destruct M as (q' & d & M & _). eauto.
          + apply V in J as [(m' & J1 & J2) J']. split; [|exact J']. exists m'. split; [exact J1|]. eapply reaches_trans; [exact J2|]. econstructor; [exact Rf|constructor]. }
      destruct (page_keys fuel table content q) as [[a|]|]; cbn [rbind]; [|discriminate|contradiction].
      assert (Y : subs_loop (page_keys fuel table content) table content l <> OutOfFuel).
      { apply IHl; [intros x Hx; apply I; right; exact Hx|inversion Fl; assumption]. }
      destruct (subs_loop _ _ _ l) as [[b|]|]; cbn [rbind]; [discriminate|discriminate|contradiction]. }
    destruct (subs_loop _ _ _ _) as [[b|]|]; cbn [rbind]; [discriminate|discriminate|contradiction].
Qed.

Lemma index_keys_ends v21 table content fuel : is_bytes content -> Forall is_u32 table ->
  (forall root n, root_number v21 table content root -> reaches table content root n -> ~ reaches1 table content n n) ->
  (length table <= fuel)%nat -> index_keys fuel v21 table content <> OutOfFuel.
Proof.
  intros Hb Hu Ac Hf. unfold index_keys. destruct (index_root v21 table content) as [q|] eqn:R; [|discriminate].
  apply index_root_ok in R as (root & Hr & M); [|exact Hb|exact Hu].
  apply (page_keys_ends table content root Hb Hu) with (visited := []) (n := root).
  - intros n. apply Ac, Hr.
  - constructor.
  - eapply root_u32, Hr.
  - constructor.
  - intros m [].
  - exact Hf.
  - exact M.
Qed.

(** ** Errors *)

Definition index_exn (e : exn) : Prop := In e [ParseError; ValueError; IndexError; OtherError; RuntimeError].

Lemma mapped_err table content n : is_bytes content -> errs index_exn (mapped_index_page table content n).
Proof.
  intros Hb. unfold mapped_index_page. apply errs_bind.
  - intros e E. unfold resolve, pyindex in E. destruct (_ <? 0); [|destruct (znth_error _ _); [discriminate|]]; injection E as <-; unfold index_exn; cbn; auto.
  - intros q _. unfold get_index_page. destruct (_ <=? _); [apply errs_ok|]. apply errs_bind; [|intros ? _; apply errs_ok].
    intros e E. apply index_page_err in E; [|exact Hb]. unfold page_exn, index_exn in *. cbn [In] in *. tauto.
Qed.

Lemma page_keys_err table content e : is_bytes content -> forall fuel q, page_keys fuel table content q = Done (Err e) -> index_exn e.
Proof.
  intros Hb. induction fuel as [|fuel IH]; intros [p|]; try discriminate. rewrite page_keys_S.
  destruct (subs_loop _ _ _ _) as [[b|e']|] eqn:E; cbn [rbind]; [discriminate| |discriminate]. intros [= ->].
  revert E. induction (wp_subs p) as [|m l IHl]; [discriminate|]. cbn [subs_loop]. fold (subs_loop (page_keys fuel table content) table content).
  destruct (mapped_index_page table content m) as [q|e'] eqn:Q; [|intros [= ->]; exact (mapped_err _ _ _ Hb _ Q)].
  destruct (page_keys fuel table content q) as [[a|e']|] eqn:A; cbn [rbind]; [|intros [= ->]; eapply IH; exact A|discriminate].
  destruct (subs_loop _ _ _ l) as [[b|e']|] eqn:B; cbn [rbind]; [discriminate| |discriminate]. intros [= ->]. apply IHl. reflexivity.
Qed.

Lemma index_keys_err fuel v21 table content e : is_bytes content -> index_keys fuel v21 table content = Done (Err e) -> index_exn e.
Proof.
  intros Hb. unfold index_keys. destruct (index_root v21 table content) as [q|e'] eqn:R; [apply page_keys_err, Hb|]. intros [= ->]. revert R.
  revert e. change (errs index_exn (index_root v21 table content)). unfold index_root. apply errs_bind; [|intros; apply mapped_err, Hb].
  destruct v21; [|apply errs_ok]. apply errs_bind; [apply mapped_err, Hb|]. intros [p|] _; [|apply errs_err; unfold index_exn; cbn; auto 10].
  apply errs_bind; [apply errs_guard; unfold index_exn; cbn; auto 10|]. intros ? _. apply errs_ok.
Qed.

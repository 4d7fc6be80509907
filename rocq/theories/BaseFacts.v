(** Facts about the vocabulary of Base.v. *)
From Verif Require Import Base.
Open Scope Z_scope.

Lemma len_nonneg {A} (l : list A) : 0 <= len l.
Proof. unfold len; lia. Qed.

Lemma len_app {A} (a b : list A) : len (a ++ b) = len a + len b.
Proof. unfold len; rewrite app_length; lia. Qed.

Lemma len_cons {A} (x : A) l : len (x :: l) = 1 + len l.
Proof. unfold len; cbn [length]; lia. Qed.

Lemma len_nil {A} : len (@nil A) = 0.
Proof. reflexivity. Qed.

Lemma len_zero {A} (l : list A) : len l = 0 -> l = [].
Proof. destruct l; unfold len; cbn; [auto | lia]. Qed.

Lemma len_repeat {A} (x : A) n : len (repeat x n) = Z.of_nat n.
Proof. unfold len; rewrite repeat_length; reflexivity. Qed.

Lemma len_map {A B} (f : A -> B) l : len (map f l) = len l.
Proof. unfold len; rewrite map_length; reflexivity. Qed.

Lemma list_eqb_eq a b : list_eqb a b = true <-> a = b.
Proof.
  revert b; induction a as [|x a IH]; destruct b as [|y b]; cbn;
    try (split; congruence).
  rewrite andb_true_iff, Z.eqb_eq, IH. split; [intros [-> ->]; auto | intros [= -> ->]; auto].
Qed.

Lemma list_eqb_refl a : list_eqb a a = true.
Proof. apply list_eqb_eq; reflexivity. Qed.

Lemma list_eqb_neq a b : list_eqb a b = false <-> a <> b.
Proof.
  rewrite <- not_true_iff_false, list_eqb_eq; tauto.
Qed.

Lemma zskipn_skipn {A} (l : list A) n : zskipn n l = skipn (Z.to_nat n) l.
Proof.
  revert n; induction l as [|x l IH]; intros n; cbn [zskipn].
  - rewrite skipn_nil; reflexivity.
  - destruct (Z.leb_spec n 0) as [H|H].
    + replace (Z.to_nat n) with 0%nat by lia; reflexivity.
    + replace (Z.to_nat n) with (S (Z.to_nat (n - 1))) by lia.
      cbn [skipn]; apply IH.
Qed.

Lemma zfirstn_firstn {A} (l : list A) n : zfirstn n l = firstn (Z.to_nat n) l.
Proof.
  revert n; induction l as [|x l IH]; intros n; cbn [zfirstn].
  - rewrite firstn_nil; reflexivity.
  - destruct (Z.leb_spec n 0) as [H|H].
    + replace (Z.to_nat n) with 0%nat by lia; reflexivity.
    + replace (Z.to_nat n) with (S (Z.to_nat (n - 1))) by lia.
      cbn [firstn]; rewrite IH; reflexivity.
Qed.

Lemma len_zskipn {A} (l : list A) n : len (zskipn n l) = Z.max 0 (len l - Z.max 0 n).
Proof. rewrite zskipn_skipn; unfold len; rewrite skipn_length; lia. Qed.

Lemma len_zfirstn {A} (l : list A) n : len (zfirstn n l) = Z.min (Z.max 0 n) (len l).
Proof. rewrite zfirstn_firstn; unfold len; rewrite firstn_length; lia. Qed.

Lemma zfirstn_all {A} (l : list A) n : len l <= n -> zfirstn n l = l.
Proof. intros H; rewrite zfirstn_firstn; apply firstn_all2; unfold len in H; lia. Qed.

Lemma zskipn_all {A} (l : list A) n : len l <= n -> zskipn n l = [].
Proof. intros H; rewrite zskipn_skipn; apply skipn_all2; unfold len in H; lia. Qed.

Lemma zskipn_0 {A} (l : list A) n : n <= 0 -> zskipn n l = l.
Proof.
  intros H; rewrite zskipn_skipn; replace (Z.to_nat n) with 0%nat by lia; reflexivity.
Qed.

Lemma zfirstn_0 {A} (l : list A) n : n <= 0 -> zfirstn n l = [].
Proof.
  intros H; rewrite zfirstn_firstn; replace (Z.to_nat n) with 0%nat by lia; reflexivity.
Qed.

Lemma zskipn_zskipn {A} (l : list A) a b :
  0 <= a -> 0 <= b -> zskipn b (zskipn a l) = zskipn (a + b) l.
Proof.
  intros Ha Hb; rewrite !zskipn_skipn.
  replace (Z.to_nat (a + b)) with (Z.to_nat a + Z.to_nat b)%nat by lia.
  generalize (Z.to_nat a) (Z.to_nat b); clear; intros a b.
  revert l; induction a as [|a IH]; intros l; cbn [skipn Nat.add]; [reflexivity|].
  destruct l as [|x l]; [apply skipn_nil | apply IH].
Qed.

Lemma zskipn_app_len {A} (a b : list A) n : n = len a -> zskipn n (a ++ b) = b.
Proof.
  intros ->; rewrite zskipn_skipn; unfold len; rewrite Nat2Z.id.
  rewrite skipn_app, skipn_all, Nat.sub_diag; reflexivity.
Qed.

Lemma zfirstn_app_len {A} (a b : list A) n : n = len a -> zfirstn n (a ++ b) = a.
Proof.
  intros ->; rewrite zfirstn_firstn; unfold len; rewrite Nat2Z.id.
  rewrite firstn_app, firstn_all, Nat.sub_diag; cbn; apply app_nil_r.
Qed.

Lemma zfirstn_zskipn {A} (l : list A) n : zfirstn n l ++ zskipn n l = l.
Proof. rewrite zfirstn_firstn, zskipn_skipn; apply firstn_skipn. Qed.

(** Adjacent windows concatenate. *)
Lemma zwindow_app {A} (l : list A) o a b :
  0 <= o -> 0 <= a -> 0 <= b ->
  zfirstn a (zskipn o l) ++ zfirstn b (zskipn (o + a) l) = zfirstn (a + b) (zskipn o l).
Proof.
  intros Ho Ha Hb. rewrite <- zskipn_zskipn by lia.
  generalize (zskipn o l); clear l; intros l.
  rewrite !zfirstn_firstn, zskipn_skipn.
  replace (Z.to_nat (a + b)) with (Z.to_nat a + Z.to_nat b)%nat by lia.
  generalize (Z.to_nat a) (Z.to_nat b); clear; intros a b.
  revert l; induction a as [|a IH]; intros l; cbn [firstn skipn Nat.add app]; [reflexivity|].
  destruct l as [|x l]; [rewrite firstn_nil; reflexivity | cbn [app]; rewrite IH; reflexivity].
Qed.

Lemma zwindow_window {A} (l : list A) o n p m :
  0 <= o -> 0 <= p -> 0 <= m -> p + m <= n ->
  zfirstn m (zskipn p (zfirstn n (zskipn o l))) = zfirstn m (zskipn (o + p) l).
Proof.
  intros Ho Hp Hm H. rewrite <- zskipn_zskipn by lia.
  generalize (zskipn o l); clear l; intros l.
  rewrite !zfirstn_firstn, !zskipn_skipn.
  rewrite skipn_firstn_comm, firstn_firstn. f_equal; lia.
Qed.

Lemma zfirstn_zfirstn {A} (l : list A) a b :
  zfirstn a (zfirstn b l) = zfirstn (Z.min a b) l.
Proof.
  rewrite !zfirstn_firstn, firstn_firstn; f_equal; lia.
Qed.

Lemma znth_error_nth {A} (l : list A) i :
  0 <= i -> znth_error l i = nth_error l (Z.to_nat i).
Proof.
  revert i; induction l as [|x l IH]; intros i Hi; cbn [znth_error].
  - destruct (Z.to_nat i); reflexivity.
  - destruct (Z.eqb_spec i 0) as [->|Hn]; [reflexivity|].
    replace (Z.to_nat i) with (S (Z.to_nat (i - 1))) by lia.
    cbn [nth_error]; apply IH; lia.
Qed.

Lemma znth_error_skipn {A} (l : list A) i :
  0 <= i -> znth_error l i = hd_error (zskipn i l).
Proof.
  revert i; induction l as [|x l IH]; intros i Hi; cbn [znth_error zskipn]; [reflexivity|].
  destruct (Z.eqb_spec i 0) as [->|Hn]; [reflexivity|].
  destruct (Z.leb_spec i 0); [lia|]. apply IH; lia.
Qed.

Lemma pyslice_nonneg {A} (l : list A) a b :
  0 <= a -> 0 <= b -> pyslice l a b = zfirstn (b - a) (zskipn a l).
Proof.
  intros Ha Hb. unfold pyslice, slice_index.
  destruct (Z.ltb_spec a 0); [lia|]. destruct (Z.ltb_spec b 0); [lia|].
  assert (Hn := len_nonneg l).
  destruct (Z.le_gt_cases (len l) a) as [Hal|Hal].
  - rewrite (Z.min_r a) by lia. rewrite (zskipn_all l a), zskipn_all by lia.
    destruct (_ - _), (b - a); reflexivity.
  - rewrite (Z.min_l a) by lia.
    destruct (Z.le_gt_cases (len l) b) as [Hbl|Hbl].
    + rewrite (Z.min_r b) by lia.
      rewrite !zfirstn_all; auto; rewrite len_zskipn; lia.
    + rewrite (Z.min_l b) by lia; reflexivity.
Qed.

Lemma pyslice_from_nonneg {A} (l : list A) a :
  0 <= a -> pyslice_from l a = zskipn a l.
Proof.
  intros Ha. unfold pyslice_from, slice_index.
  destruct (Z.ltb_spec a 0); [lia|].
  destruct (Z.le_gt_cases (len l) a) as [Hal|Hal].
  - rewrite Z.min_r by lia. rewrite !zskipn_all by lia; reflexivity.
  - rewrite Z.min_l by lia; reflexivity.
Qed.

Lemma pyslice_to_nonneg {A} (l : list A) b :
  0 <= b -> pyslice_to l b = zfirstn b l.
Proof.
  intros Hb. unfold pyslice_to, slice_index.
  destruct (Z.ltb_spec b 0); [lia|].
  destruct (Z.le_gt_cases (len l) b) as [Hbl|Hbl].
  - rewrite Z.min_r by lia. rewrite !zfirstn_all by lia; reflexivity.
  - rewrite Z.min_l by lia; reflexivity.
Qed.

(** ** Bytes *)

Lemma is_bytes_app a b : is_bytes (a ++ b) <-> is_bytes a /\ is_bytes b.
Proof. apply Forall_app. Qed.

Lemma is_bytes_zfirstn n l : is_bytes l -> is_bytes (zfirstn n l).
Proof.
  intros H; rewrite zfirstn_firstn. revert l H; induction (Z.to_nat n) as [|m IH];
    intros l H; cbn [firstn]; [constructor|].
  destruct H; constructor; auto. apply IH; auto.
Qed.

Lemma is_bytes_zskipn n l : is_bytes l -> is_bytes (zskipn n l).
Proof.
  intros H; rewrite zskipn_skipn. revert l H; induction (Z.to_nat n) as [|m IH];
    intros l H; cbn [skipn]; [exact H|].
  destruct H; [constructor|]. apply IH; auto.
Qed.

Lemma is_byteb_spec b : is_byteb b = true <-> is_byte b.
Proof. unfold is_byteb, is_byte; lia. Qed.

Lemma is_bytes_forallb l : forallb is_byteb l = true <-> is_bytes l.
Proof.
  unfold is_bytes. rewrite forallb_forall, Forall_forall.
  split; intros H x Hx; apply is_byteb_spec, H, Hx.
Qed.

(** ** Integers *)

(** The specification encoders: the [n] base-256 digits of [v], least
    significant first, resp. most significant first. *)
Fixpoint le_enc (n : nat) (v : Z) : bytes :=
  match n with O => [] | S m => v mod 256 :: le_enc m (v / 256) end.
Definition be_enc (n : nat) (v : Z) : bytes := rev (le_enc n v).

Lemma le_enc_length n v : length (le_enc n v) = n.
Proof. revert v; induction n as [|n IH]; intros v; cbn; [reflexivity | rewrite IH; reflexivity]. Qed.

Lemma be_enc_length n v : length (be_enc n v) = n.
Proof. unfold be_enc; rewrite rev_length; apply le_enc_length. Qed.

Lemma len_le_enc n v : len (le_enc n v) = Z.of_nat n.
Proof. unfold len; rewrite le_enc_length; reflexivity. Qed.

Lemma len_be_enc n v : len (be_enc n v) = Z.of_nat n.
Proof. unfold len; rewrite be_enc_length; reflexivity. Qed.

Lemma le_enc_bytes n v : is_bytes (le_enc n v).
Proof.
  revert v; induction n as [|n IH]; intros v; cbn; constructor; [|apply IH].
  unfold is_byte; lia.
Qed.

Lemma be_enc_bytes n v : is_bytes (be_enc n v).
Proof. unfold be_enc, is_bytes; apply Forall_rev, le_enc_bytes. Qed.

Lemma pow256_succ n : 256 ^ Z.of_nat (S n) = 256 * 256 ^ Z.of_nat n.
Proof. rewrite Nat2Z.inj_succ, Z.pow_succ_r by lia; reflexivity. Qed.

Lemma le_int_enc_mod n v : le_int (le_enc n v) = v mod 256 ^ Z.of_nat n.
Proof.
  revert v; induction n as [|n IH]; intros v; cbn [le_enc le_int].
  - change (256 ^ Z.of_nat 0) with 1. rewrite Z.mod_1_r; reflexivity.
  - rewrite IH, pow256_succ.
    rewrite (Z.rem_mul_r v 256) by lia. reflexivity.
Qed.

Lemma le_int_enc n v : 0 <= v < 256 ^ Z.of_nat n -> le_int (le_enc n v) = v.
Proof. intros H; rewrite le_int_enc_mod; apply Z.mod_small, H. Qed.

Lemma be_int_app a b : be_int (a ++ [b]) = be_int a * 256 + b.
Proof. unfold be_int; rewrite fold_left_app; reflexivity. Qed.

Lemma be_int_rev d : be_int (rev d) = le_int d.
Proof.
  induction d as [|b d IH]; cbn [rev le_int]; [reflexivity|].
  rewrite be_int_app, IH; lia.
Qed.

Lemma be_int_enc n v : 0 <= v < 256 ^ Z.of_nat n -> be_int (be_enc n v) = v.
Proof. intros H; unfold be_enc; rewrite be_int_rev; apply le_int_enc, H. Qed.

Lemma le_int_bounds d : is_bytes d -> 0 <= le_int d < 256 ^ len d.
Proof.
  induction 1 as [|b d Hb Hd IH]; cbn [le_int]; [cbn; lia|].
  rewrite len_cons, Z.pow_add_r by (pose proof (len_nonneg d); lia).
  change (256 ^ 1) with 256. unfold is_byte in Hb. nia.
Qed.

Lemma be_int_bounds d : is_bytes d -> 0 <= be_int d < 256 ^ len d.
Proof.
  intros H. rewrite <- (rev_involutive d), be_int_rev.
  replace (len (rev (rev d))) with (len (rev d)) by (unfold len; rewrite !rev_length; reflexivity).
  apply le_int_bounds. apply Forall_rev, H.
Qed.

Lemma le_int_inj a b :
  is_bytes a -> is_bytes b -> length a = length b -> le_int a = le_int b -> a = b.
Proof.
  intros Ha; revert b; induction Ha as [|x a Hx Ha IH]; intros b Hb Hl He;
    destruct b as [|y b]; cbn in Hl; try discriminate; [reflexivity|].
  inversion Hb as [|? ? Hy Hb']; subst. cbn [le_int] in He.
  unfold is_byte in *.
  assert (x = y) by lia. assert (le_int a = le_int b) by lia.
  subst; f_equal; apply IH; auto.
Qed.

Lemma le_enc_int d : is_bytes d -> le_enc (length d) (le_int d) = d.
Proof.
  induction 1 as [|b d Hb Hd IH]; cbn [length le_enc le_int]; [reflexivity|].
  unfold is_byte in Hb. f_equal; [lia|].
  replace ((b + 256 * le_int d) / 256) with (le_int d) by lia. apply IH.
Qed.

Lemma be_enc_int d : is_bytes d -> be_enc (length d) (be_int d) = d.
Proof.
  intros H. unfold be_enc. rewrite <- (rev_involutive d) at 2.
  rewrite be_int_rev. rewrite <- (rev_length d).
  rewrite le_enc_int by (apply Forall_rev, H). apply rev_involutive.
Qed.

(** ** Structures *)

(** Specification: well-formed member values and their serialisation. *)
Definition fval_ok (k : fkind) (v : fval) : Prop :=
  match k, v with
  | FU _ n, VI z => 0 <= z < 256 ^ Z.of_nat n
  | FS _ n, VI z => (0 < n)%nat /\ - 2 ^ (8 * Z.of_nat n - 1) <= z < 2 ^ (8 * Z.of_nat n - 1)
  | FB n, VB b => length b = n /\ is_bytes b
  | _, _ => False
  end.

Definition enc_int (e : endian) (n : nat) (v : Z) : bytes :=
  match e with LE => le_enc n v | BE => be_enc n v end.

Definition enc_field (k : fkind) (v : fval) : bytes :=
  match k, v with
  | FU e n, VI z => enc_int e n z
  | FS e n, VI z => enc_int e n (z mod 256 ^ Z.of_nat n)
  | FB _, VB b => b
  | _, _ => []
  end.

Fixpoint enc_struct (ks : list fkind) (vs : list fval) : bytes :=
  match ks, vs with
  | k :: ks', v :: vs' => enc_field k v ++ enc_struct ks' vs'
  | _, _ => []
  end.

Lemma enc_int_length e n v : length (enc_int e n v) = n.
Proof. destruct e; [apply le_enc_length | apply be_enc_length]. Qed.

Lemma endian_int_enc e n v :
  0 <= v < 256 ^ Z.of_nat n -> endian_int e (enc_int e n v) = v.
Proof. destruct e; [apply le_int_enc | apply be_int_enc]. Qed.

Lemma enc_field_length k v : fval_ok k v -> length (enc_field k v) = fsize k.
Proof.
  destruct k as [e n|e n|n], v as [z|b]; cbn [fval_ok enc_field fsize]; try tauto;
    intros H; try apply enc_int_length.
Qed.

Lemma pow256_pow2 n : 256 ^ Z.of_nat n = 2 ^ (8 * Z.of_nat n).
Proof.
  change 256 with (2 ^ 8). rewrite <- Z.pow_mul_r by lia. reflexivity.
Qed.

Lemma to_signed_mod n z :
  (0 < n)%nat -> - 2 ^ (8 * Z.of_nat n - 1) <= z < 2 ^ (8 * Z.of_nat n - 1) ->
  to_signed n (z mod 256 ^ Z.of_nat n) = z.
Proof.
  intros Hn H. rewrite pow256_pow2. unfold to_signed.
  assert (E : 2 ^ (8 * Z.of_nat n) = 2 * 2 ^ (8 * Z.of_nat n - 1)).
  { rewrite <- Z.pow_succ_r by lia. f_equal; lia. }
  assert (P : 0 < 2 ^ (8 * Z.of_nat n - 1)) by (apply Z.pow_pos_nonneg; lia).
  rewrite E. generalize dependent (2 ^ (8 * Z.of_nat n - 1)). intros p Hz Hp _.
  destruct (Z.le_gt_cases 0 z).
  - rewrite Z.mod_small by lia. destruct (Z.ltb_spec z p); lia.
  - replace (z mod (2 * p)) with (z + 2 * p).
    + destruct (Z.ltb_spec (z + 2 * p) p); lia.
    + symmetry. rewrite <- (Z.mod_small (z + 2 * p) (2 * p)) by lia.
      rewrite <- (Z.mul_1_l (2 * p)) at 2. rewrite Z.mod_add by lia. reflexivity.
Qed.

Lemma map_field_enc k v : fval_ok k v -> map_field k (enc_field k v) = v.
Proof.
  destruct k as [e n|e n|n], v as [z|b]; cbn [fval_ok enc_field map_field]; try tauto; intros H.
  - rewrite endian_int_enc by exact H; reflexivity.
  - destruct H as [Hn H]. rewrite endian_int_enc.
    + rewrite to_signed_mod by auto; reflexivity.
    + apply Z.mod_pos_bound. apply Z.pow_pos_nonneg; lia.
Qed.

(** Round trip: mapping the serialisation of well-formed member values, whatever
    follows it, yields the values. *)
Lemma map_struct_enc ks vs rest :
  Forall2 fval_ok ks vs -> map_struct ks (enc_struct ks vs ++ rest) = Some vs.
Proof.
  induction 1 as [|k v ks vs Hv Hvs IH]; cbn [map_struct enc_struct]; [reflexivity|].
  rewrite <- app_assoc.
  pose proof (enc_field_length _ _ Hv) as Hlen.
  destruct (Nat.ltb_spec (length (enc_field k v ++ enc_struct ks vs ++ rest)) (fsize k)) as [H|H].
  { rewrite app_length in H. rewrite Hlen in H. exfalso; lia. }
  rewrite <- Hlen at 1. rewrite skipn_app, skipn_all, Nat.sub_diag. cbn [app skipn].
  rewrite IH. rewrite <- Hlen, firstn_app, firstn_all, Nat.sub_diag. cbn [firstn].
  rewrite app_nil_r, map_field_enc by exact Hv. reflexivity.
Qed.

Lemma enc_struct_length ks vs :
  Forall2 fval_ok ks vs -> length (enc_struct ks vs) = struct_size ks.
Proof.
  induction 1 as [|k v ks vs Hv Hvs IH]; cbn [enc_struct struct_size fold_right]; [reflexivity|].
  rewrite app_length, (enc_field_length _ _ Hv), IH. reflexivity.
Qed.

Lemma map_struct_none ks d :
  (length d < struct_size ks)%nat -> map_struct ks d = None.
Proof.
  revert d; induction ks as [|k ks IH]; intros d H; cbn [struct_size fold_right map_struct] in *; [lia|].
  destruct (Nat.ltb_spec (length d) (fsize k)); [reflexivity|].
  rewrite IH; [reflexivity|]. rewrite skipn_length; unfold struct_size in *; lia.
Qed.

Lemma map_struct_some ks d :
  (struct_size ks <= length d)%nat -> exists vs, map_struct ks d = Some vs.
Proof.
  revert d; induction ks as [|k ks IH]; intros d H; cbn [struct_size fold_right map_struct] in *.
  - eexists; reflexivity.
  - destruct (Nat.ltb_spec (length d) (fsize k)); [unfold struct_size in *; lia|].
    destruct (IH (skipn (fsize k) d)) as [vs ->]; [rewrite skipn_length; unfold struct_size in *; lia|].
    eexists; reflexivity.
Qed.

Lemma map_struct_length ks d vs : map_struct ks d = Some vs -> length vs = length ks.
Proof.
  revert d vs; induction ks as [|k ks IH]; intros d vs; cbn [map_struct].
  - intros [= <-]; reflexivity.
  - destruct (Nat.ltb _ _); [discriminate|].
    destruct (map_struct ks _) eqn:E; [|discriminate]. intros [= <-]. cbn; f_equal; eauto.
Qed.

(** Only the first [struct_size] bytes matter. *)
Lemma map_struct_prefix ks d rest :
  length d = struct_size ks -> map_struct ks (d ++ rest) = map_struct ks d.
Proof.
  revert d; induction ks as [|k ks IH]; intros d H; cbn [map_struct]; [reflexivity|].
  cbn [struct_size fold_right] in H. fold (struct_size ks) in H.
  destruct (Nat.ltb_spec (length d) (fsize k)); [lia|].
  destruct (Nat.ltb_spec (length (d ++ rest)) (fsize k)) as [H1|H1].
  { rewrite app_length in H1; lia. }
  rewrite skipn_app, firstn_app.
  replace (fsize k - length d)%nat with 0%nat by lia. cbn [skipn firstn].
  rewrite app_nil_r. rewrite IH by (rewrite skipn_length; lia). reflexivity.
Qed.

(** ** Files *)

Lemma read_at_app pre d post off n :
  off = len pre -> n = len d -> read_at (pre ++ d ++ post) off n = Ok d.
Proof.
  intros -> ->. unfold read_at.
  pose proof (len_nonneg pre); pose proof (len_nonneg d).
  destruct (Z.ltb_spec (len pre) 0); [lia|].
  destruct (Z.ltb_spec (len d) 0); [lia|].
  rewrite zskipn_app_len by reflexivity. rewrite zfirstn_app_len by reflexivity. reflexivity.
Qed.

Lemma len_s2z s : len (s2z s) = Z.of_nat (String.length s).
Proof. induction s as [|a s IH]; cbn [s2z String.length]; [reflexivity|]. rewrite len_cons, IH; lia. Qed.

Lemma nth_error_firstn {A} (l : list A) n i :
  (i < n)%nat -> nth_error (firstn n l) i = nth_error l i.
Proof.
  revert n i; induction l as [|x l IH]; intros n i H; [rewrite firstn_nil; reflexivity|].
  destruct n as [|n]; [lia|]. destruct i as [|i]; [reflexivity|].
  cbn [firstn nth_error]. apply IH; lia.
Qed.

Lemma nth_error_skipn {A} (l : list A) a i : nth_error (skipn a l) i = nth_error l (a + i).
Proof.
  revert l; induction a as [|a IH]; intros l; [reflexivity|].
  destruct l as [|x l]; cbn [skipn Nat.add nth_error]; [destruct i; reflexivity|apply IH].
Qed.

From Verif Require Import Base CoreModel CoreProofs VarModel VarFacts DictModel GzipModel GzipProofs
  BaseFacts BitFacts StructFacts SpotModel SpotSpec.

(** ** Variable size integers *)

Lemma bytes_256 (P : Z -> Prop) :
  Forall P (map Z.of_nat (seq 0 256)) -> forall b, 0 <= b < 256 -> P b.
Proof.
  intros H b Hb. rewrite Forall_forall in H. apply H. apply in_map_iff. exists (Z.to_nat b).
  split; [lia|]. apply in_seq. lia.
Qed.

(** The first byte: number of additional bytes and value bits. *)
Definition lead (b : Z) : nat * Z :=
  let (n, m) := vint_count b vint_masks in
  (n, if Nat.ltb 4 n then 0 else if Nat.ltb 0 n then Z.land b (Z.lxor m 255) else b).

Definition lead_spec (b : Z) : nat * Z :=
  if b <? 128 then (0%nat, b) else if b <? 192 then (1%nat, b - 128) else if b <? 224 then (2%nat, b - 192)
  else if b <? 240 then (3%nat, b - 224) else if b <? 248 then (4%nat, b - 240) else if b <? 252 then (5%nat, 0)
  else if b <? 254 then (6%nat, 0) else if b <? 255 then (7%nat, 0) else (8%nat, 0).

Lemma lead_table : forallb (fun b => Nat.eqb (fst (lead b)) (fst (lead_spec b)) && (snd (lead b) =? snd (lead_spec b)))
  (map Z.of_nat (seq 0 256)) = true.
Proof. vm_compute. reflexivity. Qed.

Lemma lead_eq b : 0 <= b < 256 -> lead b = lead_spec b.
Proof.
  intros Hb. pose proof lead_table as T. rewrite forallb_forall in T.
  specialize (T b). assert (I : In b (map Z.of_nat (seq 0 256))).
  { apply in_map_iff. exists (Z.to_nat b). split; [lia|]. apply in_seq. lia. }
  specialize (T I). apply andb_prop in T. destruct T as [T1 T2].
  apply Nat.eqb_eq in T1. apply Z.eqb_eq in T2. destruct (lead b), (lead_spec b). cbn in *. congruence.
Qed.

Lemma read_vint_cons b r : read_vint (b :: r) = vint_more (fst (lead b)) (b :: r) 1 (snd (lead b)).
Proof.
  unfold read_vint, lead. rewrite (eq_refl : pyindex (b :: r) 0 = Ok b). cbn [bind].
  destruct (vint_count b vint_masks) as [n m]. reflexivity.
Qed.

Lemma pyindex_app {A} (a : list A) x r i : i = len a -> pyindex (a ++ x :: r) i = Ok x.
Proof.
  intros ->. unfold pyindex. pose proof (len_nonneg a). destruct (Z.ltb_spec (len a) 0); [lia|].
  destruct (Z.ltb_spec (len a) 0); [lia|]. rewrite znth_error_skipn by lia.
  rewrite zskipn_app_len by reflexivity. reflexivity.
Qed.

Lemma pyindex_end {A} (l : list A) i : len l <= i -> pyindex l i = Err IndexError.
Proof.
  intros H. unfold pyindex. pose proof (len_nonneg l). destruct (Z.ltb_spec i 0); [lia|].
  destruct (Z.ltb_spec i 0); [lia|]. rewrite znth_error_skipn by lia. rewrite zskipn_all by lia. reflexivity.
Qed.

Lemma be_fold l : forall a, fold_left (fun acc x => acc * 256 + x) l a = a * 256 ^ len l + be_int l.
Proof.
  induction l as [|x l IH]; intros a; [cbn; lia|]. unfold be_int. cbn [fold_left].
  rewrite IH, (IH (0 * 256 + x)). rewrite len_cons, Z.pow_add_r by (pose proof (len_nonneg l); lia). ring.
Qed.

Lemma be_int_cons b l : be_int (b :: l) = b * 256 ^ len l + be_int l.
Proof. unfold be_int at 1. cbn [fold_left]. rewrite be_fold. ring. Qed.

Lemma vint_more_app pre l : forall rest pos v, pos = len pre ->
  vint_more (length l) (pre ++ l ++ rest) pos v = Ok (v * 256 ^ len l + be_int l, pos + len l).
Proof.
  revert pre. induction l as [|b l IH]; intros pre rest pos v Hp; cbn [length vint_more].
  - rewrite len_nil. cbn. f_equal. f_equal; lia.
  - rewrite (pyindex_app pre b (l ++ rest)) by exact Hp. cbn [bind].
    replace (pre ++ (b :: l) ++ rest) with ((pre ++ [b]) ++ l ++ rest) by (rewrite <- app_assoc; reflexivity).
    rewrite IH by (rewrite len_app, len_cons, len_nil; lia). rewrite Z.shiftl_mul_pow2 by lia.
    rewrite be_int_cons, len_cons, Z.pow_add_r by (pose proof (len_nonneg l); lia). f_equal. f_equal; [ring|lia].
Qed.

Lemma vint_more_short n : forall d pos v, 0 <= pos <= len d -> len d < pos + Z.of_nat n ->
  vint_more n d pos v = Err IndexError.
Proof.
  induction n as [|n IH]; intros d pos v Hp Hd; cbn [vint_more]; [lia|].
  destruct (Z.eq_dec pos (len d)) as [->|N].
  - rewrite pyindex_end by lia. reflexivity.
  - destruct (pyindex d pos) as [b|e] eqn:E; cbn [bind].
    + apply IH; lia.
    + unfold pyindex in E. destruct (Z.ltb_spec pos 0); [lia|]. destruct (Z.ltb_spec pos 0); [lia|].
      destruct (znth_error d pos); congruence.
Qed.

(** What the reader does with any data. *)
Lemma read_vint_shape d : is_bytes d ->
  read_vint d =
  match d with
  | [] => Err IndexError
  | b :: r =>
      let (n, v) := lead_spec b in
      if Z.of_nat n <=? len r then Ok (v * 256 ^ Z.of_nat n + be_int (zfirstn (Z.of_nat n) r), 1 + Z.of_nat n)
      else Err IndexError
  end.
Proof.
  intros Hd. destruct d as [|b r]; [reflexivity|]. rewrite read_vint_cons.
  inversion Hd as [|? ? Hb Hr]; subst. rewrite lead_eq by exact Hb.
  destruct (lead_spec b) as [n v]. cbn [fst snd]. destruct (Z.leb_spec (Z.of_nat n) (len r)) as [H|H].
  - pose proof (zfirstn_zskipn r (Z.of_nat n)) as E. rewrite <- E at 1.
    assert (L : len (zfirstn (Z.of_nat n) r) = Z.of_nat n) by (rewrite len_zfirstn; lia).
    replace n with (length (zfirstn (Z.of_nat n) r)) at 1 by (unfold len in L; lia).
    change (b :: zfirstn (Z.of_nat n) r ++ zskipn (Z.of_nat n) r)
      with ([b] ++ zfirstn (Z.of_nat n) r ++ zskipn (Z.of_nat n) r).
    rewrite vint_more_app by reflexivity. rewrite L. reflexivity.
  - apply vint_more_short; [rewrite len_cons; pose proof (len_nonneg r); lia|rewrite len_cons; lia].
Qed.

Lemma lead_spec_bound b : 0 <= b < 256 -> (fst (lead_spec b) <= 8)%nat /\ 0 <= snd (lead_spec b).
Proof.
  intros H. unfold lead_spec.
  repeat match goal with |- context[?a <? ?b] => destruct (Z.ltb_spec a b) end; cbn [fst snd]; lia.
Qed.

Lemma vi_lead x : vi_ok x ->
  exists b l, vi_bytes x = b :: l /\ 0 <= b < 256 /\ length l = vi_w x /\ fst (lead_spec b) = vi_w x /\
    snd (lead_spec b) * 256 ^ Z.of_nat (vi_w x) + be_int l = vi_v x.
Proof.
  destruct x as [w v]. unfold vi_ok, vi_bytes. cbn [vi_w vi_v]. intros (Hw & H0 & Hs & Hl).
  exists (256 - 2 ^ (8 - Z.of_nat w) + v / 256 ^ Z.of_nat w), (be_enc w (v mod 256 ^ Z.of_nat w)).
  split; [reflexivity|]. rewrite be_enc_length.
  assert (Hp : 0 < 256 ^ Z.of_nat w) by (apply Z.pow_pos_nonneg; lia).
  rewrite be_int_enc by (apply Z.mod_pos_bound; exact Hp).
  assert (E : v = 256 ^ Z.of_nat w * (v / 256 ^ Z.of_nat w) + v mod 256 ^ Z.of_nat w) by (apply Z.div_mod; lia).
  do 9 (destruct w as [|w]; [
    try specialize (Hs ltac:(lia)); try specialize (Hl ltac:(lia));
    repeat match goal with
      | |- context [256 ^ Z.of_nat ?n] =>
          let c := eval compute in (256 ^ Z.of_nat n) in change (256 ^ Z.of_nat n) with c in *
      | |- context [2 ^ (8 - Z.of_nat ?n)] =>
          let c := eval compute in (2 ^ (8 - Z.of_nat n)) in change (2 ^ (8 - Z.of_nat n)) with c in *
      | H : context [2 ^ (7 * Z.of_nat (?n + 1))] |- _ =>
          let c := eval compute in (2 ^ (7 * Z.of_nat (n + 1))) in change (2 ^ (7 * Z.of_nat (n + 1))) with c in *
      end; unfold lead_spec;
    repeat match goal with |- context[?a <? ?b] => destruct (Z.ltb_spec a b) end; cbn [fst snd]; lia|]).
  lia.
Qed.

Lemma read_vint_ok x rest : vi_ok x -> read_vint (vi_bytes x ++ rest) = Ok (vi_v x, len (vi_bytes x)).
Proof.
  intros H. destruct (vi_lead x H) as (b & l & -> & Hb & Hl & Hf & Hv). cbn [app]. rewrite read_vint_cons.
  rewrite lead_eq by exact Hb. rewrite Hf, <- Hl. change (b :: l ++ rest) with ([b] ++ l ++ rest).
  rewrite vint_more_app by reflexivity. rewrite len_cons. f_equal. f_equal.
  rewrite <- Hl in Hv. exact Hv.
Qed.

Lemma vi_bytes_pos x : vi_ok x -> 1 <= len (vi_bytes x) <= 9.
Proof.
  intros H. pose proof H as (Hw & _). unfold vi_bytes. rewrite len_cons, len_be_enc. lia.
Qed.

Lemma vi_bytes_bytes x : vi_ok x -> is_bytes (vi_bytes x).
Proof.
  intros H. destruct (vi_lead x H) as (b & l & E & Hb & _).
  pose proof (f_equal (hd 0) E) as E1. unfold vi_bytes in E1. cbn [hd] in E1. unfold vi_bytes.
  constructor; [rewrite E1; exact Hb|apply be_enc_bytes].
Qed.

(** Every value below 2^64 has an encoding. *)
Lemma vi_exists v : 0 <= v < 2 ^ 64 -> exists x, vi_ok x /\ vi_v x = v.
Proof. intros H. exists (mkvi 8 v). unfold vi_ok. cbn. lia. Qed.

(** ** Streams maps *)

Ltac sfields := repeat (apply Forall2_cons || apply Forall2_nil); cbn [fval_ok]; try assumption;
  try (split; [reflexivity|apply is_bytes_forallb; reflexivity]).

Lemma fields_cons k ks a r : length a = fsize k -> fields (k :: ks) (a ++ r) = map_field k a :: fields ks r.
Proof.
  intros H. cbn [fields]. rewrite zfirstn_app_len by (unfold len; lia). rewrite zskipn_app_len by (unfold len; lia).
  reflexivity.
Qed.

Lemma map_uint32s_enc l rest : Forall (u 4) l ->
  map_uint32s (length l) (concat (map (le_enc 4) l) ++ rest) = Some l.
Proof.
  induction 1 as [|v l Hv _ IH]; cbn [length map_uint32s map concat]; [reflexivity|].
  rewrite <- app_assoc. pose proof (le_enc_length 4 v) as L.
  destruct (Nat.ltb_spec (length (le_enc 4 v ++ concat (map (le_enc 4) l) ++ rest)) 4) as [H|H];
    [rewrite app_length in H; lia|].
  rewrite skipn_app, firstn_app, L.
  rewrite (skipn_all2 (le_enc 4 v)) by lia. rewrite (firstn_all2 (le_enc 4 v)) by lia.
  change (4 - 4)%nat with 0%nat. rewrite skipn_O, firstn_O.
  cbn [app]. rewrite IH, app_nil_r. rewrite le_int_enc by exact Hv. reflexivity.
Qed.

Lemma len_concat_enc4 l : len (concat (map (le_enc 4) l)) = 4 * len l.
Proof.
  induction l as [|v l IH]; [reflexivity|]. cbn [map concat]. rewrite len_app, IH, len_le_enc, len_cons. lia.
Qed.

Lemma ranges_from_length o r : length (fst (ranges_from o r)) = length r.
Proof.
  revert o. induction r as [|x r IH]; intros o; cbn [ranges_from length]; [reflexivity|].
  specialize (IH x). destruct (ranges_from x r). cbn [fst length] in *. lia.
Qed.

Lemma ranges_from_last o r : snd (ranges_from o r) = last (o :: r) 0.
Proof.
  revert o. induction r as [|x r IH]; intros o; [reflexivity|]. cbn [ranges_from].
  specialize (IH x). destruct (ranges_from x r). cbn [snd] in *. rewrite IH. reflexivity.
Qed.

Lemma ranges_from_nth o r i x y : nth_error (o :: r) i = Some x -> nth_error (o :: r) (S i) = Some y ->
  nth_error (fst (ranges_from o r)) i = Some (x, y - x).
Proof.
  revert o i. induction r as [|z r IH]; intros o i H1 H2; [destruct i; discriminate|].
  cbn [ranges_from]. specialize (IH z). destruct (ranges_from z r) as [l e]. cbn [fst] in *.
  destruct i as [|i].
  - cbn in H1, H2. injection H1 as <-. injection H2 as <-. reflexivity.
  - cbn [nth_error] in *. apply IH; assumption.
Qed.

(** The ranges of any list of offsets whose last offset is not zero. *)
Lemma offset_ranges_nth data_size offsets i o : last offsets 0 <> 0 -> nth_error offsets i = Some o ->
  nth_error (offset_ranges data_size offsets) i =
  Some (o, match nth_error offsets (S i) with Some n => n - o | None => data_size - o end).
Proof.
  intros Hl Hi. destruct offsets as [|f r]; [destruct i; discriminate|]. unfold offset_ranges.
  pose proof (ranges_from_length f r) as L. pose proof (ranges_from_last f r) as E.
  pose proof (fun y => ranges_from_nth f r i o y Hi) as N.
  destruct (ranges_from f r) as [l e]. cbn [fst snd] in *. subst e.
  destruct (Z.eqb_spec (last (f :: r) 0) 0); [contradiction|].
  destruct (nth_error (f :: r) (S i)) as [y|] eqn:E2.
  - specialize (N y eq_refl). rewrite nth_error_app1; [exact N|]. apply nth_error_Some. congruence.
  - apply nth_error_None in E2. cbn [length] in E2.
    assert (i < length (f :: r))%nat by (apply nth_error_Some; congruence). cbn [length] in *.
    assert (i = length r) by lia. subst i. rewrite nth_error_app2 by lia. rewrite L, Nat.sub_diag. cbn [nth_error].
    f_equal. assert (last (f :: r) 0 = o); [|congruence].
    clear - Hi. revert f Hi. induction r as [|x r IH]; intros f Hi; [cbn in Hi; injection Hi as ->; reflexivity|].
    cbn [length nth_error] in Hi. cbn [last]. apply IH. exact Hi.
Qed.

Lemma offset_ranges_length data_size offsets :
  length (offset_ranges data_size offsets) =
  if last offsets 0 =? 0 then (length offsets - 1)%nat else length offsets.
Proof.
  destruct offsets as [|f r]; [reflexivity|]. unfold offset_ranges.
  pose proof (ranges_from_length f r) as L. pose proof (ranges_from_last f r) as E.
  destruct (ranges_from f r) as [l e]. cbn [fst snd] in *. subst e. rewrite app_length, L.
  destruct (last (f :: r) 0 =? 0); cbn [length]; lia.
Qed.

Definition go_offsets := (fix go o (l : list bytes) := match l with [] => [] | x :: r => o :: go (o + len x) r end).
Lemma offsets_of_cons o x l : offsets_of o (x :: l) = o :: offsets_of (o + len x) l.
Proof. reflexivity. Qed.

Lemma offsets_of_length l : forall o, length (offsets_of o l) = length l.
Proof. induction l as [|x l IH]; intros o; [reflexivity|]. rewrite offsets_of_cons. cbn [length]. rewrite IH. reflexivity. Qed.

Lemma offsets_of_nth l : forall o i, (i < length l)%nat -> nth_error (offsets_of o l) i = Some (o + len (concat (firstn i l))).
Proof.
  induction l as [|x l IH]; intros o i Hi; [cbn in Hi; lia|]. rewrite offsets_of_cons.
  destruct i as [|i]; cbn [nth_error firstn concat]; [rewrite len_nil; f_equal; lia|].
  cbn [length] in Hi. rewrite IH by lia. rewrite len_app. f_equal. lia.
Qed.

Lemma last_nth {A} (l : list A) d x : nth_error l (length l - 1) = Some x -> last l d = x.
Proof.
  induction l as [|a l IH]; intros H; [discriminate|]. destruct l as [|b l]; [injection H as ->; reflexivity|].
  cbn [last]. apply IH. cbn [length] in *. replace (S (length l) - 1)%nat with (length l) by lia.
  replace (S (S (length l)) - 1)%nat with (S (length l)) in H by lia. exact H.
Qed.

Lemma firstn_removelast {A} (l : list A) : firstn (length l - 1) l = removelast l.
Proof.
  induction l as [|a l IH]; [reflexivity|]. destruct l as [|b l]; [reflexivity|].
  cbn [length removelast] in *. replace (S (S (length l)) - 1)%nat with (S (length l)) by lia. cbn [firstn].
  f_equal. rewrite <- IH. f_equal. lia.
Qed.

Lemma offsets_of_bound l : forall o, 0 <= o -> o + len (concat l) < 256 ^ 4 -> Forall (u 4) (offsets_of o l).
Proof.
  induction l as [|x l IH]; intros o H0 Hb; [constructor|]. rewrite offsets_of_cons. cbn [concat] in Hb.
  rewrite len_app in Hb. pose proof (len_nonneg x). pose proof (len_nonneg (concat l)).
  constructor; [unfold u; cbn; lia|apply IH; lia].
Qed.

Lemma concat_firstn_S {A} (l : list (list A)) i x : nth_error l i = Some x -> concat (firstn (S i) l) = concat (firstn i l) ++ x.
Proof.
  revert i. induction l as [|a l IH]; intros i H; [destruct i; discriminate|]. destruct i as [|i].
  - cbn in H. injection H as ->. cbn [firstn concat]. rewrite app_nil_r. reflexivity.
  - cbn [nth_error] in H. specialize (IH i H). change (firstn (S (S i)) (a :: l)) with (a :: firstn (S i) l).
    cbn [concat]. rewrite IH. cbn [firstn concat]. rewrite app_assoc. reflexivity.
Qed.

Lemma nth_error_ext {A} (a b : list A) : (forall i, nth_error a i = nth_error b i) -> a = b.
Proof.
  revert b. induction a as [|x a IH]; intros [|y b] H; [reflexivity|specialize (H O); discriminate|specialize (H O); discriminate|].
  pose proof (H O) as H0. cbn in H0. injection H0 as ->. f_equal. apply IH. intros i. exact (H (S i)).
Qed.

Lemma streams_data (l : list bytes) t3 : concat (removelast l) <> [] -> 
  read_streams_data (concat l ++ t3) (len (concat l)) (offset_ranges (len (concat l)) (offsets_of 0 l)) = l.
Proof.
  intros Hne. unfold read_streams_data. rewrite zfirstn_app_len by reflexivity.
  assert (Hl : l <> []) by (intros ->; apply Hne; reflexivity).
  assert (Hlen : (0 < length l)%nat) by (destruct l; [contradiction|cbn; lia]).
  assert (Hlast : last (offsets_of 0 l) 0 <> 0).
  { rewrite (last_nth _ _ (0 + len (concat (removelast l)))).
    - pose proof (len_zero (concat (removelast l))) as Z0. intros E. rewrite Z.add_0_l in E. apply Hne, Z0. exact E.
    - rewrite offsets_of_length. rewrite offsets_of_nth by lia. rewrite firstn_removelast. reflexivity. }
  apply nth_error_ext. intros i. rewrite nth_error_map.
  destruct (nth_error l i) as [x|] eqn:Ex.
  - assert (Hi : (i < length l)%nat) by (apply nth_error_Some; congruence).
    rewrite (offset_ranges_nth _ _ i (len (concat (firstn i l))) Hlast) by (rewrite offsets_of_nth by lia; f_equal; lia).
    cbn [option_map fst snd]. f_equal.
    assert (E : match nth_error (offsets_of 0 l) (S i) with
                | Some n => n - len (concat (firstn i l))
                | None => len (concat l) - len (concat (firstn i l)) end = len x).
    { pose proof (concat_firstn_S l i x Ex) as C.
      assert (C2 : len (concat (firstn (S i) l)) = len (concat (firstn i l)) + len x)
        by (etransitivity; [exact (f_equal len C)|apply len_app]).
      destruct (Nat.lt_ge_cases (S i) (length l)).
      - rewrite offsets_of_nth by assumption. rewrite C2. lia.
      - assert (N : nth_error (offsets_of 0 l) (S i) = None) by (apply nth_error_None; rewrite offsets_of_length; lia).
        rewrite N. rewrite firstn_all2 in C2 by lia. rewrite C2. lia. }
    rewrite E. pose proof (len_nonneg (concat (firstn i l))). pose proof (len_nonneg x).
    rewrite pyslice_nonneg by lia. replace (_ + len x - _) with (len x) by lia.
    assert (D : concat l = concat (firstn i l) ++ x ++ concat (skipn (S i) l)).
    { rewrite app_assoc. etransitivity; [|exact (f_equal (fun z => z ++ concat (skipn (S i) l)) (concat_firstn_S l i x Ex))].
      rewrite <- (firstn_skipn (S i) l) at 1. apply concat_app. }
    rewrite D.
    rewrite zskipn_app_len by reflexivity. rewrite zfirstn_app_len by reflexivity. reflexivity.
  - apply nth_error_None in Ex. 
    assert (N : nth_error (offset_ranges (len (concat l)) (offsets_of 0 l)) i = None).
    { apply nth_error_None. rewrite offset_ranges_length. rewrite offsets_of_length. destruct (_ =? 0); lia. }
    rewrite N. reflexivity.
Qed.

Lemma read_streams_map_gen (l : list bytes) unk t1 t2 t3 : length unk = 10%nat -> Forall (u 4) unk ->
  u 4 (len (concat l)) -> u 4 (len l) ->
  read_streams_map (Some (streams_of l unk t1 t2 t3)) = Ok (read_streams_data (concat l ++ t3) (len (concat l)) (offset_ranges (len (concat l)) (offsets_of 0 l))).
Proof.
  intros Hu Hf Hc Hl. destruct unk as [|a [|b [|c [|d [|e [|f [|g [|h [|i [|j [|]]]]]]]]]]]; try discriminate Hu.
  repeat match goal with H : Forall _ (_ :: _) |- _ => inversion H; clear H; subst end.
  unfold read_streams_map, streams_of. cbn [sf_header sf_offsets sf_data].
  assert (E : read_streams_header (([0] ++ s2z "PataD" ++ [0; 0]) ++
     concat (map (le_enc 4) [a; b; c; len (concat l); d; len l; e; f; g; h; i; j]) ++ t1) = Ok (len (concat l), len l)).
  { unfold read_streams_header.
    change ((([0] ++ s2z "PataD" ++ [0; 0]) ++
     concat (map (le_enc 4) [a; b; c; len (concat l); d; len l; e; f; g; h; i; j]) ++ t1))
    with ([] ++ enc_struct streams_header_layout (VB ([0] ++ s2z "PataD" ++ [0; 0]) ::
       map VI [a; b; c; len (concat l); d; len l; e; f; g; h; i; j]) ++ t1).
    rewrite read_struct_enc; [|unfold streams_header_layout; cbn [repeat map]; sfields|reflexivity].
    reflexivity. }
  match goal with |- context [read_streams_header ?x] => replace (read_streams_header x) with (Ok (len (concat l), len l)) by (symmetry; exact E) end.
  cbn [bind]. unfold read_streams_offsets.
  rewrite zfirstn_app_len by (rewrite len_concat_enc4; unfold len; rewrite offsets_of_length; lia).
  assert (M : map_uint32s (Z.to_nat (len l)) (concat (map (le_enc 4) (offsets_of 0 l))) = Some (offsets_of 0 l)).
  { pose proof (map_uint32s_enc (offsets_of 0 l) [] (offsets_of_bound l 0 ltac:(lia) ltac:(unfold u in Hc; change (256 ^ 4) with (256 ^ Z.of_nat 4); lia))) as M.
    rewrite app_nil_r, offsets_of_length in M. unfold len. rewrite Nat2Z.id. exact M. }
  rewrite M. reflexivity.
Qed.

Lemma read_streams_map_ok (l : list bytes) unk t1 t2 t3 : length unk = 10%nat -> Forall (u 4) unk ->
  concat (removelast l) <> [] -> u 4 (len (concat l)) -> u 4 (len l) ->
  read_streams_map (Some (streams_of l unk t1 t2 t3)) = Ok l.
Proof.
  intros Hu Hf Hne Hc Hl. rewrite read_streams_map_gen by assumption. rewrite streams_data by exact Hne. reflexivity.
Qed.

Lemma read_streams_map_single d unk t1 t2 t3 : length unk = 10%nat -> Forall (u 4) unk -> u 4 (len d) ->
  read_streams_map (Some (streams_of [d] unk t1 t2 t3)) = Ok [].
Proof.
  intros Hu Hf Hd. rewrite read_streams_map_gen; [reflexivity|exact Hu|exact Hf| |].
  - cbn [concat]. rewrite app_nil_r. exact Hd.
  - unfold u. change (len [d]) with 1. change (256 ^ Z.of_nat 4) with 4294967296. lia.
Qed.

(** ** LZ4 pages *)

Lemma len_bv1 : len (s2z "bv41") = 4. Proof. reflexivity. Qed.
Lemma len_bv2 : len (s2z "bv4-") = 4. Proof. reflexivity. Qed.
Lemma len_bv3 : len (s2z "bv4$") = 4. Proof. reflexivity. Qed.

Lemma len_lz4_stored b : 8 <= len (lz4_stored_bytes b).
Proof.
  destruct b as [n d|d]; cbn [lz4_stored_bytes]; rewrite !len_app, !len_le_enc, ?len_bv1, ?len_bv2;
    pose proof (len_nonneg d); lia.
Qed.

Lemma lz4_block_compressed lz4 p usize d rest : u 4 usize -> u 4 (len d) ->
  lz4_block lz4 (lz4_stored_bytes (LCompressed usize d) ++ rest) p =
  (do c <- lz4 p usize d; Ok (c, len (lz4_stored_bytes (LCompressed usize d)))).
Proof.
  intros H1 H2. unfold lz4_block. cbn [lz4_stored_bytes].
  replace ((s2z "bv41" ++ le_enc 4 usize ++ le_enc 4 (len d) ++ d) ++ rest)
    with (enc_struct lz4_header_layout [VB (s2z "bv41"); VI usize; VI (len d)] ++ d ++ rest)
    by (cbn [lz4_header_layout enc_struct enc_field enc_int]; rewrite app_nil_r, <- !app_assoc; reflexivity).
  rewrite map_struct_enc by (unfold lz4_header_layout; sfields).
  rewrite list_eqb_refl. pose proof (len_nonneg d). rewrite pyslice_nonneg by lia.
  replace (12 + len d - 12) with (len d) by lia.
  rewrite zskipn_app_len by (cbn [lz4_header_layout enc_struct enc_field enc_int]; rewrite !len_app, !len_le_enc, len_s2z; reflexivity).
  rewrite zfirstn_app_len by reflexivity. destruct (lz4 p usize d); cbn [bind]; [|reflexivity].
  do 2 f_equal. rewrite !len_app, !len_le_enc, len_bv1. lia.
Qed.

Lemma lz4_block_stored lz4 p d rest : u 4 (len d) -> 4 <= len rest ->
  lz4_block lz4 (lz4_stored_bytes (LStored d) ++ rest) p = Ok (d, len (lz4_stored_bytes (LStored d))).
Proof.
  intros H1 H2. unfold lz4_block. cbn [lz4_stored_bytes]. rewrite map_struct_fields.
  pose proof (len_nonneg d).
  destruct (Z.leb_spec (Z.of_nat (struct_size lz4_header_layout)) (len ((s2z "bv4-" ++ le_enc 4 (len d) ++ d) ++ rest))) as [_|C];
    [|rewrite !len_app, len_le_enc, len_bv2 in C; change (Z.of_nat (struct_size lz4_header_layout)) with 12 in C; lia].
  unfold lz4_header_layout. rewrite <- !app_assoc. rewrite fields_cons by reflexivity.
  rewrite fields_cons by apply le_enc_length. cbn [map_field endian_int fields].
  rewrite le_int_enc by exact H1.
  rewrite (eq_refl : list_eqb (s2z "bv4-") (s2z "bv41") = false). rewrite list_eqb_refl.
  rewrite pyslice_nonneg by lia. replace (8 + len d - 8) with (len d) by lia.
  rewrite (app_assoc (s2z "bv4-")). rewrite zskipn_app_len by (rewrite len_app, len_le_enc, len_s2z; reflexivity).
  rewrite zfirstn_app_len by reflexivity. do 2 f_equal. rewrite !len_app, len_le_enc, len_bv2. lia.
Qed.

Lemma lz4_block_first lz4 p b c rest : lz4_stored_ok b -> 4 <= len rest -> lz4_contents lz4 p [b] [c] ->
  lz4_block lz4 (lz4_stored_bytes b ++ rest) p = Ok (c, len (lz4_stored_bytes b)).
Proof.
  intros Hb Hr Hc. destruct b as [usize d|d]; cbn [lz4_stored_ok] in Hb.
  - inversion Hc; subst. rewrite lz4_block_compressed by tauto.
    match goal with H : lz4 _ _ _ = Ok _ |- _ => rewrite H end. reflexivity.
  - inversion Hc; subst. apply lz4_block_stored; assumption.
Qed.

Lemma stored_marker b rest : zfirstn 4 (lz4_stored_bytes b ++ rest) <> s2z "bv4$".
Proof. destruct b; cbn; discriminate. Qed.

Lemma lz4_page_blocks lz4 pad : forall bs cs p pre fuel marker acc,
  lz4_contents lz4 p bs cs -> Forall lz4_stored_ok bs -> (length bs < fuel)%nat ->
  lz4_page_loop fuel lz4 (pre ++ concat (map lz4_stored_bytes bs) ++ s2z "bv4$" ++ pad) (len pre) p marker acc =
  Done (Ok (concat (acc ++ cs))).
Proof.
  induction bs as [|b bs IH]; intros cs p pre fuel marker acc Hc Hok Hf;
    (destruct fuel as [|fuel]; [lia|]); cbn [lz4_page_loop map concat]; cbv zeta.
  - inversion Hc; subst. cbn [app].
    pose proof (len_nonneg pre). pose proof (len_nonneg pad).
    destruct (Z.ltb_spec (len pre) (len (pre ++ s2z "bv4$" ++ pad))) as [_|C];
      [|rewrite !len_app, len_bv3 in C; lia].
    rewrite pyslice_nonneg by lia. rewrite zskipn_app_len by reflexivity.
    rewrite zfirstn_app_len by (rewrite len_bv3; lia). rewrite list_eqb_refl. cbn [negb].
    rewrite app_nil_r. reflexivity.
  - inversion Hok as [|? ? Hb Hbs]; subst.
    assert (exists c cs', cs = c :: cs' /\ lz4_contents lz4 p [b] [c] /\ lz4_contents lz4 (Some c) bs cs') as (c & cs' & -> & H1 & H2).
    { inversion Hc; subst; eexists _, _; (split; [reflexivity|]); split; try assumption; econstructor; try eassumption; constructor. }
    pose proof (len_nonneg pre). pose proof (len_lz4_stored b). pose proof (len_nonneg pad).
    set (tail := concat (map lz4_stored_bytes bs) ++ s2z "bv4$" ++ pad).
    replace ((lz4_stored_bytes b ++ concat (map lz4_stored_bytes bs)) ++ s2z "bv4$" ++ pad)
      with (lz4_stored_bytes b ++ tail) by (unfold tail; rewrite <- app_assoc; reflexivity).
    destruct (Z.ltb_spec (len pre) (len (pre ++ lz4_stored_bytes b ++ tail))) as [_|C];
      [|rewrite !len_app in C; pose proof (len_nonneg tail); lia].
    rewrite pyslice_nonneg by lia. rewrite zskipn_app_len by reflexivity.
    replace (len pre + 4 - len pre) with 4 by lia.
    pose proof (stored_marker b tail) as Hm. apply list_eqb_neq in Hm. rewrite Hm.
    rewrite pyslice_from_nonneg by lia. rewrite zskipn_app_len by reflexivity.
    rewrite (lz4_block_first lz4 p b c tail Hb); [| |exact H1].
    + rewrite (app_assoc pre). rewrite <- len_app. unfold tail. rewrite (IH cs' (Some c)); [|exact H2|exact Hbs|cbn [length] in Hf; lia].
      rewrite <- app_assoc. reflexivity.
    + unfold tail. rewrite !len_app, len_bv3. pose proof (len_nonneg (concat (map lz4_stored_bytes bs))). lia.
Qed.

(** A page is only accepted with an end marker; every block advances the position. *)
Lemma lz4_block_progress lz4 d p c n : is_bytes d -> lz4_block lz4 d p = Ok (c, n) -> 8 <= n.
Proof.
  intros Hb. unfold lz4_block. rewrite map_struct_fields.
  destruct (Z.leb_spec (Z.of_nat (struct_size lz4_header_layout)) (len d)) as [H|H]; [|discriminate].
  unfold lz4_header_layout. cbn [fields map_field endian_int fsize].
  pose proof (fun a n => le_int_window_bounds d a n Hb) as W.
  change (Z.of_nat 4) with 4. rewrite (zskipn_zskipn d 4 4) by lia.
  pose proof (W 4 4 ltac:(lia)) as W1. pose proof (W 8 4 ltac:(lia)) as W2. change (4 + 4) with 8.
  set (x := le_int (zfirstn 4 (zskipn 4 d))) in *. set (y := le_int (zfirstn 4 (zskipn 8 d))) in *. clearbody x y.
  destruct (list_eqb _ _).
  - destruct (lz4 _ _ _); cbn [bind]; [|discriminate]. intros E. assert (n = 12 + y) by congruence. lia.
  - destruct (list_eqb _ _); [|discriminate]. intros E. assert (n = 8 + x) by congruence. lia.
Qed.

Lemma lz4_page_total lz4 data : is_bytes data -> forall fuel off p marker acc,
  0 <= off -> Z.max 0 (len data - off) + 8 <= 8 * Z.of_nat fuel ->
  lz4_page_loop fuel lz4 data off p marker acc <> OutOfFuel.
Proof.
  intros Hd. induction fuel as [|fuel IH]; intros off p marker acc Ho Hf; [lia|].
  cbn [lz4_page_loop]. cbv zeta.
  destruct (Z.ltb_spec off (len data)) as [H|H].
  - destruct (list_eqb _ (s2z "bv4$")) eqn:E.
    + destruct (negb _); discriminate.
    + destruct (lz4_block lz4 (pyslice_from data off) p) as [[c n]|e] eqn:E2; [|discriminate].
      apply lz4_block_progress in E2; [|rewrite pyslice_from_nonneg by lia; apply is_bytes_zskipn; exact Hd].
      apply IH; lia.
  - destruct marker as [m|]; [destruct (negb _)|]; discriminate.
Qed.

Lemma lz4_block_inv lz4 d p c n : is_bytes d -> lz4_block lz4 d p = Ok (c, n) -> n <= len d ->
  exists b, lz4_stored_ok b /\ d = lz4_stored_bytes b ++ zskipn n d /\ n = len (lz4_stored_bytes b) /\ lz4_contents lz4 p [b] [c].
Proof.
  intros Hb E Hn. unfold lz4_block in E. rewrite map_struct_fields in E.
  destruct (Z.leb_spec (Z.of_nat (struct_size lz4_header_layout)) (len d)) as [H|H]; [|discriminate].
  unfold lz4_header_layout in E. cbn [fields map_field endian_int fsize] in E.
  change (Z.of_nat (struct_size lz4_header_layout)) with 12 in H. change (Z.of_nat 4) with 4 in E.
  rewrite (zskipn_zskipn d 4 4) in E by lia. change (4 + 4) with 8 in E.
  assert (S1 : d = zfirstn 4 d ++ zfirstn 4 (zskipn 4 d) ++ zskipn 8 d).
  { rewrite <- (zfirstn_zskipn d 4) at 1. f_equal. rewrite <- (zfirstn_zskipn (zskipn 4 d) 4) at 1. f_equal.
    apply zskipn_zskipn; lia. }
  assert (L2 : len (zfirstn 4 (zskipn 4 d)) = 4) by (rewrite len_zfirstn, len_zskipn; lia).
  assert (L3 : len (zfirstn 4 (zskipn 8 d)) = 4) by (rewrite len_zfirstn, len_zskipn; lia).
  assert (B2 : is_bytes (zfirstn 4 (zskipn 4 d))) by (apply is_bytes_zfirstn, is_bytes_zskipn, Hb).
  assert (B3 : is_bytes (zfirstn 4 (zskipn 8 d))) by (apply is_bytes_zfirstn, is_bytes_zskipn, Hb).
  pose proof (le_int_bounds _ B2) as U2. pose proof (le_int_bounds _ B3) as U3. rewrite L2 in U2. rewrite L3 in U3.
  pose proof (le_enc_int _ B2) as E2. pose proof (le_enc_int _ B3) as E3.
  unfold len in L2, L3.
  replace (length (zfirstn 4 (zskipn 4 d))) with 4%nat in E2 by lia.
  replace (length (zfirstn 4 (zskipn 8 d))) with 4%nat in E3 by lia.
  set (x := le_int (zfirstn 4 (zskipn 4 d))) in *. set (y := le_int (zfirstn 4 (zskipn 8 d))) in *.
  destruct (list_eqb (zfirstn 4 d) (s2z "bv41")) eqn:E4.
  - apply list_eqb_eq in E4. rewrite pyslice_nonneg in E by lia. replace (12 + y - 12) with y in E by lia.
    destruct (lz4 p x (zfirstn y (zskipn 12 d))) as [c'|] eqn:E5; cbn [bind] in E; [|discriminate].
    assert (c' = c) by congruence. assert (n = 12 + y) by congruence. subst c' n. clear E.
    assert (L5 : len (zfirstn y (zskipn 12 d)) = y) by (rewrite len_zfirstn, len_zskipn; lia).
    assert (D : d = (s2z "bv41" ++ le_enc 4 x ++ le_enc 4 y ++ zfirstn y (zskipn 12 d)) ++ zskipn (12 + y) d).
    { rewrite S1 at 1. rewrite E4, <- E2, <- !app_assoc. do 2 f_equal.
      rewrite <- (zfirstn_zskipn (zskipn 8 d) 4) at 1. rewrite <- E3. f_equal.
      rewrite zskipn_zskipn by lia. rewrite <- (zfirstn_zskipn (zskipn (8 + 4) d) y) at 1. f_equal.
      rewrite zskipn_zskipn by lia. f_equal. }
    exists (LCompressed x (zfirstn y (zskipn 12 d))). cbn [lz4_stored_ok lz4_stored_bytes]. rewrite L5.
    repeat split; try (unfold u; change (Z.of_nat 4) with 4; lia).
    + exact D.
    + rewrite !len_app, !len_le_enc, len_bv1, L5. lia.
    + econstructor; [exact E5|constructor].
  - destruct (list_eqb (zfirstn 4 d) (s2z "bv4-")) eqn:E5; [|discriminate].
    apply list_eqb_eq in E5. rewrite pyslice_nonneg in E by lia.
    replace (8 + x - 8) with x in E by lia.
    assert (zfirstn x (zskipn 8 d) = c) by congruence. assert (n = 8 + x) by congruence. subst c n. clear E.
    assert (L5 : len (zfirstn x (zskipn 8 d)) = x) by (rewrite len_zfirstn, len_zskipn; lia).
    exists (LStored (zfirstn x (zskipn 8 d))). cbn [lz4_stored_ok lz4_stored_bytes]. rewrite L5.
    repeat split; try (unfold u; change (Z.of_nat 4) with 4; lia).
    + rewrite S1 at 1. rewrite E5, <- E2, <- !app_assoc. do 2 f_equal.
      rewrite <- (zfirstn_zskipn (zskipn 8 d) x) at 1. f_equal. apply zskipn_zskipn; lia.
    + rewrite !len_app, len_le_enc, len_bv2, L5. lia.
    + constructor; constructor.
Qed.

Lemma lz4_page_sound lz4 data r : is_bytes data -> forall fuel off p marker acc,
  0 <= off -> marker <> Some (s2z "bv4$") -> lz4_page_loop fuel lz4 data off p marker acc = Done (Ok r) ->
  exists bs cs pad, zskipn off data = concat (map lz4_stored_bytes bs) ++ s2z "bv4$" ++ pad /\
    Forall lz4_stored_ok bs /\ lz4_contents lz4 p bs cs /\ r = concat (acc ++ cs).
Proof.
  intros Hd. induction fuel as [|fuel IH]; intros off p marker acc Ho Hm E; [discriminate|].
  cbn [lz4_page_loop] in E. cbv zeta in E.
  destruct (Z.ltb_spec off (len data)) as [H|H].
  - rewrite pyslice_nonneg in E by lia. replace (off + 4 - off) with 4 in E by lia.
    destruct (list_eqb (zfirstn 4 (zskipn off data)) (s2z "bv4$")) eqn:E1.
    + cbn [negb] in E. injection E as <-. apply list_eqb_eq in E1.
      exists [], [], (zskipn 4 (zskipn off data)). cbn [map concat app]. split; [|split; [constructor|split; [constructor|]]].
      * rewrite <- E1. symmetry. apply zfirstn_zskipn.
      * rewrite app_nil_r. reflexivity.
    + rewrite pyslice_from_nonneg in E by lia.
      destruct (lz4_block lz4 (zskipn off data) p) as [[c n]|e] eqn:E2; [|discriminate].
      pose proof (lz4_block_progress lz4 (zskipn off data) p c n (is_bytes_zskipn _ _ Hd) E2) as Hn.
      apply IH in E; [|lia|intros C; injection C as C; rewrite C, list_eqb_refl in E1; discriminate].
      destruct E as (bs & cs & pad & E3 & Hok & Hc & ->).
      assert (Hl : n <= len (zskipn off data)).
      { rewrite len_zskipn. apply (f_equal len) in E3. rewrite !len_app, len_bv3, len_zskipn in E3.
        pose proof (len_nonneg (concat (map lz4_stored_bytes bs))). pose proof (len_nonneg pad). lia. }
      destruct (lz4_block_inv lz4 (zskipn off data) p c n (is_bytes_zskipn _ _ Hd) E2 Hl) as (b & Hb & Hs & -> & Hcb).
      exists (b :: bs), (c :: cs), pad. cbn [map concat]. split; [|split; [constructor; assumption|split]].
      * rewrite Hs, <- app_assoc. f_equal. rewrite zskipn_zskipn by lia. exact E3.
      * inversion Hcb; subst; econstructor; eassumption.
      * rewrite <- app_assoc. reflexivity.
  - destruct marker as [m|]; [|discriminate]. destruct (list_eqb m (s2z "bv4$")) eqn:E1; [|discriminate].
    apply list_eqb_eq in E1. subst. contradiction.
Qed.

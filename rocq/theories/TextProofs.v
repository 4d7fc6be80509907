(** Proofs about the text renderings. *)

From Verif Require Import Base BaseFacts BitFacts StrModel StrFacts TextModel TextSpec.

(** ** Byte columns *)

Lemma forall_bytes (P : Z -> bool) :
  forallb P (map Z.of_nat (seq 0 256)) = true -> forall b, is_byte b -> P b = true.
Proof.
  intros H b Hb. rewrite forallb_forall in H. apply H.
  apply in_map_iff. exists (Z.to_nat b). unfold is_byte in Hb. split; [lia|].
  apply in_seq. lia.
Qed.

Lemma fmt_x2 b : is_byte b -> fmt_x 2 b = [digit_char (b / 16); digit_char (b mod 16)].
Proof.
  intros Hb. apply list_eqb_eq.
  apply (forall_bytes (fun b => list_eqb (fmt_x 2 b) [digit_char (b / 16); digit_char (b mod 16)]));
    [vm_compute; reflexivity|exact Hb].
Qed.

Definition hi (b : Z) := digit_char (b / 16).
Definition lo (b : Z) := digit_char (b mod 16).

Lemma char_digit_hi b : is_byte b -> char_digit (hi b) = Some (b / 16).
Proof. unfold is_byte; intros; apply char_digit_char; lia. Qed.
Lemma char_digit_lo b : is_byte b -> char_digit (lo b) = Some (b mod 16).
Proof. unfold is_byte; intros; apply char_digit_char; lia. Qed.

Lemma map_fmt_x2 l : is_bytes l -> map (fmt_x 2) l = map (fun b => [hi b; lo b]) l.
Proof.
  intros H; induction H as [|b l Hb Hl IH]; [reflexivity|].
  cbn [map]. rewrite fmt_x2 by exact Hb. rewrite IH. reflexivity.
Qed.

Definition column_of (b : bytes) : str :=
  let values := map (fun b => [hi b; lo b]) b in
  join [32] (pyslice values 0 8) ++ [32; 32] ++ join [32] (pyslice values 8 16)
  ++ hexdump_whitespace (16 - len b).

Lemma column_of_spec b :
  is_bytes b -> (1 <= length b <= 16)%nat ->
  length (column_of b) = 48%nat /\ read_cells (column_of b) (seq 0 16) = b /\
  Forall (fun c => c = 32 \/ exists d, is_byte d /\ (c = hi d \/ c = lo d)) (column_of b).
Proof.
  intros Hb Hl. unfold is_bytes in Hb.
  assert (Hv : forall x, 16 * (x / 16) + x mod 16 = x) by (intros; lia).
  destruct b as [|? b]; [exfalso; cbn [length] in Hl; lia|].
  do 16 (destruct b as [|? b];
    [ repeat match goal with H : Forall is_byte (_ :: _) |- _ =>
        pose proof (Forall_inv H); apply Forall_inv_tail in H end;
      match goal with |- context [column_of ?l] =>
        let c := eval cbv -[hi lo] in (column_of l) in change (column_of l) with c end;
      split; [reflexivity|split];
      [ cbv -[hi lo char_digit Z.mul Z.add Z.div Z.modulo is_byte];
        change (char_digit 32) with (@None Z);
        repeat (rewrite char_digit_hi by assumption; rewrite char_digit_lo by assumption; cbv beta iota);
        rewrite ?Hv; reflexivity
      | repeat (apply Forall_cons; [first [left; reflexivity | right; eauto 6]|]); apply Forall_nil ]
    | ]).
  exfalso; cbn [length] in Hl; lia.
Qed.

Lemma hexdump_column_of b : is_bytes b -> hexdump_column b = column_of b.
Proof. intros H. unfold hexdump_column, column_of. rewrite map_fmt_x2 by exact H. reflexivity. Qed.

(** ** Blocks *)

Definition nblocks (data : bytes) : nat := Z.to_nat ((len data + 15) / 16).

Lemma block_pyslice data k :
  pyslice data (16 * Z.of_nat k) (16 * Z.of_nat k + 16) = block data k.
Proof.
  rewrite pyslice_nonneg by lia. unfold block.
  rewrite zfirstn_firstn, zskipn_skipn. f_equal; [lia|]. f_equal. lia.
Qed.

Lemma block_length data k : length (block data k) = Nat.min 16 (length data - 16 * k).
Proof. unfold block. rewrite firstn_length, skipn_length. lia. Qed.

Lemma nblocks_spec data k :
  ((k < nblocks data)%nat <-> 16 * Z.of_nat k < len data).
Proof.
  unfold nblocks. pose proof (len_nonneg data). lia.
Qed.

Lemma block_bytes data k : is_bytes data -> is_bytes (block data k).
Proof.
  intros H. rewrite <- block_pyslice, pyslice_nonneg by lia.
  apply is_bytes_zfirstn, is_bytes_zskipn, H.
Qed.

Lemma block_len_in data k : (k < nblocks data)%nat -> (1 <= length (block data k) <= 16)%nat.
Proof. intros H. apply nblocks_spec in H. rewrite block_length. unfold len in H. lia. Qed.

Lemma block_len_full data k : (S k < nblocks data)%nat -> length (block data k) = 16%nat.
Proof. intros H. apply nblocks_spec in H. rewrite block_length. unfold len in H. lia. Qed.

Lemma firstn_add {A} (l : list A) a b : firstn (a + b) l = firstn a l ++ firstn b (skipn a l).
Proof.
  revert l; induction a as [|a IH]; intros l; [reflexivity|].
  destruct l as [|x l]; cbn [Nat.add firstn skipn app]; [rewrite firstn_nil; reflexivity|].
  rewrite IH; reflexivity.
Qed.

Lemma firstn_block data k : firstn (16 * S k) data = firstn (16 * k) data ++ block data k.
Proof. replace (16 * S k)%nat with (16 * k + 16)%nat by lia. apply firstn_add. Qed.

Lemma firstn_nblocks data : firstn (16 * nblocks data) data = data.
Proof. apply firstn_all2. unfold nblocks, len. lia. Qed.

Lemma hexdump_line_of data k :
  is_bytes data -> (k < nblocks data)%nat ->
  line_of data k (hexdump_line (16 * Z.of_nat k) (block data k)).
Proof.
  intros Hd Hk. exists (column_of (block data k)).
  destruct (column_of_spec (block data k)) as (H1 & H2 & H3).
  - apply block_bytes, Hd.
  - apply block_len_in, Hk.
  - repeat split; auto; [|eapply Forall_impl; [|exact H3]; cbn beta;
      intros c [->|(d & Hdb & [->| ->])]; [now left|right|right];
      rewrite ?char_digit_hi, ?char_digit_lo by exact Hdb; discriminate]. unfold hexdump_line. rewrite hexdump_column_of by (apply block_bytes, Hd).
    erewrite map_ext; [reflexivity|]. intros b. unfold hexdump_char.
    destruct (Z.ltb_spec b 32), (Z.ltb_spec 126 b), (Z.leb_spec 32 b), (Z.leb_spec b 126);
      cbn; try reflexivity; lia.
Qed.

Lemma column_eq_block data i k :
  is_bytes data -> (i < nblocks data)%nat -> (k < nblocks data)%nat ->
  hexdump_column (block data i) = hexdump_column (block data k) -> block data i = block data k.
Proof.
  intros Hd Hi Hk E. rewrite !hexdump_column_of in E by (apply block_bytes, Hd).
  destruct (column_of_spec (block data i)) as (_ & H1 & _);
    [apply block_bytes, Hd|apply block_len_in, Hi|].
  destruct (column_of_spec (block data k)) as (_ & H2 & _);
    [apply block_bytes, Hd|apply block_len_in, Hk|].
  congruence.
Qed.

Definition idx (k : nat) : Z := 16 * Z.of_nat k.

Lemma loop_items data : is_bytes data -> forall m k,
  (k + m = nblocks data)%nat ->
  (forall prev,
     prev = (match k with O => None | S k' => Some (hexdump_column (block data k')) end) ->
     exists items, items_from data (nblocks data) k items /\
       Forall2 (item_line data) items (hexdump_loop data (map idx (seq k m)) false prev)) /\
  (forall k', k = S k' -> (0 < m)%nat ->
     exists j items, (k <= j < nblocks data)%nat /\
       (forall i, (k <= i < j)%nat -> block data i = block data k') /\
       items_from data (nblocks data) (S j) items /\
       Forall2 (item_line data) (IBlock j :: items)
         (hexdump_loop data (map idx (seq k m)) true (Some (hexdump_column (block data k'))))).
Proof.
  intros Hd. induction m as [|m IH]; intros k Hk.
  - split.
    + intros prev _. exists []. replace k with (nblocks data) by lia. split; constructor.
    + lia.
  - destruct (IH (S k) ltac:(lia)) as [IHf IHt].
    assert (Hk0 : (k < nblocks data)%nat) by lia.
    assert (Hp : pyslice data (idx k) (idx k + 16) = block data k) by apply block_pyslice.
    assert (Hline : item_line data (IBlock k) (hexdump_line (idx k) (block data k))).
    { apply hexdump_line_of; assumption. }
    split.
    + intros prev ->. cbn [seq map hexdump_loop]. rewrite !Hp.
      destruct k as [|k'].
      * cbn [andb]. destruct (IHf _ eq_refl) as (items & Hi & HF).
        exists (IBlock 0 :: items). split; [constructor; assumption|]. constructor; assumption.
      * destruct (list_eqb (hexdump_column (block data k')) (hexdump_column (block data (S k')))) eqn:Ec.
        -- apply list_eqb_eq in Ec.
           assert (Hb : block data k' = block data (S k')) by (apply column_eq_block; auto; lia).
           destruct (Z.ltb_spec (idx (S k') + 16) (len data)) as [Hlt|Hge]; cbn [andb].
           ++ assert (HS : (S (S k') < nblocks data)%nat) by (apply nblocks_spec; unfold idx in *; lia).
              destruct (IHt (S k') eq_refl ltac:(lia)) as (j & items & Hj & Heq & Hi & HF).
              exists (IGap :: IBlock j :: items). split.
              ** apply items_gap; [lia|lia| |exact Hi].
                 intros i Hij. replace (S k' - 1)%nat with k' by lia.
                 destruct (Nat.eq_dec i (S k')) as [->|]; [congruence|].
                 rewrite Heq by lia. congruence.
              ** constructor; [reflexivity|]. rewrite Ec. exact HF.
           ++ destruct (IHf _ eq_refl) as (items & Hi & HF).
              exists (IBlock (S k') :: items). split; [constructor; assumption|]. constructor; assumption.
        -- cbn [andb]. destruct (IHf _ eq_refl) as (items & Hi & HF).
           exists (IBlock (S k') :: items). split; [constructor; assumption|]. constructor; assumption.
    + intros k' -> _. cbn [seq map hexdump_loop]. rewrite !Hp.
      destruct (list_eqb (hexdump_column (block data k')) (hexdump_column (block data (S k')))) eqn:Ec.
      * apply list_eqb_eq in Ec.
        assert (Hb : block data k' = block data (S k')) by (apply column_eq_block; auto; lia).
        destruct (Z.ltb_spec (idx (S k') + 16) (len data)) as [Hlt|Hge]; cbn [andb].
        -- assert (HS : (S (S k') < nblocks data)%nat) by (apply nblocks_spec; unfold idx in *; lia).
           destruct (IHt (S k') eq_refl ltac:(lia)) as (j & items & Hj & Heq & Hi & HF).
           exists j, items. split; [lia|]. split.
           ++ intros i Hij. destruct (Nat.eq_dec i (S k')) as [->|]; [congruence|].
              rewrite Heq by lia. congruence.
           ++ split; [exact Hi|]. rewrite Ec. exact HF.
        -- destruct (IHf _ eq_refl) as (items & Hi & HF).
           exists (S k'), items. split; [lia|]. split; [intros i Hij; lia|].
           split; [exact Hi|]. constructor; assumption.
      * cbn [andb]. destruct (IHf _ eq_refl) as (items & Hi & HF).
        exists (S k'), items. split; [lia|]. split; [intros i Hij; lia|].
        split; [exact Hi|]. constructor; assumption.
Qed.

Lemma hexdump_items data :
  is_bytes data ->
  exists items lines,
    items_from data (nblocks data) 0 items /\ Forall2 (item_line data) items lines /\
    format_hexdump data = (join [10] (lines ++ [[]; []]), true).
Proof.
  intros Hd. destruct (loop_items data Hd (nblocks data) 0 ltac:(lia)) as [H _].
  destruct (H None eq_refl) as (items & Hi & HF).
  exists items. eexists. split; [exact Hi|]. split; [exact HF|]. reflexivity.
Qed.

(** ** Reading back *)

Lemma digit_not c : is_digit_char c -> c <> 32 /\ c <> 10 /\ c <> 45.
Proof. unfold is_digit_char; lia. Qed.

Lemma parse_int_digits base s : Forall is_digit_char s -> parse_int base s = parse_nat base s.
Proof.
  intros H. destruct s as [|c s]; [reflexivity|]. inversion H as [|? ? Hc _]; subst.
  unfold parse_int. destruct c as [|p|p]; try reflexivity.
  do 6 (destruct p as [p|p|]; try reflexivity).
  exfalso. unfold is_digit_char in Hc. lia.
Qed.

Lemma parse_nat_fmt base w n : 2 <= base <= 16 -> 0 <= n -> parse_nat base (fmt_int base w n) = Some n.
Proof.
  intros Hb Hn. rewrite <- parse_int_digits by (apply fmt_int_nonneg_chars; assumption).
  apply parse_fmt_int. exact Hb.
Qed.

Lemma take_word_app w t : Forall (fun c => c <> 32) w -> take_word (w ++ 32 :: t) = (w, 32 :: t).
Proof.
  induction 1 as [|c w Hc Hw IH]; [reflexivity|].
  cbn [app take_word]. destruct (Z.eqb_spec c 32); [contradiction|]. rewrite IH. reflexivity.
Qed.

Lemma read_line_of data k line : line_of data k line -> read_line line = Some (16 * Z.of_nat k, block data k).
Proof.
  intros (column & -> & Hl & _ & Hc). cbn [app read_line].
  rewrite take_word_app.
  - unfold fmt_x. rewrite parse_nat_fmt by lia. cbn [skipn].
    rewrite <- Hl, firstn_app, Nat.sub_diag, firstn_all, firstn_O, app_nil_r, Hc. reflexivity.
  - eapply Forall_impl; [|apply fmt_int_nonneg_chars; lia]. intros c. apply digit_not.
Qed.

Lemma line_of_head data k line : line_of data k line -> exists r, line = 48 :: 120 :: r.
Proof. intros (column & -> & _). cbn [app]. eexists; reflexivity. Qed.

Lemma repeat_block_len n b : len (repeat_block n b) = Z.of_nat n * len b.
Proof.
  induction n as [|n IH]; [reflexivity|]. cbn [repeat_block]. rewrite len_app, IH. lia.
Qed.

Lemma firstn_repeat data (p : bytes) k j :
  (k <= j)%nat -> (forall i, (k <= i < j)%nat -> block data i = p) ->
  firstn (16 * j) data = firstn (16 * k) data ++ repeat_block (j - k) p.
Proof.
  intros Hkj. remember (j - k)%nat as m eqn:Em. revert j k Hkj Em.
  induction m as [|m IH]; intros j k Hkj Em H.
  - replace j with k by lia. cbn. rewrite app_nil_r. reflexivity.
  - rewrite (IH j (S k)) by (try lia; intros i Hi; apply H; lia).
    rewrite firstn_block, H by lia. cbn [repeat_block]. rewrite app_assoc. reflexivity.
Qed.

Lemma read_dump_items data items k :
  is_bytes data -> items_from data (nblocks data) k items ->
  forall lines last,
  ((0 < k)%nat -> last = block data (k - 1)) ->
  Forall2 (item_line data) items lines ->
  read_dump (lines ++ [[]; []]) (firstn (16 * k) data) last false = Some data.
Proof.
  intros Hd Hi. induction Hi as [|k l Hk Hi IH|k j l Hk0 Hkj Heq Hi IH]; intros lines last Hlast HF.
  - inversion HF; subst. cbn [app read_dump]. rewrite firstn_nblocks. reflexivity.
  - inversion HF as [|? line ? lines' Hline HF']; subst. clear HF.
    destruct (line_of_head _ _ _ Hline) as [r Er].
    cbn [app]. rewrite Er. cbn [read_dump]. rewrite <- Er.
    replace (list_eqb line [46; 46; 46]) with false by (rewrite Er; reflexivity).
    rewrite (read_line_of _ _ _ Hline). cbn [app]. rewrite app_nil_r.
    pose proof Hk as Hk2. apply nblocks_spec in Hk2.
    assert (El : len (firstn (16 * k) data) = 16 * Z.of_nat k).
    { unfold len in *. rewrite firstn_length. lia. }
    rewrite El, Z.eqb_refl. rewrite <- firstn_block.
    apply IH; [|exact HF']. intros _. f_equal. lia.
  - inversion HF as [|? gap ? lines' Hgap HF']; subst. clear HF.
    inversion HF' as [|? line ? lines2 Hline HF2]; subst. clear HF'.
    cbn [item_line] in Hgap. subst gap. cbn [app read_dump].
    change (list_eqb [46; 46; 46] [46; 46; 46]) with true. cbv iota.
    destruct (line_of_head _ _ _ Hline) as [r Er].
    rewrite Er. cbn [read_dump]. rewrite <- Er.
    replace (list_eqb line [46; 46; 46]) with false by (rewrite Er; reflexivity).
    rewrite (read_line_of _ _ _ Hline).
    assert (Hjn : (j < nblocks data)%nat) by lia. apply nblocks_spec in Hjn.
    assert (El : len (firstn (16 * k) data) = 16 * Z.of_nat k).
    { unfold len in *. rewrite firstn_length. lia. }
    rewrite El. cbv zeta.
    replace (Z.to_nat ((16 * Z.of_nat j - 16 * Z.of_nat k) / 16)) with (j - k)%nat by lia.
    rewrite Hlast by exact Hk0.
    rewrite (app_assoc (firstn (16 * k) data)).
    rewrite <- (firstn_repeat data (block data (k - 1)) k j) by (auto; lia).
    assert (El2 : len (firstn (16 * j) data) = 16 * Z.of_nat j).
    { unfold len in *. rewrite firstn_length. lia. }
    rewrite El2, Z.eqb_refl. rewrite <- firstn_block.
    apply IH; [|exact HF2]. intros _. f_equal. lia.
Qed.

Lemma item_line_no_newline data i line : item_line data i line -> ~ In 10 line.
Proof.
  destruct i as [k|]; cbn [item_line].
  - intros (column & -> & _ & Hc & _).
    rewrite !in_app_iff. intros [H|[H|[H|[H|[H|H]]]]].
    + cbn in H; lia.
    + assert (F := fmt_int_nonneg_chars 16 8 (16 * Z.of_nat k) ltac:(lia) ltac:(lia)).
      rewrite Forall_forall in F. apply F in H. unfold is_digit_char in H. lia.
    + cbn in H; lia.
    + rewrite Forall_forall in Hc. apply Hc in H. destruct H as [H|H]; [lia|].
      apply H. reflexivity.
    + cbn in H; lia.
    + apply in_map_iff in H. destruct H as (b & E & _).
      destruct (Z.leb_spec 32 b), (Z.leb_spec b 126); cbn in E; lia.
  - intros ->. cbn. lia.
Qed.

Lemma decode_hexdump_format data :
  is_bytes data -> decode_hexdump (fst (format_hexdump data)) = Some data.
Proof.
  intros Hd. destruct (hexdump_items data Hd) as (items & lines & Hi & HF & ->).
  cbn [fst]. unfold decode_hexdump. rewrite split_join.
  - apply (read_dump_items data items 0 Hd Hi lines []); [lia|exact HF].
  - destruct lines; discriminate.
  - apply Forall_app. split; [|repeat constructor; intros []].
    clear Hi. induction HF as [|i l items lines Hil HF IH]; constructor; [|exact IH].
    eapply item_line_no_newline; exact Hil.
Qed.

Lemma format_hexdump_inj a b :
  is_bytes a -> is_bytes b -> fst (format_hexdump a) = fst (format_hexdump b) -> a = b.
Proof.
  intros Ha Hb E. apply (f_equal decode_hexdump) in E.
  rewrite !decode_hexdump_format in E by assumption. congruence.
Qed.

(** ** Addresses *)

Lemma fmt_int_not_in base w n c :
  2 <= base <= 16 -> c <> 45 -> ~ is_digit_char c -> ~ In c (fmt_int base w n).
Proof.
  intros Hb H1 H2 Hin. pose proof (fmt_int_chars base w n Hb) as F.
  rewrite Forall_forall in F. apply F in Hin. tauto.
Qed.

Lemma join_fmt_inj base w c a b :
  2 <= base <= 16 -> c <> 45 -> ~ is_digit_char c -> a <> [] -> b <> [] ->
  join [c] (map (fmt_int base w) a) = join [c] (map (fmt_int base w) b) -> a = b.
Proof.
  intros Hb H1 H2 Ha Hb' E. apply (f_equal (split_on c)) in E.
  assert (Hs : forall l, l <> [] -> split_on c (join [c] (map (fmt_int base w) l)) = map (fmt_int base w) l).
  { intros l Hl. apply split_join.
    - destruct l; [contradiction|discriminate].
    - apply Forall_map, Forall_forall. intros x _. apply fmt_int_not_in; assumption. }
  rewrite !Hs in E by assumption. clear - E Hb.
  revert b E; induction a as [|x a IH]; intros b E; destruct b as [|y b]; try discriminate; [reflexivity|].
  cbn [map] in E. injection E as E1 E2. f_equal; [eapply fmt_int_inj; eassumption|apply IH, E2].
Qed.

Lemma ipv4_inj a b s :
  fst (format_ipv4 a) = Some s -> fst (format_ipv4 b) = Some s -> a = b.
Proof.
  unfold format_ipv4; cbn [fst].
  destruct (Z.eqb_spec (len a) 4) as [La|]; [|discriminate].
  destruct (Z.eqb_spec (len b) 4) as [Lb|]; [|discriminate].
  intros E1 E2. injection E1 as E1. injection E2 as E2. rewrite <- E2 in E1.
  eapply (join_fmt_inj 10 0 46); try exact E1; try lia.
  - unfold is_digit_char; lia.
  - intros ->; discriminate.
  - intros ->; discriminate.
Qed.

Lemma ipv4_none l : fst (format_ipv4 l) = None <-> len l <> 4.
Proof. unfold format_ipv4; cbn [fst]. destruct (Z.eqb_spec (len l) 4); split; congruence. Qed.

Lemma ipv6_none l : fst (format_ipv6 l) = None <-> len l <> 16.
Proof. unfold format_ipv6; cbn [fst]. destruct (Z.eqb_spec (len l) 16); split; congruence. Qed.

Lemma pair_value a b : is_byte a -> is_byte b -> Z.lor (Z.shiftl a 8) b = 256 * a + b.
Proof.
  unfold is_byte; intros Ha Hb. rewrite lor_shiftl by lia. lia.
Qed.

Lemma octet_pairs_inj n : forall a b,
  length a = (2 * n)%nat -> length b = (2 * n)%nat -> is_bytes a -> is_bytes b ->
  octet_pairs a = octet_pairs b -> a = b.
Proof.
  induction n as [|n IH]; intros a b La Lb Ha Hb E.
  - destruct a; [|discriminate]. destruct b; [reflexivity|discriminate].
  - destruct a as [|a1 [|a2 a]]; try (cbn in La; lia).
    destruct b as [|b1 [|b2 b]]; try (cbn in Lb; lia).
    unfold is_bytes in *.
    pose proof (Forall_inv Ha) as A1. apply Forall_inv_tail in Ha.
    pose proof (Forall_inv Ha) as A2. apply Forall_inv_tail in Ha.
    pose proof (Forall_inv Hb) as B1. apply Forall_inv_tail in Hb.
    pose proof (Forall_inv Hb) as B2. apply Forall_inv_tail in Hb.
    cbn [octet_pairs] in E.
    assert (E1 := f_equal (hd 0) E). assert (E2 := f_equal (@tl Z) E). cbn [hd tl] in E1, E2. clear E.
    rewrite !pair_value in E1 by assumption. unfold is_byte in *.
    assert (a1 = b1 /\ a2 = b2) as [-> ->] by lia.
    do 2 f_equal. apply IH; auto; cbn in La, Lb; lia.
Qed.

Lemma ipv6_inj a b s :
  is_bytes a -> is_bytes b ->
  fst (format_ipv6 a) = Some s -> fst (format_ipv6 b) = Some s -> a = b.
Proof.
  intros Ha Hb. unfold format_ipv6; cbn [fst].
  destruct (Z.eqb_spec (len a) 16) as [La|]; [|discriminate].
  destruct (Z.eqb_spec (len b) 16) as [Lb|]; [|discriminate].
  intros E1 E2. injection E1 as E1. injection E2 as E2. rewrite <- E2 in E1.
  assert (Hne : forall l, len l = 16 -> octet_pairs l <> []).
  { intros l Hl. destruct l as [|x [|y l]]; cbn in Hl; try lia. discriminate. }
  apply (octet_pairs_inj 8); auto; try (unfold len in *; lia).
  eapply (join_fmt_inj 16 4 58); try exact E1; try lia; auto.
  unfold is_digit_char; lia.
Qed.

Lemma ipv6_group_width l :
  is_bytes l -> len l = 16 ->
  exists groups, fst (format_ipv6 l) = Some (join [58] groups) /\ length groups = 8%nat /\
                 Forall (fun g => length g = 4%nat /\ Forall is_digit_char g) groups.
Proof.
  intros Hb Hl. unfold format_ipv6. rewrite (proj2 (Z.eqb_eq _ _) Hl). cbn [fst].
  exists (map (fmt_x 4) (octet_pairs l)). split; [reflexivity|].
  assert (H : forall n l, length l = (2 * n)%nat -> is_bytes l ->
     length (octet_pairs l) = n /\ Forall (fun v => 0 <= v < 65536) (octet_pairs l)).
  { clear. induction n as [|n IH]; intros l L B.
    - destruct l; [split; [reflexivity|constructor]|discriminate].
    - destruct l as [|x [|y l]]; try (cbn in L; lia). unfold is_bytes in *.
      pose proof (Forall_inv B) as A1. apply Forall_inv_tail in B.
      pose proof (Forall_inv B) as A2. apply Forall_inv_tail in B.
      destruct (IH l) as [I1 I2]; [cbn in L; lia|exact B|].
      cbn [octet_pairs length]. split; [lia|]. constructor; [|exact I2].
      rewrite pair_value by assumption. unfold is_byte in *. lia. }
  destruct (H 8%nat l) as [H1 H2]; [unfold len in Hl; lia|exact Hb|].
  rewrite map_length. split; [exact H1|].
  apply Forall_map. eapply Forall_impl; [|exact H2]. cbn beta. intros v Hv. split.
  - assert (E : len (fmt_x 4 v) = 4) by (apply fmt_int_exact_width; lia). unfold len in E. lia.
  - apply fmt_int_nonneg_chars; lia.
Qed.

(** ** Streams *)

Lemma format_stream_spec s : is_bytes s -> format_stream s = flat_map stream_char s.
Proof.
  induction 1 as [|b s Hb Hs IH]; [reflexivity|].
  unfold format_stream in *. cbn [flat_map]. rewrite IH. f_equal.
  apply list_eqb_eq.
  apply (forall_bytes (fun b => list_eqb (if non_printable b then [92; 120] ++ fmt_x 2 b else [b]) (stream_char b)));
    [vm_compute; reflexivity|exact Hb].
Qed.

Lemma unescape_stream s : forall fuel,
  is_bytes s -> ~ In 92 s -> (length s <= fuel)%nat -> unescape (flat_map stream_char s) fuel = s.
Proof.
  induction s as [|b s IH]; intros fuel Hb Hn Hf.
  - destruct fuel; reflexivity.
  - pose proof (Forall_inv Hb) as B. apply Forall_inv_tail in Hb.
    destruct fuel as [|fuel]; [cbn in Hf; lia|].
    assert (IH' := IH fuel Hb ltac:(intros H; apply Hn; now right) ltac:(cbn in Hf; lia)).
    assert (Hb92 : b <> 92) by (intros ->; apply Hn; now left).
    cbn [flat_map]. unfold stream_char at 1.
    destruct ((32 <=? b) && (b <=? 126)) eqn:Ep; [|destruct (Z.eqb_spec b 255)].
    + cbn [app unescape]. destruct b as [|p|p]; try (rewrite IH'; reflexivity).
      do 7 (destruct p as [p|p|]; try (rewrite IH'; reflexivity)). contradiction.
    + subst b. cbn [app unescape]. rewrite IH'. reflexivity.
    + cbn [app unescape]. unfold is_byte in B.
      rewrite !char_digit_char by lia. rewrite IH'. f_equal. lia.
Qed.

Lemma stream_length s : (length s <= length (flat_map stream_char s))%nat.
Proof.
  induction s as [|b s IH]; [cbn; lia|]. cbn [flat_map]. rewrite app_length.
  assert (1 <= length (stream_char b))%nat.
  { unfold stream_char. destruct (_ && _); [cbn; lia|]. destruct (_ =? _); cbn; lia. }
  cbn [length]. lia.
Qed.

Lemma format_stream_inj a b :
  is_bytes a -> is_bytes b -> ~ In 92 a -> ~ In 92 b -> format_stream a = format_stream b -> a = b.
Proof.
  intros Ha Hb Na Nb E. rewrite !format_stream_spec in E by assumption.
  pose proof (unescape_stream a (length a + length b) Ha Na ltac:(lia)) as Ea.
  pose proof (unescape_stream b (length a + length b) Hb Nb ltac:(lia)) as Eb.
  congruence.
Qed.

(** ** Structures *)

Lemma format_lines_spec l :
  Forall (fun a => a_description a <> None) l ->
  exists texts, format_lines l = Ok texts /\
    Forall2 (fun p t => format_attribute (a_description (fst p)) (a_callback (fst p)) (snd p) = Ok t)
      (present l) texts.
Proof.
  induction 1 as [|a l Ha Hl (texts & E & HF)]; [exists []; split; [reflexivity|constructor]|].
  cbn [format_lines]. unfold present in *. cbn [flat_map].
  destruct (a_value a) as [v|].
  - destruct (format_attribute (a_description a) (a_callback a) v) as [t|e] eqn:Et.
    + cbn [bind]. rewrite E. cbn [bind]. exists (t :: texts). split; [reflexivity|].
      cbn [app]. constructor; assumption.
    + exfalso. unfold format_attribute, format_value in Et.
      destruct (a_description a) as [d|]; [|contradiction].
      destruct (match match a_callback a with Some f => f v | None => CPlain v end with
                | CTuple v0 b => (v0, b) | CPlain v0 => (v0, true) end) as [value nl].
      destruct value as [s|s]; [destruct (has_char 10 s)|]; discriminate.
  - cbn [app]. exists texts. split; assumption.
Qed.

(** What the text of a present attribute looks like. *)
Lemma format_attribute_shape d cb v t :
  format_attribute (Some d) cb v = Ok t ->
  exists rest, t = d ++ rest /\
    ((exists value, rest = alignment_string d ++ [58; 32] ++ value ++ [10]) \/
     (exists value, In 10 value /\
        (rest = [58; 10] ++ value \/ rest = alignment_string d ++ [58; 32] ++ value))).
Proof.
  unfold format_attribute.
  destruct (match match cb with Some f => f v | None => CPlain v end with
            | CTuple v0 b => (v0, b) | CPlain v0 => (v0, true) end) as [value nl].
  destruct value as [s|s].
  - destruct (has_char 10 s) eqn:Eh.
    + assert (Hin : In 10 s).
      { unfold has_char in Eh. apply existsb_exists in Eh. destruct Eh as (x & Hx & Ex).
        apply Z.eqb_eq in Ex. subst; exact Hx. }
      destruct nl; injection 1 as <-.
      * exists ([58; 10] ++ s). split; [rewrite <- app_assoc; reflexivity|].
        right. exists s. split; [exact Hin|]. left; reflexivity.
      * exists (alignment_string d ++ [58; 32] ++ s). split; [rewrite <- !app_assoc; reflexivity|].
        right. exists s. split; [exact Hin|]. right; reflexivity.
    + cbn. injection 1 as <-. eexists. split; [reflexivity|]. left. eexists. reflexivity.
  - cbn. injection 1 as <-. eexists. split; [reflexivity|]. left. eexists. reflexivity.
Qed.

Lemma format_structure_spec l :
  Forall (fun a => a_description a <> None) l ->
  exists texts tail,
    format_structure l = Ok (concat texts ++ tail) /\
    Forall2 (fun p t => format_attribute (a_description (fst p)) (a_callback (fst p)) (snd p) = Ok t)
      (present l) texts /\
    (tail = [10] \/ (tail = [] /\ exists t0 ts, texts = ts ++ [t0] /\ exists x, t0 = x ++ [10; 10])).
Proof.
  intros H. destruct (format_lines_spec l H) as (texts & E & HF).
  unfold format_structure. rewrite E. cbn [bind].
  exists texts.
  destruct (rev texts) as [|t0 rts] eqn:Er.
  - exists [10]. split; [rewrite concat_app; reflexivity|]. split; [exact HF|]. now left.
  - assert (Et : texts = rev rts ++ [t0]).
    { apply (f_equal (@rev str)) in Er. rewrite rev_involutive in Er. exact Er. }
    destruct t0 as [|c t0].
    + exists [10]. split; [rewrite concat_app; reflexivity|]. split; [exact HF|]. now left.
    + destruct (ends_blank (c :: t0)) eqn:Eb; cbn [negb].
      * exists []. split; [rewrite app_nil_r; reflexivity|]. split; [exact HF|]. right.
        split; [reflexivity|]. exists (c :: t0), (rev rts). split; [exact Et|].
        unfold ends_blank in Eb. apply list_eqb_eq in Eb.
        unfold pyslice_from in Eb. set (n := slice_index (-2) (len (c :: t0))) in Eb.
        exists (zfirstn n (c :: t0)). rewrite <- Eb. symmetry. apply zfirstn_zskipn.
      * exists [10]. split; [rewrite concat_app; reflexivity|]. split; [exact HF|]. now left.
Qed.

(** ** Paths *)

Lemma filter_nonempty_id (l : list str) :
  Forall (fun s => s <> []) l ->
  filter (fun s => match s with [] => false | _ => true end) l = l.
Proof.
  induction 1 as [|s l Hs Hl IH]; [reflexivity|].
  cbn [filter]. destruct s; [contradiction|]. rewrite IH. reflexivity.
Qed.

Lemma split_join_path l :
  Forall (fun s => s <> [] /\ ~ In 47 s) l -> split_path (join_path l) = l.
Proof.
  intros H. unfold split_path, join_path.
  assert (H1 : Forall (fun s => s <> []) l) by (eapply Forall_impl; [|exact H]; cbn beta; intros ? [? ?]; assumption).
  assert (H2 : Forall (fun s => ~ In 47 s) l) by (eapply Forall_impl; [|exact H]; cbn beta; intros ? [? ?]; assumption).
  change (47 :: join [47] l) with ([] ++ 47 :: join [47] l).
  rewrite split_on_app by (intros []). cbn [filter].
  destruct l as [|x l]; [reflexivity|].
  rewrite split_join by (discriminate || assumption). apply filter_nonempty_id, H1.
Qed.

Lemma split_path_segments path : Forall (fun s => s <> [] /\ ~ In 47 s) (split_path path).
Proof.
  apply Forall_forall. intros s Hs. unfold split_path in Hs. apply filter_In in Hs.
  destruct Hs as [Hin Hne]. split; [destruct s; [discriminate|discriminate]|].
  pose proof (split_on_no_sep 47 path) as F. rewrite Forall_forall in F. apply F, Hin.
Qed.

Lemma split_join_split path : split_path (join_path (split_path path)) = split_path path.
Proof. apply split_join_path, split_path_segments. Qed.

(** Repeated separators do not matter. *)
Lemma split_path_sep a b : split_path (a ++ 47 :: b) = split_path a ++ split_path b.
Proof.
  unfold split_path. rewrite <- filter_app. f_equal.
  induction a as [|y a IH].
  - cbn [app split_on]. rewrite Z.eqb_refl. reflexivity.
  - cbn [app split_on]. rewrite IH. destruct (y =? 47); [reflexivity|].
    pose proof (split_on_nonempty 47 a). destruct (split_on 47 a); [contradiction|reflexivity].
Qed.

(** ** Debug definitions *)

Lemma str_in_spec s l : str_in s l = true <-> In s l.
Proof.
  unfold str_in. rewrite existsb_exists. split.
  - intros (x & Hx & E). apply list_eqb_eq in E. subst; exact Hx.
  - intros H. exists s. split; [exact H|apply list_eqb_refl].
Qed.

Lemma nilb_spec {A} (l : list A) : (match l with [] => true | _ => false end) = true <-> l = [].
Proof. destruct l; split; congruence. Qed.

Lemma read_attributes_ok l : forall seen,
  read_attributes seen l = Ok l <->
  (Forall good_attr l /\ NoDup (map y_name l) /\ (forall n, In n (map y_name l) -> ~ In n seen)).
Proof.
  induction l as [|a l IH]; intros seen.
  - cbn. split; [intros _; repeat split; constructor || contradiction|reflexivity].
  - cbn [read_attributes map]. unfold good_attr at 1.
    destruct (match y_name a with [] => true | _ => false end) eqn:E1.
    { apply nilb_spec in E1. split; [discriminate|]. intros (F & _). inversion F as [|? ? (H & _) _]. contradiction. }
    destruct (str_in (y_name a) seen) eqn:E2.
    { apply str_in_spec in E2. split; [discriminate|]. intros (_ & _ & H).
      exfalso. apply (H (y_name a)); [now left|exact E2]. }
    destruct (match y_description a with [] => true | _ => false end) eqn:E3.
    { apply nilb_spec in E3. split; [discriminate|]. intros (F & _). inversion F as [|? ? (_ & H & _) _]. contradiction. }
    destruct (match y_format a with [] => true | _ => false end) eqn:E4.
    { apply nilb_spec in E4. split; [discriminate|]. intros (F & _). inversion F as [|? ? (_ & _ & H & _) _]. contradiction. }
    destruct (negb (str_in (y_format a) supported_formats) && negb (starts_with custom_prefix (y_format a))) eqn:E5.
    { split; [discriminate|]. intros (F & _). inversion F as [|? ? (_ & _ & _ & H) _]; subst.
      apply andb_true_iff in E5. destruct E5 as [E5 E6]. apply negb_true_iff in E5, E6.
      destruct H as [H|[r H]].
      - apply str_in_spec in H. unfold supported_formats in E5. congruence.
      - assert (starts_with custom_prefix (y_format a) = true) by (apply starts_with_spec; exists r; exact H).
        congruence. }
    assert (Hg : good_attr a).
    { repeat split.
      - intros E; rewrite E in E1; discriminate.
      - intros E; rewrite E in E3; discriminate.
      - intros E; rewrite E in E4; discriminate.
      - apply andb_false_iff in E5. destruct E5 as [E5|E5]; apply negb_false_iff in E5.
        + left. apply str_in_spec in E5. exact E5.
        + right. apply starts_with_spec in E5. exact E5. }
    assert (Hns : ~ In (y_name a) seen) by (intros H; apply str_in_spec in H; congruence).
    split.
    + destruct (read_attributes (seen ++ [y_name a]) l) as [r'|e] eqn:E; cbn [bind]; [|discriminate].
      injection 1 as ->. apply IH in E. destruct E as (F & N & H).
      split; [constructor; assumption|]. split.
      * constructor; [|exact N]. intros Hin. apply (H _ Hin). apply in_or_app. right. now left.
      * intros n [<-|Hin]; [exact Hns|]. intros Hs. apply (H n Hin). apply in_or_app. now left.
    + intros (F & N & H). inversion F as [|? ? _ F2]; subst. inversion N as [|? ? N1 N2]; subst.
      assert (E : read_attributes (seen ++ [y_name a]) l = Ok l).
      { apply IH. split; [exact F2|]. split; [exact N2|].
        intros n Hin Hs. apply in_app_or in Hs. destruct Hs as [Hs|[<-|[]]]; [|contradiction].
        apply (H n); [now right|exact Hs]. }
      rewrite E. reflexivity.
Qed.

Lemma read_attributes_result l : forall seen r, read_attributes seen l = Ok r -> r = l.
Proof.
  induction l as [|a l IH]; intros seen r; cbn [read_attributes]; [now injection 1|].
  repeat match goal with |- context [if ?b then _ else _] => destruct b; [discriminate|] end.
  destruct (read_attributes (seen ++ [y_name a]) l) eqn:E; cbn [bind]; [|discriminate].
  injection 1 as <-. apply IH in E. congruence.
Qed.

Lemma read_attributes_err l : forall seen e, read_attributes seen l = Err e -> e = ParseError.
Proof.
  induction l as [|a l IH]; intros seen r; cbn [read_attributes]; [discriminate|].
  repeat match goal with |- context [if ?b then _ else _] => destruct b; [now injection 1|] end.
  destruct (read_attributes (seen ++ [y_name a]) l) eqn:E; cbn [bind]; [discriminate|].
  injection 1 as <-. eapply IH; exact E.
Qed.

Lemma read_definition_ok d r :
  read_definition d = Ok r <-> good_def d /\ r = (y_map d, y_attributes d).
Proof.
  unfold read_definition, good_def.
  destruct (match y_keys d with [] => true | _ => false end) eqn:E1.
  { apply nilb_spec in E1. split; [discriminate|]. tauto. }
  destruct (existsb _ (y_keys d)) eqn:E2.
  { split; [discriminate|]. intros ((_ & H & _) & _). apply existsb_exists in E2.
    destruct E2 as (k & Hk & E). rewrite Forall_forall in H. apply H in Hk.
    apply negb_true_iff in E.
    assert (str_in k [s2z "attributes"; s2z "data_type_map"] = true)
      by (apply str_in_spec; destruct Hk as [->| ->]; [now left|right; now left]).
    congruence. }
  destruct (match y_map d with [] => true | _ => false end) eqn:E3.
  { apply nilb_spec in E3. split; [discriminate|]. tauto. }
  destruct (match y_attributes d with [] => true | _ => false end) eqn:E4.
  { apply nilb_spec in E4. split; [discriminate|]. tauto. }
  assert (Hk : Forall (fun k => k = s2z "attributes" \/ k = s2z "data_type_map") (y_keys d)).
  { apply Forall_forall. intros k Hin.
    destruct (str_in k [s2z "attributes"; s2z "data_type_map"]) eqn:E.
    - apply str_in_spec in E. destruct E as [<-|[<-|[]]]; auto.
    - exfalso. rewrite <- not_true_iff_false in E2. apply E2. apply existsb_exists.
      exists k. split; [exact Hin|]. rewrite E. reflexivity. }
  split.
  - destruct (read_attributes [] (y_attributes d)) as [l|] eqn:E; cbn [bind]; [|discriminate].
    injection 1 as <-. pose proof (read_attributes_result _ _ _ E) as ->.
    apply read_attributes_ok in E. destruct E as (F & N & _).
    split; [|reflexivity]. repeat split; auto.
    + intros H. rewrite H in E1; discriminate.
    + intros H. rewrite H in E3; discriminate.
    + intros H. rewrite H in E4; discriminate.
  - intros ((_ & _ & _ & _ & F & N) & ->).
    assert (E : read_attributes [] (y_attributes d) = Ok (y_attributes d)).
    { apply read_attributes_ok. repeat split; auto. }
    rewrite E. reflexivity.
Qed.

Lemma read_definition_err d e : read_definition d = Err e -> e = ParseError.
Proof.
  unfold read_definition.
  repeat match goal with |- context [if ?b then _ else _] => destruct b; [now injection 1|] end.
  destruct (read_attributes [] (y_attributes d)) eqn:E; cbn [bind]; [discriminate|].
  injection 1 as <-. eapply read_attributes_err; exact E.
Qed.

Lemma resolve_custom custom name :
  resolve_callback custom (custom_prefix ++ name) = assoc_str name custom.
Proof.
  unfold resolve_callback.
  assert (E : starts_with custom_prefix (custom_prefix ++ name) = true)
    by (apply starts_with_spec; eexists; reflexivity).
  rewrite E. rewrite pyslice_from_nonneg by lia. f_equal.
  apply zskipn_app_len. reflexivity.
Qed.

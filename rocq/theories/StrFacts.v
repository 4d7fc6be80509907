(** Facts about integer formatting, joining and splitting. *)

From Verif Require Import Base BaseFacts StrModel.

Lemma parse_digits_app base a b acc :
  parse_digits base (a ++ b) acc =
  match parse_digits base a acc with Some v => parse_digits base b v | None => None end.
Proof.
  revert acc; induction a as [|c a IH]; intros acc; [reflexivity|].
  cbn [app parse_digits]. destruct (char_digit c); [|reflexivity].
  destruct (_ <? base); [apply IH|reflexivity].
Qed.

Lemma char_digit_char d : 0 <= d < 16 -> char_digit (digit_char d) = Some d.
Proof.
  intros H. unfold digit_char, char_digit. destruct (Z.ltb_spec d 10).
  - destruct (Z.leb_spec 48 (48 + d)); [|lia]. destruct (Z.leb_spec (48 + d) 57); [|lia].
    cbn [andb]. f_equal. lia.
  - destruct (Z.leb_spec 48 (87 + d)); [|lia]. destruct (Z.leb_spec (87 + d) 57); [lia|].
    destruct (Z.leb_spec 97 (87 + d)); [|lia]. destruct (Z.leb_spec (87 + d) 102); [|lia].
    cbn [andb]. f_equal. lia.
Qed.

Lemma log2_div n base : 2 <= base -> base <= n -> Z.log2 (n / base) < Z.log2 n.
Proof.
  intros Hb Hn.
  assert (Hd : 0 < n / base) by (apply Z.div_str_pos; lia).
  assert (n / base <= n / 2) by (apply Z.div_le_compat_l; lia).
  apply Z.le_lt_trans with (Z.log2 (n / 2)); [apply Z.log2_le_mono; assumption|].
  rewrite <- Z.div2_div, Z.div2_spec, Z.log2_shiftr by lia.
  assert (1 <= Z.log2 n) by (apply (Z.log2_le_mono 2); lia). lia.
Qed.

(** Value of a digit list. *)
Definition dig_value (base : Z) (l : list Z) (acc : Z) : Z :=
  fold_left (fun a d => a * base + d) l acc.

Lemma digits_aux_spec base fuel : forall n acc,
  2 <= base -> 0 <= n -> (Z.to_nat (Z.log2 n) < fuel)%nat ->
  Forall (fun d => 0 <= d < base) acc ->
  let l := digits_aux fuel base n acc in
  Forall (fun d => 0 <= d < base) l /\
  dig_value base l 0 = dig_value base acc n /\ l <> [] /\
  exists h t, l = h :: t /\ (n = 0 \/ h <> 0).
Proof.
  induction fuel as [|fuel IH]; intros n acc Hb Hn Hf Ha; [lia|].
  cbn [digits_aux]. destruct (Z.ltb_spec n base).
  - cbn zeta. repeat split.
    + constructor; [lia|exact Ha].
    + discriminate.
    + exists n, acc. split; [reflexivity|]. lia.
  - assert (H2 : 0 < n / base) by (apply Z.div_str_pos; lia).
    pose proof (log2_div n base Hb ltac:(lia)) as Hl.
    pose proof (Z.log2_nonneg (n / base)).
    destruct (IH (n / base) (n mod base :: acc)) as (F & V & N & h & t & E & Hh).
    + exact Hb.
    + lia.
    + lia.
    + constructor; [apply Z.mod_pos_bound; lia|exact Ha].
    + cbn zeta. repeat split; auto.
      * rewrite V. unfold dig_value. cbn [fold_left]. f_equal.
        rewrite (Z.mul_comm (n / base)). symmetry. apply Z.div_mod. lia.
      * exists h, t. split; [exact E|]. right. destruct Hh; [lia|assumption].
Qed.

Lemma digits_spec base n :
  2 <= base -> 0 <= n ->
  Forall (fun d => 0 <= d < base) (digits base n) /\
  dig_value base (digits base n) 0 = n /\ digits base n <> [].
Proof.
  intros Hb Hn. destruct (digits_aux_spec base (S (Z.to_nat (Z.log2 n))) n []) as (F & V & N & _);
    auto; lia.
Qed.

Lemma digits_head base n :
  2 <= base -> 0 <= n -> exists h t, digits base n = h :: t /\ (n = 0 \/ h <> 0).
Proof.
  intros Hb Hn. destruct (digits_aux_spec base (S (Z.to_nat (Z.log2 n))) n []) as (_ & _ & _ & H);
    auto; lia.
Qed.

Lemma parse_digits_map base l acc :
  2 <= base <= 16 -> Forall (fun d => 0 <= d < base) l ->
  parse_digits base (map digit_char l) acc = Some (dig_value base l acc).
Proof.
  intros Hb H; revert acc; induction H as [|d l Hd Hl IH]; intros acc; [reflexivity|].
  cbn [map parse_digits]. rewrite char_digit_char by lia.
  destruct (Z.ltb_spec d base); [|lia]. rewrite IH. reflexivity.
Qed.

Lemma parse_digits_zeros base k acc0 s :
  2 <= base -> acc0 = 0 ->
  parse_digits base (repeat 48 k ++ s) acc0 = parse_digits base s 0.
Proof.
  intros Hb ->. induction k as [|k IH]; [reflexivity|].
  cbn [repeat app parse_digits]. change (char_digit 48) with (Some 0). cbn match.
  destruct (Z.ltb_spec 0 base); [|lia]. cbn. exact IH.
Qed.

(** Digits of a printed number. *)
Definition is_digit_char (c : Z) : Prop := 48 <= c <= 57 \/ 97 <= c <= 102.

Lemma digit_char_is d : 0 <= d < 16 -> is_digit_char (digit_char d).
Proof. unfold is_digit_char, digit_char. intros H. destruct (Z.ltb_spec d 10); lia. Qed.

Lemma fmt_int_chars base w n :
  2 <= base <= 16 -> Forall (fun c => c = 45 \/ is_digit_char c) (fmt_int base w n).
Proof.
  intros Hb. unfold fmt_int.
  destruct (digits_spec base (Z.abs n) ltac:(lia) ltac:(lia)) as (F & _ & _).
  rewrite !Forall_app. repeat split.
  - destruct (n <? 0); repeat constructor.
  - apply Forall_forall. intros x Hx. apply repeat_spec in Hx. right. left. lia.
  - apply Forall_map. eapply Forall_impl; [|exact F]. cbn beta. intros d Hd. right.
    apply digit_char_is. lia.
Qed.

Lemma fmt_int_nonneg_chars base w n :
  2 <= base <= 16 -> 0 <= n -> Forall is_digit_char (fmt_int base w n).
Proof.
  intros Hb Hn. unfold fmt_int.
  destruct (digits_spec base (Z.abs n) ltac:(lia) ltac:(lia)) as (F & _ & _).
  destruct (Z.ltb_spec n 0); [lia|].
  cbn [app]. apply Forall_app. split.
  - apply Forall_forall. intros x Hx. apply repeat_spec in Hx. left. lia.
  - apply Forall_map. eapply Forall_impl; [|exact F]. cbn beta. intros d Hd.
    apply digit_char_is. lia.
Qed.

Lemma fmt_int_width base w n : w <= len (fmt_int base w n).
Proof.
  unfold fmt_int. rewrite !len_app, len_repeat. pose proof (len_nonneg (map digit_char (digits base (Z.abs n)))).
  pose proof (len_nonneg (if n <? 0 then [45] else [])). lia.
Qed.

Lemma fmt_int_nonempty base w n : 2 <= base -> fmt_int base w n <> [].
Proof.
  intros Hb. destruct (digits_spec base (Z.abs n) Hb ltac:(lia)) as (_ & _ & N).
  unfold fmt_int. intros E. apply app_eq_nil in E. destruct E as [_ E].
  apply app_eq_nil in E. destruct E as [_ E]. apply map_eq_nil in E. contradiction.
Qed.

Lemma parse_fmt_int base w n :
  2 <= base <= 16 -> parse_int base (fmt_int base w n) = Some n.
Proof.
  intros Hb.
  destruct (digits_spec base (Z.abs n) ltac:(lia) ltac:(lia)) as (F & V & N).
  assert (P : forall k s, s = repeat 48 k ++ map digit_char (digits base (Z.abs n)) ->
              s <> [] /\ parse_nat base s = Some (Z.abs n) /\
              (forall r, s <> 45 :: r)).
  { intros k s ->.
    assert (Hne : repeat 48 k ++ map digit_char (digits base (Z.abs n)) <> []).
    { intros E. apply app_eq_nil in E. destruct E as [_ E]. apply map_eq_nil in E. contradiction. }
    split; [exact Hne|]. split.
    - unfold parse_nat.
      destruct (repeat 48 k ++ map digit_char (digits base (Z.abs n))) eqn:E; [contradiction|].
      rewrite <- E. rewrite parse_digits_zeros by lia.
      rewrite parse_digits_map by (auto; lia). congruence.
    - intros r Er.
      assert (Fc : Forall is_digit_char (repeat 48 k ++ map digit_char (digits base (Z.abs n)))).
      { apply Forall_app. split.
        - apply Forall_forall. intros x Hx. apply repeat_spec in Hx. left. lia.
        - apply Forall_map. eapply Forall_impl; [|exact F]. cbn beta. intros d Hd.
          apply digit_char_is. lia. }
      rewrite Er in Fc. inversion Fc as [|? ? Hc _]. unfold is_digit_char in Hc. lia. }
  unfold fmt_int. set (s := map digit_char (digits base (Z.abs n))) in *.
  destruct (Z.ltb_spec n 0).
  - destruct (P (Z.to_nat (w - len s - len [45])) _ eq_refl) as (_ & E & _).
    cbn [app parse_int]. rewrite E. f_equal. lia.
  - destruct (P (Z.to_nat (w - len s - len (@nil Z))) _ eq_refl) as (Hne & E & H45).
    cbn [app]. set (t := repeat 48 _ ++ s) in *.
    destruct t as [|c t']; [contradiction|].
    unfold parse_int. destruct (Z.eq_dec c 45) as [->|Hc].
    + exfalso; eapply H45; reflexivity.
    + destruct c as [|p|p]; try (rewrite E; f_equal; lia).
      do 6 (destruct p as [p|p|]; try (rewrite E; f_equal; lia)). contradiction.
Qed.

Lemma fmt_int_inj base w a b :
  2 <= base <= 16 -> fmt_int base w a = fmt_int base w b -> a = b.
Proof.
  intros Hb E. apply (f_equal (parse_int base)) in E.
  rewrite !parse_fmt_int in E by exact Hb. congruence.
Qed.

(** Small numbers have exactly the requested number of hexadecimal digits. *)
Lemma dig_value_bound base l acc :
  2 <= base -> Forall (fun d => 0 <= d < base) l -> 0 <= acc ->
  acc * base ^ len l <= dig_value base l acc.
Proof.
  intros Hb H; revert acc; induction H as [|d l Hd Hl IH]; intros acc Hacc.
  - unfold dig_value; cbn. lia.
  - unfold dig_value in *; cbn [fold_left]. rewrite len_cons.
    rewrite Z.pow_add_r by (pose proof (len_nonneg l); lia).
    specialize (IH (acc * base + d) ltac:(nia)).
    eapply Z.le_trans; [|exact IH]. rewrite Z.pow_1_r.
    assert (0 < base ^ len l) by (apply Z.pow_pos_nonneg; [lia|apply len_nonneg]). nia.
Qed.

Lemma digits_len base n k :
  2 <= base -> 0 <= n -> n < base ^ k -> 1 <= k -> len (digits base n) <= k.
Proof.
  intros Hb Hn Hk Hk1. destruct (digits_spec base n Hb Hn) as (F & V & _).
  destruct (digits_head base n Hb Hn) as (h & t & E & Hh).
  rewrite E in *. rewrite len_cons. pose proof (Forall_inv F) as Fh. pose proof (Forall_inv_tail F) as Ft. cbn beta in Fh.
  destruct Hh as [->|Hh].
  - (* n = 0: digits 0 = [0] *)
    unfold digits in E. cbn in E. destruct (Z.ltb_spec 0 base); [|lia].
    injection E as <- <-. rewrite len_nil. lia.
  - unfold dig_value in V; cbn [fold_left] in V.
    pose proof (dig_value_bound base t h Hb Ft ltac:(lia)) as B.
    unfold dig_value in B. replace (0 * base + h) with h in V by lia. rewrite V in B.
    assert (P : 0 < base ^ len t) by (apply Z.pow_pos_nonneg; [lia|apply len_nonneg]).
    assert (base ^ len t < base ^ k) by nia.
    apply Z.pow_lt_mono_r_iff in H; lia.
Qed.

Lemma fmt_int_exact_width base w n :
  2 <= base -> 0 <= n -> n < base ^ w -> 1 <= w -> len (fmt_int base w n) = w.
Proof.
  intros Hb Hn Hw Hw1. unfold fmt_int. destruct (Z.ltb_spec n 0); [lia|].
  rewrite Z.abs_eq by lia. cbn [app]. rewrite len_app, len_repeat, len_map, len_nil.
  pose proof (digits_len base n w Hb Hn Hw Hw1). pose proof (len_nonneg (digits base n)). lia.
Qed.

(** ** Join and split *)

Lemma has_char_false c s : has_char c s = false <-> ~ In c s.
Proof.
  unfold has_char. rewrite <- not_true_iff_false, existsb_exists.
  split; intros H Hin; apply H.
  - exists c. split; [exact Hin|apply Z.eqb_refl].
  - destruct Hin as (x & Hx & E). apply Z.eqb_eq in E. congruence.
Qed.

Lemma split_on_nonempty c s : split_on c s <> [].
Proof.
  induction s as [|x s IH]; cbn [split_on]; [discriminate|].
  destruct (x =? c); [discriminate|]. destruct (split_on c s); discriminate.
Qed.

Lemma split_on_no c s : ~ In c s -> split_on c s = [s].
Proof.
  induction s as [|x s IH]; intros H; [reflexivity|].
  cbn [split_on]. rewrite IH by (intros Hi; apply H; now right).
  destruct (Z.eqb_spec x c); [exfalso; apply H; now left|reflexivity].
Qed.

Lemma split_on_app c a b : ~ In c a -> split_on c (a ++ c :: b) = a :: split_on c b.
Proof.
  induction a as [|x a IH]; intros H.
  - cbn [app split_on]. rewrite Z.eqb_refl. reflexivity.
  - cbn [app split_on]. rewrite IH by (intros Hi; apply H; now right).
    destruct (Z.eqb_spec x c); [exfalso; apply H; now left|reflexivity].
Qed.

Lemma split_join c l :
  l <> [] -> Forall (fun s => ~ In c s) l -> split_on c (join [c] l) = l.
Proof.
  induction l as [|x l IH]; intros Hne H; [contradiction|].
  inversion H as [|? ? Hx Hl]; subst. destruct l as [|y l].
  - cbn [join]. apply split_on_no; exact Hx.
  - change (join [c] (x :: y :: l)) with (x ++ c :: join [c] (y :: l)).
    rewrite split_on_app by exact Hx. f_equal. apply IH; [discriminate|exact Hl].
Qed.

Lemma join_split c s : join [c] (split_on c s) = s.
Proof.
  induction s as [|x s IH]; [reflexivity|].
  cbn [split_on]. pose proof (split_on_nonempty c s) as Hne.
  destruct (Z.eqb_spec x c) as [->|Hx].
  - destruct (split_on c s) as [|h t] eqn:E; [contradiction|].
    change (join [c] ([] :: h :: t)) with (c :: join [c] (h :: t)). congruence.
  - destruct (split_on c s) as [|h t] eqn:E; [contradiction|].
    destruct t as [|h2 t]; cbn [join app] in *; congruence.
Qed.

Lemma split_on_no_sep c s : Forall (fun t => ~ In c t) (split_on c s).
Proof.
  induction s as [|x s IH]; [repeat constructor; intros []|].
  cbn [split_on]. destruct (Z.eqb_spec x c) as [->|Hx].
  - constructor; [intros []|exact IH].
  - destruct (split_on c s) as [|h t]; [constructor; [|constructor]|].
    + intros [E|[]]; congruence.
    + inversion IH as [|? ? H1 H2]; subst. constructor; [|exact H2].
      intros [E|Hin]; [congruence|contradiction].
Qed.

Lemma starts_with_spec p s : starts_with p s = true <-> exists r, s = p ++ r.
Proof.
  revert s; induction p as [|x p IH]; intros s; cbn [starts_with].
  - split; [intros _; exists s; reflexivity|reflexivity].
  - destruct s as [|y s].
    + split; [discriminate|]. intros [r E]; discriminate.
    + rewrite andb_true_iff, Z.eqb_eq, IH. split.
      * intros [-> [r ->]]. exists r; reflexivity.
      * intros [r E]. injection E as -> ->. split; [reflexivity|eexists; reflexivity].
Qed.

Lemma parse_int_nat base s n : Forall is_digit_char s -> parse_int base s = Some n -> parse_nat base s = Some n.
Proof.
  intros H. destruct s as [|c r]; [auto|]. apply Forall_inv in H. unfold is_digit_char in H.
  unfold parse_int. destruct (Z.eq_dec c 45) as [->|Hc]; [lia|].
  replace (match c with 45 => match parse_nat base r with Some n => Some (- n) | None => None end
                     | _ => parse_nat base (c :: r) end) with (parse_nat base (c :: r)); [auto|].
  destruct c as [|p|p]; try reflexivity.
  do 6 (destruct p as [p|p|]; try reflexivity; try congruence).
Qed.

Lemma parse_nat_fmt base w n : 2 <= base <= 16 -> 0 <= n -> parse_nat base (fmt_int base w n) = Some n.
Proof.
  intros Hb Hn. apply parse_int_nat; [apply fmt_int_nonneg_chars; lia|apply parse_fmt_int; lia].
Qed.

(** Numbers joined with a separator that is no digit are read back. *)
Lemma parse_join_fmt base w c l : 2 <= base <= 16 -> ~ is_digit_char c -> l <> [] ->
  Forall (fun n => 0 <= n) l ->
  map (parse_nat base) (split_on c (join [c] (map (fmt_int base w) l))) = map Some l.
Proof.
  intros Hb Hc Hl Hn. rewrite split_join.
  - rewrite map_map. apply map_ext_in. intros n Hin. rewrite Forall_forall in Hn.
    apply parse_nat_fmt; auto.
  - destruct l; [congruence|discriminate].
  - rewrite Forall_forall in *. intros s Hs. apply in_map_iff in Hs. destruct Hs as (n & <- & Hin).
    pose proof (fmt_int_nonneg_chars base w n Hb (Hn n Hin)) as F. rewrite Forall_forall in F.
    intros C. apply Hc. apply F. exact C.
Qed.

(** Proofs for C38-C40. *)

From Verif Require Import Base BaseFacts StrModel StrFacts FmtModel FmtSpec.

(** ** Greedy runs *)

Definition head_not (p : Z -> bool) (s : str) : Prop :=
  match s with c :: _ => p c = false | [] => True end.

Lemma span_max_app p n a b :
  Forall (fun c => p c = true) a -> (length a <= n)%nat ->
  (length a = n \/ head_not p b) -> span_max p n (a ++ b) = (a, b).
Proof.
  revert n. induction a as [|c a IH]; intros n Ha Hn Hb.
  - cbn. destruct Hb as [Hb|Hb].
    + cbn in Hb. subst n. reflexivity.
    + destruct n; [reflexivity|]. destruct b; [reflexivity|]. cbn in Hb |- *. rewrite Hb. reflexivity.
  - inversion Ha; subst. destruct n; [cbn in Hn; lia|]. cbn. rewrite H1.
    rewrite IH; [reflexivity|assumption|cbn in Hn; lia|].
    destruct Hb as [Hb|Hb]; [left; cbn in Hb; lia|right; exact Hb].
Qed.

Lemma span_max_inv p n : forall s a b, span_max p n s = (a, b) ->
  s = a ++ b /\ Forall (fun c => p c = true) a /\ (length a <= n)%nat /\
  (length a = n \/ head_not p b).
Proof.
  induction n as [|n IH]; intros s a b H; cbn in H.
  - injection H as <- <-. split; [reflexivity|]. split; [constructor|]. split; [cbn; lia|]. left; reflexivity.
  - destruct s as [|c r].
    + injection H as <- <-. split; [reflexivity|]. split; [constructor|]. split; [cbn; lia|]. right; exact I.
    + destruct (p c) eqn:E.
      * destruct (span_max p n r) as [a' b'] eqn:Er. injection H as <- <-.
        destruct (IH _ _ _ Er) as (Hs & Ha & Hn & Hb).
        subst r. split; [reflexivity|]. split; [constructor; assumption|].
        split; [cbn; lia|]. destruct Hb; [left; cbn; lia|right; assumption].
      * injection H as <- <-. split; [reflexivity|]. split; [constructor|]. split; [cbn; lia|]. right; exact E.
Qed.

Lemma span_while_app p a b :
  Forall (fun c => p c = true) a -> head_not p b -> span_while p (a ++ b) = (a, b).
Proof.
  induction a as [|c a IH]; intros Ha Hb.
  - cbn. destruct b; [reflexivity|]. cbn in Hb |- *. rewrite Hb. reflexivity.
  - inversion Ha; subst. cbn. rewrite H1. rewrite IH by assumption. reflexivity.
Qed.

Lemma span_while_inv p : forall s a b, span_while p s = (a, b) ->
  s = a ++ b /\ Forall (fun c => p c = true) a /\ head_not p b.
Proof.
  induction s as [|c r IH]; intros a b H; cbn in H.
  - injection H as <- <-. repeat split; constructor.
  - destruct (p c) eqn:E.
    + destruct (span_while p r) as [a' b'] eqn:Er. injection H as <- <-.
      destruct (IH _ _ eq_refl) as (Hs & Ha & Hb). subst r.
      split; [reflexivity|]. split; [constructor; assumption|assumption].
    + injection H as <- <-. split; [reflexivity|]. split; [constructor|exact E].
Qed.

(** ** Character classes *)

Lemma existsb_in c l : existsb (Z.eqb c) l = true <-> In c l.
Proof.
  rewrite existsb_exists. split.
  - intros (x & Hx & E). apply Z.eqb_eq in E. subst. exact Hx.
  - intros H. exists c. split; [exact H|apply Z.eqb_refl].
Qed.

Definition tail_chars : str := s2z "@aAcCdDeEfFgGimnoOpPsSuUxXhjlLtqz".

(** [s] starts with a length modifier or a specifier. *)
Definition tail_head (s : str) : Prop := match s with c :: _ => In c tail_chars | [] => False end.

Lemma tail_char_facts c : In c tail_chars ->
  is_dec c = false /\ is_flag c = false /\ (c =? 46) = false /\ (c =? 42) = false /\ (c =? 123) = false.
Proof.
  intros H. unfold tail_chars in H. cbn in H.
  repeat (destruct H as [H|H]; [subst c; repeat split|]). contradiction.
Qed.

Lemma flag_facts c : In c (s2z "-+0 #") -> is_flag c = true /\ (c =? 123) = false.
Proof.
  intros H. cbn in H. repeat (destruct H as [H|H]; [subst c; split; reflexivity|]). contradiction.
Qed.

Lemma dec_facts c : 48 <= c <= 57 ->
  is_dec c = true /\ (c =? 46) = false /\ (c =? 42) = false /\ (c =? 123) = false /\
  (c <> 48 -> is_flag c = false).
Proof.
  intros H. unfold is_dec, is_flag. cbn. repeat split; lia.
Qed.

Lemma is_dec_range c : is_dec c = true <-> 48 <= c <= 57.
Proof. unfold is_dec. lia. Qed.

Lemma decimal_dec s : decimal s -> Forall (fun c => is_dec c = true) s.
Proof. intros [_ H]. eapply Forall_impl; [|exact H]. cbn. intros c Hc. apply is_dec_range, Hc. Qed.

Lemma length_tail l sp rest :
  In l (map s2z [""; "h"; "hh"; "j"; "l"; "ll"; "L"; "t"; "q"; "z"]%string) ->
  In sp (s2z "@aAcCdDeEfFgGimnoOpPsSuUxX") ->
  rx_length (l ++ sp :: rest) = sp :: rest /\ tail_head (l ++ sp :: rest).
Proof.
  intros Hl Hs.
  assert (Hsp : (sp =? 104) = false /\ (sp =? 108) = false /\ existsb (Z.eqb sp) (s2z "jLtqz") = false /\
                In sp tail_chars).
  { cbn in Hs. repeat (destruct Hs as [Hs|Hs]; [subst sp; cbn; tauto|]). contradiction. }
  destruct Hsp as (H1 & H2 & H3 & H4).
  cbn in Hl.
  repeat (destruct Hl as [Hl|Hl];
          [subst l; cbn [app]; unfold rx_length; cbn [tail_head];
           split; [cbn [Z.eqb Pos.eqb orb s2z existsb N_of_ascii] | cbn; tauto]; try reflexivity|]).
  - unfold existsb in H3. cbn in H3. rewrite H1, H2. cbn. rewrite H3. reflexivity.
  - rewrite H1. reflexivity.
  - rewrite H2. reflexivity.
  - contradiction.
Qed.

(** ** The expression accepts every specification *)

Definition prec_shape (p : option str) : Prop :=
  match p with
  | Some p => p = s2z "." \/ p = s2z ".*" \/ exists d, decimal d /\ p = s2z "." ++ d
  | None => True
  end.

Definition width_shape (w : option str) : Prop :=
  match w with Some w => w = s2z "*" \/ decimal w | None => True end.

Lemma tail_head_not p s : tail_head s -> (forall c, In c tail_chars -> p c = false) -> head_not p s.
Proof. destruct s; cbn; intros H G; [exact I|apply G, H]. Qed.

Lemma rx_precision_app p t : prec_shape p -> tail_head t ->
  rx_precision (opt_text p ++ t) = (p, t).
Proof.
  intros Hp Ht.
  assert (Hd : head_not is_dec t).
  { apply tail_head_not; [exact Ht|]. intros c Hc. apply (tail_char_facts c Hc). }
  destruct t as [|c t]; [contradiction|]. cbn in Ht.
  destruct (tail_char_facts c Ht) as (F1 & F2 & F3 & F4 & F5).
  destruct p as [p|]; cbn [opt_text].
  - destruct Hp as [->|[->|(d & Hdec & ->)]].
    + cbn. rewrite F1, F4. reflexivity.
    + cbn. reflexivity.
    + change ((s2z "." ++ d) ++ c :: t) with (46 :: (d ++ c :: t)). unfold rx_precision.
      cbn [Z.eqb Pos.eqb]. rewrite (span_while_app is_dec d (c :: t)) by (try apply decimal_dec; assumption).
      destruct d as [|d0 ds]; [destruct Hdec; congruence|]. reflexivity.
  - cbn. rewrite F3. reflexivity.
Qed.

(** The head of the text from the precision on. *)
Lemma prec_head p t : prec_shape p -> tail_head t ->
  match opt_text p ++ t with
  | c :: _ => is_dec c = false /\ (c =? 42) = false /\ is_flag c = false /\ (c =? 123) = false
  | [] => False
  end.
Proof.
  intros Hp Ht. destruct t as [|c t]; [contradiction|].
  destruct p as [p|]; cbn [opt_text].
  - destruct Hp as [->|[->|(d & _ & ->)]]; cbn; repeat split.
  - cbn. destruct (tail_char_facts c Ht) as (F1 & F2 & F3 & F4 & F5). tauto.
Qed.

Lemma rx_width_app w s : width_shape w ->
  match s with c :: _ => is_dec c = false /\ (c =? 42) = false | [] => False end ->
  rx_width (opt_text w ++ s) = (w, s).
Proof.
  intros Hw Hs. destruct s as [|c s]; [contradiction|]. destruct Hs as [S1 S2].
  destruct w as [w|]; cbn [opt_text].
  - destruct Hw as [->|Hdec]; [reflexivity|].
    unfold rx_width. rewrite (span_while_app is_dec w (c :: s)) by (try apply decimal_dec; assumption).
    destruct w as [|d ds]; [destruct Hdec; congruence|]. reflexivity.
  - cbn [opt_text app]. unfold rx_width. cbn [span_while]. rewrite S1, S2. reflexivity.
Qed.

Lemma rx_match_complete c r : conv_ok c ->
  rx_match (conv_text c ++ r) =
  Some (MOperator (cv_annotation c) (cv_flags c) (cv_width c) (cv_precision c) (cv_specifier c), r).
Proof.
  intros [(Ha & Hf5 & Hf & Hw & Hp & Hl & Hs) Hz].
  destruct c as [a f w p l sp]; cbn [cv_annotation cv_flags cv_width cv_precision cv_length cv_specifier] in *.
  unfold conv_text; cbn [cv_annotation cv_flags cv_width cv_precision cv_length cv_specifier].
  destruct (length_tail l sp r Hl Hs) as [Hlen Htail].
  set (t4 := l ++ sp :: r) in *.
  set (t3 := opt_text p ++ t4).
  set (t2 := opt_text w ++ t3).
  set (t1 := f ++ t2).
  replace ((s2z "%" ++ match a with Some a0 => s2z "{" ++ a0 ++ s2z "}" | None => [] end ++
     f ++ opt_text w ++ opt_text p ++ l ++ [sp]) ++ r)
    with (37 :: (match a with Some a0 => s2z "{" ++ a0 ++ s2z "}" | None => [] end ++ t1))
    by (unfold t1, t2, t3, t4; rewrite <- !app_assoc; reflexivity).
  pose proof (prec_head p t4 Hp Htail) as Hh3. fold t3 in Hh3.
  assert (Hh3' : match t3 with c :: _ => is_dec c = false /\ (c =? 42) = false | [] => False end).
  { destruct t3; [exact Hh3|]. tauto. }
  assert (Hh2 : match t2 with c :: _ => (c =? 123) = false | [] => False end).
  { unfold t2. destruct w as [[|w0 ws]|]; cbn [opt_text app].
    - destruct Hw as [Hw|[Hw _]]; [discriminate|congruence].
    - destruct Hw as [Hw|[_ Hw]].
      + injection Hw as -> ->. reflexivity.
      + inversion Hw; subst. apply dec_facts. assumption.
    - destruct t3; [exact Hh3|]. tauto. }
  assert (Hh1 : match t1 with c :: _ => (c =? 123) = false | [] => False end).
  { unfold t1. destruct f as [|f0 fs]; [exact Hh2|]. cbn [app].
    inversion Hf; subst. apply flag_facts. assumption. }
  assert (Hfl : span_max is_flag 5 t1 = (f, t2)).
  { unfold t1. apply span_max_app.
    - eapply Forall_impl; [|exact Hf]. intros x Hx. apply flag_facts, Hx.
    - unfold len in Hf5. lia.
    - destruct (Z.eq_dec (len f) 5) as [E5|E5]; [left; unfold len in E5; lia|right].
      assert (Hlt : len f < 5) by lia. specialize (Hz Hlt).
      unfold t2. destruct w as [[|w0 ws]|]; cbn [opt_text app].
      + destruct Hw as [Hw|[Hw _]]; [discriminate|congruence].
      + cbn. destruct Hw as [Hw|[_ Hw]].
        * injection Hw as -> ->. reflexivity.
        * inversion Hw; subst. apply dec_facts; assumption.
      + destruct t3; [contradiction|]. cbn. tauto. }
  unfold rx_match. cbn [Z.eqb Pos.eqb].
  assert (Hdec : rx_decoder (match a with Some a0 => s2z "{" ++ a0 ++ s2z "}" | None => [] end ++ t1) = (a, t1)).
  { destruct a as [a|].
    - destruct Ha as [Hla Hna].
      change ((s2z "{" ++ a ++ s2z "}") ++ t1) with (123 :: ((a ++ s2z "}") ++ t1)).
      rewrite <- app_assoc. change (s2z "}" ++ t1) with (125 :: t1).
      unfold rx_decoder. cbn [Z.eqb Pos.eqb].
      rewrite (span_max_app _ 128 a (125 :: t1)).
      + destruct a as [|a0 a]; [cbn in Hla; lia|]. reflexivity.
      + apply Forall_forall. intros x Hx. destruct (Z.eqb_spec x 125); [subst; contradiction|reflexivity].
      + unfold len in Hla. lia.
      + right. reflexivity.
    - cbn [app]. unfold rx_decoder. destruct t1; [reflexivity|]. rewrite Hh1. reflexivity. }
  rewrite Hdec, Hfl. unfold t2. rewrite (rx_width_app w t3 Hw Hh3').
  unfold t3. rewrite (rx_precision_app p t4 Hp Htail). rewrite Hlen.
  assert (Hsp : is_specifier sp = true) by (apply existsb_in; exact Hs).
  rewrite Hsp. reflexivity.
Qed.

Lemma rx_match_percent r : rx_match (s2z "%%" ++ r) = Some (MPercent, r).
Proof. reflexivity. Qed.

(** ** Any decomposition can be made canonical *)

Lemma zeros_split : forall (w : str) k, exists z rest,
  w = repeat 48 z ++ rest /\ (z <= k)%nat /\ (z = k \/ match rest with d :: _ => d <> 48 | [] => True end).
Proof.
  induction w as [|d w IH]; intros k.
  - exists O, []. split; [reflexivity|]. split; [lia|]. right. exact I.
  - destruct k as [|k].
    + exists O, (d :: w). split; [reflexivity|]. split; [lia|]. left; reflexivity.
    + destruct (Z.eq_dec d 48) as [->|Hd].
      * destruct (IH k) as (z & rest & -> & Hz & Hr). exists (S z), rest.
        split; [reflexivity|]. split; [lia|]. destruct Hr; [left; lia|right; assumption].
      * exists O, (d :: w). split; [reflexivity|]. split; [lia|]. right. exact Hd.
Qed.

Lemma conv_canonical c : conv_shape c -> exists c', conv_ok c' /\ conv_text c' = conv_text c.
Proof.
  intros Hc. destruct c as [a f w p l sp].
  destruct w as [[|w0 ws]|].
  - destruct Hc as (_ & _ & _ & [Hw|[Hw _]] & _); [discriminate|cbn in Hw; congruence].
  - destruct Hc as (Ha & Hf5 & Hf & Hw & Hp & Hl & Hs).
    cbn [cv_annotation cv_flags cv_width cv_precision cv_length cv_specifier] in *.
    destruct Hw as [Hw|Hw].
    + exists {| cv_annotation := a; cv_flags := f; cv_width := Some (w0 :: ws); cv_precision := p; cv_length := l; cv_specifier := sp |}.
      split; [|reflexivity]. split; [unfold conv_shape; cbn; tauto|].
      intros _. cbn. injection Hw as -> ->. discriminate.
    + destruct (zeros_split (w0 :: ws) (Z.to_nat (5 - len f))) as (z & rest & E & Hz & Hr).
      assert (Hrest : rest <> [] -> decimal rest).
      { intros Hn. split; [exact Hn|]. destruct Hw as [_ Hw]. rewrite E in Hw. apply Forall_app in Hw. tauto. }
      exists {| cv_annotation := a; cv_flags := f ++ repeat 48 z;
                cv_width := match rest with [] => None | _ => Some rest end;
                cv_precision := p; cv_length := l; cv_specifier := sp |}.
      assert (Htxt : (f ++ repeat 48 z) ++ opt_text (match rest with [] => None | _ => Some rest end) =
                     f ++ w0 :: ws).
      { rewrite E, <- app_assoc. f_equal. f_equal. destruct rest; reflexivity. }
      split; [|unfold conv_text; cbn [cv_annotation cv_flags cv_width cv_precision cv_length cv_specifier]].
      * split.
        { unfold conv_shape; cbn [cv_annotation cv_flags cv_width cv_precision cv_length cv_specifier].
          split; [exact Ha|]. split; [rewrite len_app, len_repeat; lia|].
          split. { apply Forall_app. split; [exact Hf|]. apply Forall_forall. intros x Hx.
                   apply repeat_spec in Hx. subst. cbn. tauto. }
          split. { destruct rest; [exact I|]. right. apply Hrest. discriminate. }
          tauto. }
        { cbn [cv_annotation cv_flags cv_width cv_precision cv_length cv_specifier].
          rewrite len_app, len_repeat. intros Hlt.
          destruct Hr as [Hr|Hr]; [lia|]. destruct rest; [exact I|exact Hr]. }
      * f_equal. f_equal.
        rewrite (app_assoc (f ++ repeat 48 z)), Htxt, <- app_assoc. reflexivity.
  - exists {| cv_annotation := a; cv_flags := f; cv_width := None; cv_precision := p; cv_length := l; cv_specifier := sp |}.
    split; [|reflexivity]. split; [exact Hc|]. intros _. exact I.
Qed.

Lemma starts_conv_match s : starts_conv s -> rx_match s <> None.
Proof.
  intros [(c & r & Hc & ->)|(r & ->)].
  - destruct (conv_canonical c Hc) as (c' & Hc' & <-). rewrite (rx_match_complete c' r Hc'). discriminate.
  - rewrite rx_match_percent. discriminate.
Qed.

(** ** Every match is a specification *)

Lemma rx_decoder_inv s a r : rx_decoder s = (a, r) ->
  s = match a with Some a0 => s2z "{" ++ a0 ++ s2z "}" | None => [] end ++ r /\
  match a with Some a => 1 <= len a <= 128 /\ ~ In 125 a | None => True end.
Proof.
  unfold rx_decoder. intros H. destruct s as [|c s]; [injection H as <- <-; split; [reflexivity|exact I]|].
  destruct (Z.eqb_spec c 123) as [->|_]; [|injection H as <- <-; split; [reflexivity|exact I]].
  destruct (span_max (fun x => negb (x =? 125)) 128 s) as [d r2] eqn:E.
  destruct (span_max_inv _ _ _ _ _ E) as (Hs & Hd & Hn & _).
  destruct d as [|d0 d]; [injection H as <- <-; split; [reflexivity|exact I]|].
  destruct r2 as [|e r3]; [injection H as <- <-; split; [reflexivity|exact I]|].
  destruct (Z.eqb_spec e 125) as [->|_]; [|injection H as <- <-; split; [reflexivity|exact I]].
  injection H as <- <-. split.
  - subst s. cbn [s2z app]. f_equal. rewrite <- app_assoc. reflexivity.
  - split; [unfold len; cbn [length] in *; lia|]. intros Hin.
    rewrite Forall_forall in Hd. specialize (Hd 125 Hin). discriminate.
Qed.

Lemma dec_decimal d : d <> [] -> Forall (fun c => is_dec c = true) d -> decimal d.
Proof. intros Hn H. split; [exact Hn|]. eapply Forall_impl; [|exact H]. intros c Hc. apply is_dec_range, Hc. Qed.

Lemma rx_width_inv s w r : rx_width s = (w, r) -> s = opt_text w ++ r /\ width_shape w.
Proof.
  unfold rx_width. intros H. destruct (span_while is_dec s) as [d r2] eqn:E.
  destruct (span_while_inv _ _ _ _ E) as (Hs & Hd & _).
  destruct d as [|d0 d].
  - destruct s as [|c s]; [injection H as <- <-; split; [reflexivity|exact I]|].
    destruct (Z.eqb_spec c 42) as [->|_]; injection H as <- <-; (split; [reflexivity|]).
    + left; reflexivity.
    + exact I.
  - injection H as <- <-. split; [exact Hs|]. right. apply dec_decimal; [discriminate|exact Hd].
Qed.

Lemma rx_precision_inv s p r : rx_precision s = (p, r) -> s = opt_text p ++ r /\ prec_shape p.
Proof.
  unfold rx_precision. intros H.
  destruct s as [|c s]; [injection H as <- <-; split; [reflexivity|exact I]|].
  destruct (Z.eqb_spec c 46) as [->|_]; [|injection H as <- <-; split; [reflexivity|exact I]].
  destruct (span_while is_dec s) as [d r2] eqn:E.
  destruct (span_while_inv _ _ _ _ E) as (Hs & Hd & _).
  destruct d as [|d0 d].
  - destruct s as [|e s]; [injection H as <- <-; split; [reflexivity|left; reflexivity]|].
    destruct (Z.eqb_spec e 42) as [->|_]; injection H as <- <-; (split; [reflexivity|]).
    + right; left; reflexivity.
    + left; reflexivity.
  - injection H as <- <-. split; [subst s; reflexivity|]. right; right.
    exists (d0 :: d). split; [apply dec_decimal; [discriminate|exact Hd]|reflexivity].
Qed.

Lemma rx_length_inv s : exists l, s = l ++ rx_length s /\
  In l (map s2z [""; "h"; "hh"; "j"; "l"; "ll"; "L"; "t"; "q"; "z"]%string).
Proof.
  unfold rx_length. destruct s as [|c r]; [exists []; split; [reflexivity|left; reflexivity]|].
  destruct (Z.eqb_spec c 104) as [->|H1].
  - cbn [orb]. destruct r as [|e r2]; [exists (s2z "h"); split; [reflexivity|cbn; tauto]|].
    destruct (Z.eqb_spec e 104) as [->|_].
    + exists (s2z "hh"). split; [reflexivity|cbn; tauto].
    + exists (s2z "h"). split; [reflexivity|cbn; tauto].
  - destruct (Z.eqb_spec c 108) as [->|H2].
    + cbn [orb]. destruct r as [|e r2]; [exists (s2z "l"); split; [reflexivity|cbn; tauto]|].
      destruct (Z.eqb_spec e 108) as [->|_].
      * exists (s2z "ll"). split; [reflexivity|cbn; tauto].
      * exists (s2z "l"). split; [reflexivity|cbn; tauto].
    + cbn [orb]. destruct (existsb (Z.eqb c) (s2z "jLtqz")) eqn:E.
      * apply existsb_in in E. exists [c]. split; [reflexivity|].
        cbn in E |- *. intuition (subst; tauto).
      * exists []. split; [reflexivity|left; reflexivity].
Qed.

Lemma rx_match_sound s m r : rx_match s = Some (m, r) ->
  (m = MPercent /\ s = s2z "%%" ++ r) \/
  (exists c, conv_ok c /\ s = conv_text c ++ r /\
     m = MOperator (cv_annotation c) (cv_flags c) (cv_width c) (cv_precision c) (cv_specifier c)).
Proof.
  intros H.
  assert (G : (m = MPercent /\ s = s2z "%%" ++ r) \/
    exists c, conv_shape c /\ s = conv_text c ++ r).
  { unfold rx_match in H. destruct s as [|c s]; [discriminate|].
    destruct (Z.eqb_spec c 37) as [->|_]; [|discriminate].
    assert (Hpp : forall (o : option (rmatch * str)),
      o = match s with e :: r' => if e =? 37 then Some (MPercent, r') else None | [] => None end ->
      o = Some (m, r) -> m = MPercent /\ 37 :: s = s2z "%%" ++ r).
    { intros o -> Ho. destruct s as [|e s]; [discriminate|].
      destruct (Z.eqb_spec e 37) as [->|_]; [|discriminate]. injection Ho as <- <-. split; reflexivity. }
    destruct (rx_decoder s) as [a r1] eqn:E1.
    destruct (span_max is_flag 5 r1) as [f r2] eqn:E2.
    destruct (rx_width r2) as [w r3] eqn:E3.
    destruct (rx_precision r3) as [p r4] eqn:E4.
    destruct (rx_length_inv r4) as (l & El & Hl).
    destruct (rx_length r4) as [|sp r5] eqn:E5; [left; eapply Hpp; [reflexivity|exact H]|].
    destruct (is_specifier sp) eqn:Esp; [|left; eapply Hpp; [reflexivity|exact H]].
    right. injection H as <- <-.
    destruct (rx_decoder_inv _ _ _ E1) as (S1 & Ha).
    destruct (span_max_inv _ _ _ _ _ E2) as (S2 & Hf & Hn & _).
    destruct (rx_width_inv _ _ _ E3) as (S3 & Hw).
    destruct (rx_precision_inv _ _ _ E4) as (S4 & Hp).
    exists {| cv_annotation := a; cv_flags := f; cv_width := w; cv_precision := p; cv_length := l; cv_specifier := sp |}.
    split.
    - unfold conv_shape; cbn [cv_annotation cv_flags cv_width cv_precision cv_length cv_specifier].
      split; [exact Ha|]. split; [unfold len; lia|].
      split. { eapply Forall_impl; [|exact Hf]. intros x Hx. apply existsb_in. exact Hx. }
      split; [exact Hw|]. split; [exact Hp|]. split; [exact Hl|]. apply existsb_in. exact Esp.
    - unfold conv_text; cbn [cv_annotation cv_flags cv_width cv_precision cv_length cv_specifier].
      rewrite S1, S2, S3, S4, El. rewrite <- !app_assoc. reflexivity. }
  destruct G as [G|(c & Hc & Hs)]; [left; exact G|right].
  destruct (conv_canonical c Hc) as (c' & Hc' & Et). exists c'. split; [exact Hc'|].
  rewrite Et. split; [exact Hs|]. rewrite Hs, <- Et, (rx_match_complete c' r Hc') in H.
  injection H as H. symmetry. exact H.
Qed.

(** ** Tokens *)

Definition piece_of (t : tok) : piece :=
  match t with
  | TChar c => PChar c
  | TPercent => PMatch MPercent
  | TConv c => PMatch (MOperator (cv_annotation c) (cv_flags c) (cv_width c) (cv_precision c) (cv_specifier c))
  end.

Lemma rx_match_none s : ~ starts_conv s -> rx_match s = None.
Proof.
  intros H. destruct (rx_match s) as [[m r]|] eqn:E; [|reflexivity]. exfalso. apply H.
  destruct (rx_match_sound _ _ _ E) as [[_ Hs]|(c & Hc & Hs & _)].
  - right. exists r. exact Hs.
  - left. exists c, r. split; [apply Hc|exact Hs].
Qed.

Lemma conv_text_cons c : exists r, conv_text c = 37 :: r.
Proof. unfold conv_text. eexists. cbn [s2z app]. reflexivity. Qed.

Lemma rx_pieces_toks l : toks_ok l -> forall fuel, (length (toks_text l) <= fuel)%nat ->
  rx_pieces fuel (toks_text l) = map piece_of l.
Proof.
  induction l as [|t l IH]; intros Hok fuel Hf.
  - destruct fuel; reflexivity.
  - destruct t as [c| |c]; cbn [toks_ok] in Hok.
    + destruct Hok as [Hn Hok]. cbn in Hf. destruct fuel as [|k]; [lia|].
      change (toks_text (TChar c :: l)) with (c :: toks_text l). cbn [rx_pieces].
      rewrite (rx_match_none _ Hn). cbn [map piece_of]. f_equal. apply IH; [exact Hok|].
      change (flat_map tok_text l) with (toks_text l) in Hf. lia.
    + change (toks_text (TPercent :: l)) with (37 :: 37 :: toks_text l) in *. cbn [length] in Hf.
      destruct fuel as [|k]; [lia|]. cbn [rx_pieces].
      change (37 :: 37 :: toks_text l) with (s2z "%%" ++ toks_text l). rewrite rx_match_percent.
      cbn [map piece_of]. f_equal. apply IH; [exact Hok|]. lia.
    + destruct Hok as [Hc Hok].
      change (toks_text (TConv c :: l)) with (conv_text c ++ toks_text l) in *.
      destruct (conv_text_cons c) as [r Er].
      pose proof (rx_match_complete c (toks_text l) Hc) as Hm.
      rewrite Er in *. cbn [app length] in *. destruct fuel as [|k]; [lia|]. cbn [rx_pieces].
      rewrite Hm. cbn [map piece_of]. f_equal. apply IH; [exact Hok|]. rewrite app_length in Hf. lia.
Qed.

Lemma toks_exist s : exists l, toks_ok l /\ toks_text l = s.
Proof.
  remember (length s) as n eqn:Hn. assert (Hle : (length s <= n)%nat) by lia. clear Hn.
  revert s Hle. induction n as [|n IH]; intros s Hle.
  - destruct s; [|cbn in Hle; lia]. exists []. split; [exact I|reflexivity].
  - destruct s as [|c s]; [exists []; split; [exact I|reflexivity]|].
    destruct (rx_match (c :: s)) as [[m r]|] eqn:E.
    + destruct (rx_match_sound _ _ _ E) as [[_ Hs]|(cv & Hc & Hs & _)].
      * destruct (IH r) as (l & Hok & Ht); [rewrite Hs in Hle; cbn in Hle; lia|].
        exists (TPercent :: l). split; [exact Hok|].
        change (toks_text (TPercent :: l)) with (s2z "%%" ++ toks_text l). rewrite Ht. symmetry. exact Hs.
      * destruct (IH r) as (l & Hok & Ht).
        { destruct (conv_text_cons cv) as [q Eq]. rewrite Hs, Eq in Hle. cbn in Hle. rewrite app_length in Hle. lia. }
        exists (TConv cv :: l). split; [split; assumption|].
        change (toks_text (TConv cv :: l)) with (conv_text cv ++ toks_text l). rewrite Ht. symmetry. exact Hs.
    + destruct (IH s) as (l & Hok & Ht); [cbn in Hle; lia|].
      exists (TChar c :: l). split.
      * split; [|exact Hok]. intros Hst. change (toks_text l) with (toks_text l) in Hst. rewrite Ht in Hst.
        apply (starts_conv_match _ Hst). exact E.
      * change (toks_text (TChar c :: l)) with (c :: toks_text l). rewrite Ht. reflexivity.
Qed.

(** ** The template *)

Definition conv_op (c : conv) : operator :=
  {| op_flags := cv_flags c; op_precision := opt_text (cv_precision c);
     op_specifier := cv_specifier c; op_width := opt_text (cv_width c) |}.

Fixpoint template (l : list tok) (i : Z) : str :=
  match l with
  | [] => []
  | TChar c :: r => escape_char c ++ template r i
  | TPercent :: r => 37 :: template r i
  | TConv _ :: r => s2z "{" ++ fmt_d i ++ s2z ":s}" ++ template r (i + 1)
  end.

Lemma parse_pieces_toks l : forall i,
  parse_pieces (map piece_of l) i =
  (template l i, map (fun c => decoder_names (cv_annotation c) (cv_specifier c)) (convs l),
   map conv_op (convs l)).
Proof.
  induction l as [|t l IH]; intros i; [reflexivity|].
  destruct t as [c| |c]; cbn [map piece_of parse_pieces template convs]; rewrite IH; reflexivity.
Qed.

Lemma is_dec_digit_char c : is_digit_char c -> forall b d, char_digit c = Some d -> d < b -> b <= 10 -> is_dec c = true /\ d = c - 48.
Proof.
  intros _ b d H Hd Hb. unfold char_digit in H. unfold is_dec.
  destruct ((48 <=? c) && (c <=? 57)) eqn:E.
  - injection H as <-. split; [try exact E; reflexivity|reflexivity].
  - destruct ((97 <=? c) && (c <=? 102)) eqn:E2; [|discriminate]. injection H as <-. lia.
Qed.

Lemma parse_digits_dec s : forall acc n, parse_digits 10 s acc = Some n ->
  Forall (fun c => is_dec c = true) s /\ dec_value s acc = n.
Proof.
  induction s as [|c s IH]; intros acc n H; cbn in H.
  - injection H as <-. split; [constructor|reflexivity].
  - destruct (char_digit c) as [d|] eqn:E; [|discriminate].
    destruct (d <? 10) eqn:El; [|discriminate].
    unfold char_digit in E. unfold is_dec.
    destruct ((48 <=? c) && (c <=? 57)) eqn:E1.
    + injection E as <-. destruct (IH _ _ H) as [H1 H2]. split; [constructor; assumption|]. exact H2.
    + destruct ((97 <=? c) && (c <=? 102)) eqn:E2; [|discriminate]. injection E as <-. lia.
Qed.

Lemma fmt_d_dec i : 0 <= i -> exists d ds, fmt_d i = d :: ds /\
  Forall (fun c => is_dec c = true) (d :: ds) /\ dec_value (d :: ds) 0 = i.
Proof.
  intros Hi. assert (Hn := parse_nat_fmt 10 0 i ltac:(lia) Hi). fold (fmt_d i) in Hn.
  destruct (fmt_d i) as [|d ds]; [discriminate|]. exists d, ds. split; [reflexivity|].
  unfold parse_nat in Hn. destruct (parse_digits_dec _ _ _ Hn) as [H1 H2]. split; assumption.
Qed.

Lemma str_format_name R ds : forall n t, Forall (fun c => is_dec c = true) ds ->
  str_format R (InName n) (ds ++ 58 :: t) = str_format R (InSpec (dec_value ds n) []) t.
Proof.
  induction ds as [|d ds IH]; intros n t H.
  - reflexivity.
  - inversion H; subst. cbn [app str_format]. rewrite H2. cbn [dec_value]. rewrite IH by assumption. reflexivity.
Qed.

Lemma str_format_spec R n spec : forall acc t, ~ In 125 spec -> ~ In 123 spec ->
  str_format R (InSpec n acc) (spec ++ 125 :: t) =
  (do a <- R n (rev acc ++ spec); do x <- str_format R InText t; Ok (a ++ x)).
Proof.
  induction spec as [|c spec IH]; intros acc t H1 H2.
  - cbn [app str_format Z.eqb Pos.eqb]. rewrite app_nil_r. reflexivity.
  - cbn [app str_format].
    destruct (Z.eqb_spec c 125) as [->|_]; [exfalso; apply H1; left; reflexivity|].
    destruct (Z.eqb_spec c 123) as [->|_]; [exfalso; apply H2; left; reflexivity|].
    rewrite IH by (intros Hin; first [apply H1; right; exact Hin | apply H2; right; exact Hin]).
    cbn [rev]. rewrite <- app_assoc. reflexivity.
Qed.

Lemma str_format_field R i spec t : 0 <= i -> ~ In 125 spec -> ~ In 123 spec ->
  str_format R InText (s2z "{" ++ fmt_d i ++ s2z ":" ++ spec ++ s2z "}" ++ t) =
  (do a <- R i spec; do x <- str_format R InText t; Ok (a ++ x)).
Proof.
  intros Hi H1 H2. destruct (fmt_d_dec i Hi) as (d & ds & -> & Hd & Hv).
  inversion Hd; subst. cbn [s2z app].
  change (Z.of_N (N_of_ascii "{")) with 123. change (Z.of_N (N_of_ascii ":")) with 58.
  change (Z.of_N (N_of_ascii "}")) with 125.
  cbn [str_format Z.eqb Pos.eqb].
  assert (E : (d =? 123) = false) by (unfold is_dec in H3; lia). rewrite E, H3.
  rewrite str_format_name by assumption.
  rewrite str_format_spec by assumption. cbn [rev app].
  replace (dec_value ds (d - 48)) with (dec_value (d :: ds) 0) by (cbn [dec_value]; f_equal; lia).
  reflexivity.
Qed.

Lemma str_format_escape R c t :
  str_format R InText (escape_char c ++ t) = (do x <- str_format R InText t; Ok (c :: x)).
Proof.
  unfold escape_char. destruct (Z.eqb_spec c 123) as [->|H1]; [reflexivity|].
  destruct (Z.eqb_spec c 125) as [->|H2]; [reflexivity|]. cbn [orb app str_format].
  apply Z.eqb_neq in H1, H2. rewrite H1, H2. reflexivity.
Qed.

Lemma py_format_str_s v : py_format_str (s2z "s") v = Ok v.
Proof.
  unfold py_format_str. cbn [s2z]. change (Z.of_N (N_of_ascii "s")) with 115.
  change (parse_pyspec 60 [115]) with
    (Ok {| ps_fill := 32; ps_align := None; ps_sign := None; ps_alt := false; ps_width := None;
           ps_precision := None; ps_type := Some 115 |}).
  cbn [bind ps_fill ps_align ps_sign ps_alt ps_width ps_precision ps_type Z.eqb Pos.eqb negb orb].
  unfold pad. cbn [Z.eqb Pos.eqb app].
  replace (Z.max 0 (0 - len (@nil Z) - len v)) with 0
    by (pose proof (len_nonneg v); rewrite (len_nil (A := Z)); lia).
  cbn. rewrite app_nil_r. reflexivity.
Qed.

(** ** Formatting *)

Lemma fill_template l : forall i values all,
  0 <= i -> zskipn i all = values -> (length (convs l) <= length values)%nat ->
  str_format (fun i spec => do v <- pyindex all i; py_format_str spec v) InText (template l i) =
  Ok (fill l values).
Proof.
  induction l as [|t l IH]; intros i values all Hi Hv Hlen; [reflexivity|].
  destruct t as [c| |c]; cbn [template fill convs] in *.
  - rewrite str_format_escape, (IH i values all Hi Hv Hlen). reflexivity.
  - cbn [str_format Z.eqb Pos.eqb]. rewrite (IH i values all Hi Hv Hlen). reflexivity.
  - cbn [length] in Hlen. destruct values as [|v vs]; [cbn in Hlen; lia|].
    change (s2z "{" ++ fmt_d i ++ s2z ":s}" ++ template l (i + 1))
      with (s2z "{" ++ fmt_d i ++ s2z ":" ++ s2z "s" ++ s2z "}" ++ template l (i + 1)).
    rewrite str_format_field by (try assumption; cbn; intuition congruence).
    assert (Hix : pyindex all i = Ok v).
    { unfold pyindex. replace (i <? 0) with false by lia. rewrite (proj2 (Z.ltb_ge i 0)) by lia.
      rewrite znth_error_skipn by lia. rewrite Hv. reflexivity. }
    cbn beta. rewrite Hix. cbn [bind]. rewrite py_format_str_s. cbn [bind].
    rewrite (IH (i + 1) vs all); [reflexivity|lia| |cbn in Hlen; lia].
    rewrite <- (zskipn_zskipn all i 1) by lia. rewrite Hv. cbn. apply zskipn_0. lia.
Qed.

Lemma fill_pad l : forall values,
  fill l (values ++ repeat missing_data (length (convs l) - length values)) = fill l values.
Proof.
  induction l as [|t l IH]; intros values; [reflexivity|].
  destruct t as [c| |c]; cbn [fill convs]; try (rewrite IH; reflexivity).
  destruct values as [|v vs]; cbn [length app].
  - rewrite Nat.sub_0_r. cbn [repeat]. f_equal.
    specialize (IH []). cbn [app length] in IH. rewrite Nat.sub_0_r in IH. exact IH.
  - rewrite Nat.sub_succ. rewrite IH. reflexivity.
Qed.

Lemma undouble_other c a r : a <> c -> undouble c (a :: r) = a :: undouble c r.
Proof.
  intros H. apply Z.eqb_neq in H. destruct r as [|b r']; [reflexivity|].
  cbn [undouble]. rewrite H. reflexivity.
Qed.

Lemma undouble_escape_open c t :
  undouble 123 (escape_char c ++ t) = (if c =? 125 then [c; c] else [c]) ++ undouble 123 t.
Proof.
  unfold escape_char. destruct (Z.eqb_spec c 123) as [->|H1]; [reflexivity|].
  destruct (Z.eqb_spec c 125) as [->|H2]; cbn [orb app].
  - rewrite !undouble_other by lia. reflexivity.
  - rewrite undouble_other by lia. reflexivity.
Qed.

Lemma undouble_close c t :
  undouble 125 ((if c =? 125 then [c; c] else [c]) ++ t) = c :: undouble 125 t.
Proof.
  destruct (Z.eqb_spec c 125) as [->|H2]; [reflexivity|]. cbn [app]. apply undouble_other. exact H2.
Qed.

Lemma undouble_template l : forall i values, convs l = [] ->
  undouble 125 (undouble 123 (template l i)) = fill l values.
Proof.
  induction l as [|t l IH]; intros i values H; [reflexivity|].
  destruct t as [c| |c]; cbn [template fill convs] in *.
  - rewrite undouble_escape_open, undouble_close. f_equal. apply IH, H.
  - rewrite !undouble_other by lia. f_equal. apply IH, H.
  - discriminate.
Qed.

Lemma parse_toks l : toks_ok l -> l <> [] ->
  parse_format_string (toks_text l) =
  {| fm_decoders := map (fun c => decoder_names (cv_annotation c) (cv_specifier c)) (convs l);
     fm_string := Some (match convs l with [] => fill l [] | _ => template l 0 end);
     fm_operators := map conv_op (convs l) |}.
Proof.
  intros Hok Hne. unfold parse_format_string.
  assert (Hn : toks_text l <> []).
  { destruct l as [|t l]; [congruence|]. destruct t as [c| |c]; discriminate. }
  destruct (toks_text l) as [|c s] eqn:E; [congruence|]. rewrite <- E.
  rewrite (rx_pieces_toks l Hok) by lia. rewrite parse_pieces_toks.
  destruct (convs l) eqn:Ec; cbn [map]; [|reflexivity].
  rewrite (undouble_template l 0 []) by exact Ec. reflexivity.
Qed.

Lemma fill_no_convs l v w : convs l = [] -> fill l v = fill l w.
Proof.
  induction l as [|t l IH]; intros H; [reflexivity|].
  destruct t as [c| |c]; cbn [fill convs] in *; try (f_equal; apply IH, H). discriminate.
Qed.

Lemma format_toks l values : toks_ok l ->
  format_string (parse_format_string (toks_text l)) values = Ok (fill l values).
Proof.
  intros Hok. destruct l as [|t l0]; [reflexivity|]. set (l := t :: l0) in *.
  rewrite parse_toks by (try assumption; discriminate).
  unfold format_string. cbn [fm_string fm_operators].
  destruct (convs l) as [|c cs] eqn:E.
  - cbn [map]. f_equal. apply fill_no_convs. exact E.
  - cbn [map]. change (conv_op c :: map conv_op cs) with (map conv_op (c :: cs)).
    rewrite map_length, <- E.
    rewrite (fill_template l 0 (pad_values (length (convs l)) values)).
    + unfold pad_values. rewrite fill_pad. reflexivity.
    + lia.
    + apply zskipn_0. lia.
    + unfold pad_values. rewrite app_length, repeat_length. lia.
Qed.

(** ** Integers *)

Lemma numeral_digits base n : 2 <= base <= 16 -> 0 <= n ->
  numeral base (map digit_char (digits base n)) n.
Proof.
  intros Hb Hn. destruct (digits_spec base n ltac:(lia) Hn) as (F & V & N).
  destruct (digits_head base n ltac:(lia) Hn) as (h & t & E & Hh).
  unfold numeral. split; [|split].
  - unfold parse_nat. rewrite E at 1. cbn [map]. rewrite parse_digits_map by assumption. rewrite V. reflexivity.
  - intros Hnz r Hr. rewrite E in Hr. cbn [map] in Hr. injection Hr as Hd _.
    destruct Hh as [Hh|Hh]; [contradiction|]. rewrite E in F. inversion F; subst.
    unfold digit_char in Hd. destruct (h <? 10) eqn:E10; lia.
  - intros ->. unfold digits. cbn. destruct (Z.ltb_spec 0 base); [reflexivity|lia].
Qed.

Lemma get_integer_app W psp w :
  width_is W w -> w <= max_size -> is_dec psp = false ->
  get_integer (W ++ [psp]) = Ok (match W with [] => None | _ => Some w end, [psp]).
Proof.
  intros HW Hm Hp. unfold get_integer.
  assert (HF : Forall (fun c => is_dec c = true) W).
  { destruct HW as [[-> _]|(_ & _ & HF)]; [constructor|].
    eapply Forall_impl; [|exact HF]. intros c Hc. apply is_dec_range, Hc. }
  rewrite (span_while_app is_dec W [psp] HF) by (cbn; exact Hp).
  destruct HW as [[-> ->]|(Hn & _ & _)]; [reflexivity|].
  destruct W as [|w0 W]; [discriminate|].
  unfold parse_nat in Hn. destruct (parse_digits_dec _ _ _ Hn) as [_ Hv].
  rewrite Hv. destruct (Z.leb_spec w max_size); [reflexivity|lia].
Qed.

(** The specification after the flags. *)
Definition prec_stage (s5 : str) : result (option Z * str) :=
  match s5 with
  | c :: r => if c =? 46 then
                do q <- get_integer r;
                match q with
                | (None, _) => Err ValueError
                | (Some v, r') => Ok (Some v, r')
                end
              else Ok (None, s5)
  | [] => Ok (None, s5)
  end.

Definition tail_ok (T : str) (w p : option Z) (psp : Z) : Prop :=
  (exists T2, get_integer T = Ok (w, T2) /\ prec_stage T2 = Ok (p, [psp])) /\
  match T with
  | t0 :: T' =>
      is_align t0 = false /\ existsb (Z.eqb t0) (s2z " +-") = false /\ (t0 =? 35) = false /\ (t0 =? 48) = false /\
      match T' with b :: _ => is_align b = false | [] => True end
  | [] => False
  end.

Lemma dec_not_align c : is_dec c = true ->
  is_align c = false /\ existsb (Z.eqb c) (s2z " +-") = false /\ (c =? 35) = false.
Proof. unfold is_dec, is_align. cbn. intros H. repeat split; lia. Qed.

Lemma tail_ok_width W psp w :
  width_is W w -> w <= max_size -> In psp (s2z "doxXeEfFgGs") ->
  tail_ok (W ++ [psp]) (match W with [] => None | _ => Some w end) None psp.
Proof.
  intros HW Hm Hp.
  assert (Hpd : is_dec psp = false /\ is_align psp = false /\ existsb (Z.eqb psp) (s2z " +-") = false /\
                (psp =? 35) = false /\ (psp =? 48) = false /\ (psp =? 46) = false).
  { cbn in Hp. repeat (destruct Hp as [Hp|Hp]; [subst psp; repeat split|]). contradiction. }
  destruct Hpd as (P1 & P2 & P3 & P4 & P5 & P6).
  split. { exists [psp]. split; [apply get_integer_app; assumption|]. cbn. rewrite P6. reflexivity. }
  destruct W as [|w0 W]; cbn [app].
  - tauto.
  - destruct HW as [[HW _]|(_ & Hz & HF)]; [discriminate|].
    inversion HF; subst. apply is_dec_range in H1. destruct (dec_not_align w0 H1) as (A1 & A2 & A3).
    split; [exact A1|]. split; [exact A2|]. split; [exact A3|].
    split. { destruct (Z.eqb_spec w0 48) as [->|]; [|reflexivity]. exfalso. exact (Hz W eq_refl). }
    destruct W as [|w1 W]; cbn [app]; [exact P2|].
    inversion H2; subst. apply is_dec_range in H3. apply (dec_not_align w1 H3).
Qed.

Definition sign_ok (s : option Z) : Prop := s = None \/ s = Some 43 \/ s = Some 32.

Lemma tail_ok_precision ds psp n :
  parse_nat 10 ds = Some n -> Forall (fun c => 48 <= c <= 57) ds -> n <= max_size ->
  In psp (s2z "eEfFgGs") -> tail_ok (46 :: ds ++ [psp]) None (Some n) psp.
Proof.
  intros Hn HF Hm Hp.
  assert (Hpd : is_dec psp = false).
  { cbn in Hp. repeat (destruct Hp as [Hp|Hp]; [subst psp; reflexivity|]). contradiction. }
  assert (HF' : Forall (fun c => is_dec c = true) ds).
  { eapply Forall_impl; [|exact HF]. intros c Hc. apply is_dec_range, Hc. }
  assert (Hg : get_integer (ds ++ [psp]) = Ok (Some n, [psp])).
  { unfold get_integer. rewrite (span_while_app is_dec ds [psp] HF') by (cbn; exact Hpd).
    destruct ds as [|d ds]; [discriminate|].
    unfold parse_nat in Hn. destruct (parse_digits_dec _ _ _ Hn) as [_ Hv].
    rewrite Hv. destruct (Z.leb_spec n max_size); [reflexivity|lia]. }
  split.
  - exists (46 :: ds ++ [psp]). split; [reflexivity|]. unfold prec_stage. cbn [Z.eqb Pos.eqb].
    rewrite Hg. reflexivity.
  - repeat split. destruct ds as [|d ds]; [discriminate|]. cbn [app]. inversion HF'; subst. apply dec_not_align; assumption.
Qed.

Lemma parse_pyspec_flags F T w p psp :
  sign_ok (cf_sign F) -> tail_ok T w p psp ->
  parse_pyspec 62 (replace_minus (flags_text F) ++ T) =
  Ok {| ps_fill := if cf_zero F then 48 else 32;
        ps_align := if cf_minus F then Some 60 else if cf_zero F then Some 61 else None;
        ps_sign := cf_sign F; ps_alt := cf_alt F; ps_width := w;
        ps_precision := p; ps_type := Some psp |}.
Proof.
  intros Hs [(T2 & Hg & Hg2) HT]. destruct T as [|t0 T']; [contradiction|].
  destruct HT as (A1 & A2 & A3 & A4 & A5).
  destruct F as [minus sign alt zero]. cbn [cf_minus cf_sign cf_alt cf_zero] in *.
  unfold flags_text; cbn [cf_minus cf_sign cf_alt cf_zero].
  assert (Hend : forall fl al (q : pyspec),
    q = {| ps_fill := match fl with Some f => f | None => 32 end; ps_align := al; ps_sign := sign; ps_alt := alt;
           ps_width := w; ps_precision := p; ps_type := Some psp |} ->
    (do ws <- get_integer (t0 :: T');
     let '(width, s5) := ws in
     do pq <- match s5 with
           | c :: r => if c =? 46 then
                         do q <- get_integer r;
                         match q with
                         | (None, _) => Err ValueError
                         | (Some v, r') => Ok (Some v, r')
                         end
                       else Ok (None, s5)
           | [] => Ok (None, s5)
           end;
     let '(prec, s6) := pq in
     do ty <- match s6 with
           | [] => Ok None
           | [c] => Ok (Some c)
           | _ => Err ValueError
           end;
     Ok {| ps_fill := match fl with Some f => f | None => 32 end;
        ps_align := al; ps_sign := sign; ps_alt := alt;
        ps_width := width; ps_precision := prec; ps_type := ty |}) = Ok q).
  { intros fl al q ->. rewrite Hg. cbn [bind]. fold (prec_stage T2). rewrite Hg2. cbn [bind]. reflexivity. }
  destruct minus, alt, zero; destruct Hs as [->|[->| ->]];
    cbn [app replace_minus map s2z];
    repeat (change (Z.of_N (N_of_ascii "-")) with 45 || change (Z.of_N (N_of_ascii "#")) with 35
            || change (Z.of_N (N_of_ascii "0")) with 48);
    cbn [Z.eqb Pos.eqb]; unfold parse_pyspec.
  all: let norm := (repeat match goal with
       | |- context [is_align (Zpos ?c)] => let v := eval cbv in (is_align (Zpos c)) in change (is_align (Zpos c)) with v
       | |- context [existsb (Z.eqb (Zpos ?c)) (s2z " +-")] => let v := eval cbv in (existsb (Z.eqb (Zpos c)) (s2z " +-")) in change (existsb (Z.eqb (Zpos c)) (s2z " +-")) with v
       end; rewrite ?A1, ?A2, ?A3, ?A4; cbn [Z.eqb Pos.eqb]) in
       (do 5 norm; try (destruct T' as [|b T'']; [|rewrite A5]; do 5 norm)).
  all: first [ apply (Hend None); reflexivity | apply (Hend (Some 48)); reflexivity
             | rewrite Hg; cbn [bind]; unfold prec_stage in Hg2; rewrite Hg2; reflexivity].
Qed.

Lemma flags_no_brace F : sign_ok (cf_sign F) ->
  ~ In 125 (replace_minus (flags_text F)) /\ ~ In 123 (replace_minus (flags_text F)).
Proof.
  intros Hs. destruct F as [m s a z]. cbn [cf_sign] in Hs.
  destruct m, a, z; destruct Hs as [->|[->| ->]]; cbn; intuition congruence.
Qed.

Lemma width_no_brace W w : width_is W w -> ~ In 125 W /\ ~ In 123 W.
Proof.
  intros [[-> _]|(_ & _ & HF)]; [cbn; tauto|]. rewrite Forall_forall in HF.
  split; intros Hin; specialize (HF _ Hin); lia.
Qed.

Lemma format_one_spec o R spec :
  python_format_string o = s2z "{0:" ++ spec ++ s2z "}" -> ~ In 125 spec -> ~ In 123 spec ->
  format_one o R = R spec.
Proof.
  intros E H1 H2. unfold format_one. rewrite E.
  change (s2z "{0:" ++ spec ++ s2z "}") with (s2z "{" ++ fmt_d 0 ++ s2z ":" ++ spec ++ s2z "}" ++ []).
  rewrite str_format_field by (try assumption; lia). cbn [Z.eqb].
  destruct (R spec) as [a|e]; [cbn|reflexivity]. rewrite app_nil_r. reflexivity.
Qed.

Definition int_specifiers : str := s2z "dDiuUoOxX".

Lemma int_spec_facts c : In c int_specifiers ->
  In (python_specifier c) (s2z "doxX") /\ (c =? 80) = false /\ (c =? 112) = false.
Proof.
  intros H. cbn in H. repeat (destruct H as [H|H]; [subst c; cbn; tauto|]). contradiction.
Qed.

Lemma python_format_int o : In (op_specifier o) int_specifiers -> op_precision o = [] ->
  python_format_string o =
  s2z "{0:" ++ (replace_minus (op_flags o) ++ op_width o ++ [python_specifier (op_specifier o)]) ++ s2z "}".
Proof.
  intros Hc Hp. destruct (int_spec_facts _ Hc) as (H1 & H2 & H3).
  unfold python_format_string. rewrite Hp, H2, H3. cbn [is_nil negb]. rewrite andb_false_r.
  change (list_eqb [] (s2z ".")) with false. change (list_eqb [] (s2z ".*")) with false. cbn match.
  apply existsb_in in H1. rewrite H1. cbn [app]. rewrite <- !app_assoc. reflexivity.
Qed.

Lemma pad_layout F width prefix body :
  cf_minus F && cf_zero F = false ->
  pad (match (if cf_minus F then Some 60 else if cf_zero F then Some 61 else None) with Some a => a | None => 62 end)
      (if cf_zero F then 48 else 32) width prefix body = c_layout F width prefix body.
Proof.
  intros H. unfold pad, c_layout.
  replace (Z.to_nat (Z.max 0 (width - len prefix - len body))) with (Z.to_nat (width - len prefix - len body)) by lia.
  destruct (cf_minus F), (cf_zero F); try discriminate; cbn; reflexivity.
Qed.

Lemma width_value W w : width_is W w ->
  match match W with [] => None | _ => Some w end with Some x => x | None => 0 end = w.
Proof.
  intros [[-> ->]|(H & _ & _)]; [reflexivity|]. destruct W; [discriminate|reflexivity].
Qed.

(** The text of an integer. *)
Lemma py_format_int_printf F W w c v :
  In c int_specifiers -> sign_ok (cf_sign F) -> cf_minus F && cf_zero F = false ->
  width_is W w -> w <= max_size ->
  (~ In c (s2z "dDi") -> cf_sign F = None /\ 0 <= v) ->
  (cf_alt F = true -> In c (s2z "dDiuU") \/ (In c (s2z "xX") /\ v <> 0)) ->
  exists t, py_format_int (replace_minus (flags_text F) ++ W ++ [python_specifier c]) v = Ok t /\
            printf_int F w c v t.
Proof.
  intros Hc Hs Hmz HW Hm Hu Ha.
  destruct (int_spec_facts c Hc) as (Hp & _ & _).
  assert (Htail : tail_ok (W ++ [python_specifier c]) (match W with [] => None | _ => Some w end) None (python_specifier c)).
  { apply tail_ok_width; try assumption. cbn in Hp |- *. tauto. }
  unfold py_format_int. rewrite (parse_pyspec_flags F _ _ _ _ Hs Htail).
  cbn [bind ps_fill ps_align ps_sign ps_alt ps_width ps_precision ps_type].
  rewrite (width_value W w HW).
  assert (Hd : forall b, 2 <= b <= 16 -> numeral b (map digit_char (digits b (Z.abs v))) (Z.abs v)).
  { intros b Hb. apply numeral_digits; [exact Hb|lia]. }
  assert (Hsg : (if v <? 0 then [45] else match cf_sign F with Some c0 => if c0 =? 45 then [] else [c0] | None => [] end)
                = (if v <? 0 then s2z "-" else match cf_sign F with Some c0 => [c0] | None => [] end)).
  { destruct (v <? 0); [reflexivity|]. destruct Hs as [->|[->| ->]]; reflexivity. }
  assert (Hns : ~ In c (s2z "dDi") ->
     (if v <? 0 then [45] else match cf_sign F with Some c0 => if c0 =? 45 then [] else [c0] | None => [] end) = [] /\ Z.abs v = v).
  { intros Hn. destruct (Hu Hn) as [-> Hv]. destruct (Z.ltb_spec v 0); [lia|]. split; [reflexivity|lia]. }
  unfold int_specifiers in Hc. cbn in Hc.
  assert (Hdec : forall cc, python_specifier cc = 100 -> existsb (Z.eqb cc) (s2z "dDiuU") = true -> c = cc ->
    exists t : str, Ok (pad (match (if cf_minus F then Some 60 else if cf_zero F then Some 61 else None) with Some a => a | None => 62 end)
       (if cf_zero F then 48 else 32) w
       ((if v <? 0 then [45] else match cf_sign F with Some c0 => if c0 =? 45 then [] else [c0] | None => [] end) ++ [])
       (map digit_char (digits 10 (Z.abs v)))) = Ok t /\ printf_int F w cc v t).
  { intros cc _ E _. eexists. split; [reflexivity|]. rewrite app_nil_r, Hsg, (pad_layout F) by exact Hmz.
    eexists. cbv zeta. rewrite E. split; [apply Hd; lia|reflexivity]. }
  repeat (destruct Hc as [Hc|Hc]; [|]); try contradiction;
    subst c; cbn [python_specifier existsb s2z N_of_ascii] in *.
  all: try (match goal with |- context [python_specifier ?x] => let y := eval cbv in (python_specifier x) in change (python_specifier x) with y end).
  all: cbn [Z.eqb Pos.eqb negb].
  all: rewrite ?andb_false_r, ?andb_true_r.
  all: repeat match goal with |- context [existsb (Z.eqb (Zpos ?x)) (s2z "doxX")] =>
       change (existsb (Z.eqb (Zpos x)) (s2z "doxX")) with true end.
  all: cbn match.
  all: try (apply Hdec; reflexivity).
  - (* o *) destruct Hns as [Hns1 Hns2]; [cbn; intuition congruence|]. rewrite Hns1.
    assert (Hal : cf_alt F = false).
    { destruct (cf_alt F); [|reflexivity]. destruct (Ha eq_refl) as [G|[G _]]; cbn in G; intuition congruence. }
    rewrite Hal. eexists. split; [reflexivity|]. cbn [app]. rewrite (pad_layout F) by exact Hmz.
    exists (map digit_char (digits 8 (Z.abs v))). cbn. split; [|reflexivity].
    specialize (Hd 8 ltac:(lia)). rewrite Hns2 in Hd |- *. exact Hd.
  - (* O *) destruct Hns as [Hns1 Hns2]; [cbn; intuition congruence|]. rewrite Hns1.
    assert (Hal : cf_alt F = false).
    { destruct (cf_alt F); [|reflexivity]. destruct (Ha eq_refl) as [G|[G _]]; cbn in G; intuition congruence. }
    rewrite Hal. eexists. split; [reflexivity|]. cbn [app]. rewrite (pad_layout F) by exact Hmz.
    exists (map digit_char (digits 8 (Z.abs v))). cbn. split; [|reflexivity].
    specialize (Hd 8 ltac:(lia)). rewrite Hns2 in Hd |- *. exact Hd.
  - (* x *) destruct Hns as [Hns1 Hns2]; [cbn; intuition congruence|]. rewrite Hns1.
    eexists. split; [reflexivity|]. cbn [app]. rewrite (pad_layout F) by exact Hmz.
    exists (map digit_char (digits 16 (Z.abs v))).
    change (existsb (Z.eqb 120) (s2z "dDiuU")) with false. change (existsb (Z.eqb 120) (s2z "oO")) with false.
    cbn [Z.eqb Pos.eqb]. cbv zeta. split.
    + specialize (Hd 16 ltac:(lia)). rewrite Hns2 in Hd |- *. exact Hd.
    + f_equal. destruct (cf_alt F); [|reflexivity].
      destruct (Ha eq_refl) as [G|[_ G]]; [cbn in G; intuition congruence|].
      apply Z.eqb_neq in G. rewrite G. reflexivity.
  - (* X *) destruct Hns as [Hns1 Hns2]; [cbn; intuition congruence|]. rewrite Hns1.
    eexists. split; [reflexivity|]. cbn [app]. rewrite (pad_layout F) by exact Hmz.
    exists (map digit_char (digits 16 (Z.abs v))).
    change (existsb (Z.eqb 88) (s2z "dDiuU")) with false. change (existsb (Z.eqb 88) (s2z "oO")) with false.
    cbn [Z.eqb Pos.eqb]. cbv zeta. split.
    + specialize (Hd 16 ltac:(lia)). rewrite Hns2 in Hd |- *. exact Hd.
    + f_equal. destruct (cf_alt F); [|reflexivity].
      destruct (Ha eq_refl) as [G|[_ G]]; [cbn in G; intuition congruence|].
      apply Z.eqb_neq in G. rewrite G. reflexivity.
Qed.

(** ** Strings *)

Lemma parse_pyspec_align a T w p psp : a = 60 \/ a = 62 -> tail_ok T w p psp ->
  parse_pyspec 60 (a :: T) =
  Ok {| ps_fill := 32; ps_align := Some a; ps_sign := None; ps_alt := false; ps_width := w;
        ps_precision := p; ps_type := Some psp |}.
Proof.
  intros Ha [(T2 & Hg & Hg2) HT]. destruct T as [|t0 T']; [contradiction|].
  destruct HT as (A1 & A2 & A3 & A4 & A5).
  unfold parse_pyspec. rewrite A1.
  assert (Ea : is_align a = true) by (destruct Ha; subst; reflexivity). rewrite Ea.
  rewrite A2, A3, A4, Hg. cbn [bind]. fold (prec_stage T2). rewrite Hg2. reflexivity.
Qed.

Lemma parse_pyspec_plain T w p psp : tail_ok T w p psp ->
  parse_pyspec 60 T =
  Ok {| ps_fill := 32; ps_align := None; ps_sign := None; ps_alt := false; ps_width := w;
        ps_precision := p; ps_type := Some psp |}.
Proof.
  intros [(T2 & Hg & Hg2) HT]. destruct T as [|t0 T']; [contradiction|].
  destruct HT as (A1 & A2 & A3 & A4 & A5).
  unfold parse_pyspec. destruct T' as [|b T''].
  - rewrite A1, A2, A3, A4, Hg. cbn [bind]. fold (prec_stage T2). rewrite Hg2. reflexivity.
  - rewrite A5, A1, A2, A3, A4, Hg. cbn [bind]. fold (prec_stage T2). rewrite Hg2. reflexivity.
Qed.

Lemma py_format_str_spec fl T w p v : (fl = [] \/ fl = [60] \/ fl = [62]) -> tail_ok T w p 115 ->
  py_format_str (fl ++ T) v =
  Ok (pad (match fl with [a] => a | _ => 60 end) 32 (match w with Some x => x | None => 0 end) []
          (match p with Some n => zfirstn n v | None => v end)).
Proof.
  intros Hf HT. unfold py_format_str.
  destruct Hf as [->|[->| ->]]; cbn [app].
  - rewrite (parse_pyspec_plain _ _ _ _ HT). reflexivity.
  - rewrite (parse_pyspec_align 60 _ _ _ _ (or_introl eq_refl) HT). reflexivity.
  - rewrite (parse_pyspec_align 62 _ _ _ _ (or_intror eq_refl) HT). reflexivity.
Qed.

Definition str_specifiers : str := s2z "@sS".

Lemma python_format_str_op c (minus : bool) W P :
  In c str_specifiers -> P <> s2z "." -> P <> s2z ".0" -> P <> s2z ".*" ->
  python_format_string {| op_flags := if minus then s2z "-" else []; op_precision := P;
                          op_specifier := c; op_width := W |} =
  s2z "{0:" ++ ((if minus then [60] else match W with [] => [] | _ => [62] end) ++ P ++ W ++ s2z "s") ++ s2z "}".
Proof.
  intros Hc H1 H2 H3.
  assert (Hf : (c =? 100) = false /\ (c =? 80) = false /\ (c =? 112) = false /\ python_specifier c = 115).
  { cbn in Hc. repeat (destruct Hc as [Hc|Hc]; [subst c; repeat split|]). contradiction. }
  destruct Hf as (F1 & F2 & F3 & F4).
  unfold python_format_string; cbn [op_flags op_precision op_specifier op_width].
  rewrite F1, F2, F3, F4. cbn [andb].
  apply list_eqb_neq in H1, H2, H3. rewrite H1, H3. cbn match. rewrite H2.
  change (existsb (Z.eqb 115) (s2z "doxX")) with false. cbn [Z.eqb Pos.eqb].
  destruct minus; cbn [is_nil negb andb].
  - rewrite andb_false_r. cbn [replace_minus map s2z]. rewrite <- !app_assoc. reflexivity.
  - rewrite andb_true_r. destruct W; cbn [is_nil negb]; rewrite <- !app_assoc; reflexivity.
Qed.

Lemma string_width c minus W w t :
  In c str_specifiers -> width_is W w -> w <= max_size ->
  format_one {| op_flags := if minus : bool then s2z "-" else []; op_precision := [];
                op_specifier := c; op_width := W |} (fun spec => py_format_str spec t) =
  Ok (printf_str minus w None t).
Proof.
  intros Hc HW Hm.
  rewrite (format_one_spec _ _ ((if minus then [60] else match W with [] => [] | _ => [62] end) ++ [] ++ W ++ s2z "s")).
  2: { apply python_format_str_op; [exact Hc|discriminate|discriminate|discriminate]. }
  2, 3: rewrite !in_app_iff; pose proof (width_no_brace W w HW); destruct minus, W; cbn in *; intuition congruence.
  cbn [app].
  assert (HT : tail_ok (W ++ s2z "s") (match W with [] => None | _ => Some w end) None 115).
  { apply tail_ok_width; [exact HW|exact Hm|cbn; tauto]. }
  rewrite (py_format_str_spec _ _ _ _ t) with (2 := HT).
  2: { destruct minus; [tauto|]. destruct W; tauto. }
  rewrite (width_value W w HW). f_equal. unfold printf_str.
  destruct minus.
  - unfold pad. cbn [Z.eqb Pos.eqb app]. rewrite (len_nil (A := Z)).
    replace (Z.to_nat (Z.max 0 (w - 0 - len t))) with (Z.to_nat (w - len t)) by lia. reflexivity.
  - destruct HW as [[-> ->]|(Hn & _ & _)].
    + unfold pad. cbn [Z.eqb Pos.eqb app]. rewrite (len_nil (A := Z)). pose proof (len_nonneg t).
      replace (Z.to_nat (Z.max 0 (0 - 0 - len t))) with O by lia.
      replace (Z.to_nat (0 - len t)) with O by lia. cbn. apply app_nil_r.
    + destruct W; [discriminate|]. unfold pad. cbn [Z.eqb Pos.eqb app]. rewrite (len_nil (A := Z)).
      replace (Z.to_nat (Z.max 0 (w - 0 - len t))) with (Z.to_nat (w - len t)) by lia. reflexivity.
Qed.

Lemma string_precision c minus ds n t :
  In c str_specifiers -> parse_nat 10 ds = Some n -> Forall (fun c => 48 <= c <= 57) ds ->
  0 < n <= max_size ->
  format_one {| op_flags := if minus : bool then s2z "-" else []; op_precision := s2z "." ++ ds;
                op_specifier := c; op_width := [] |} (fun spec => py_format_str spec t) =
  Ok (printf_str minus 0 (Some n) t).
Proof.
  intros Hc Hn HF Hm.
  assert (Hds : ~ In 125 ds /\ ~ In 123 ds).
  { rewrite Forall_forall in HF. split; intros Hin; specialize (HF _ Hin); lia. }
  rewrite (format_one_spec _ _ ((if minus then [60] else []) ++ (46 :: ds) ++ [] ++ s2z "s")).
  2: { apply (python_format_str_op c minus [] (46 :: ds) Hc).
       - intros E. injection E as ->. discriminate.
       - intros E. injection E as ->. cbn in Hn. injection Hn as <-. lia.
       - intros E. injection E as ->. discriminate. }
  2, 3: rewrite !in_app_iff; destruct minus; cbn in *; intuition congruence.
  cbn [app].
  assert (HT : tail_ok (46 :: ds ++ s2z "s") None (Some n) 115).
  { apply (tail_ok_precision ds 115 n Hn HF); [lia|cbn; tauto]. }
  rewrite (py_format_str_spec _ _ _ _ t) with (2 := HT).
  2: { destruct minus; tauto. }
  f_equal. unfold printf_str. rewrite <- zfirstn_firstn.
  pose proof (len_nonneg (zfirstn n t)).
  unfold pad. rewrite (len_nil (A := Z)).
  replace (Z.to_nat (Z.max 0 (0 - 0 - len (zfirstn n t)))) with O by lia.
  replace (Z.to_nat (0 - len (zfirstn n t))) with O by lia.
  destruct minus; cbn; rewrite ?app_nil_r; reflexivity.
Qed.

(** ** Decoder names *)

Lemma white_space c : white c <-> is_space c = true.
Proof.
  unfold white, is_space. split.
  - intros H. cbn [app In] in H. repeat (destruct H as [H|H]; [subst c; reflexivity|]). destruct H.
  - intros H. cbn [app In]. repeat (apply Bool.orb_true_iff in H; destruct H as [H|H]); lia.
Qed.

Lemma lstrip_white a t : Forall white a -> (forall c r, t = c :: r -> ~ white c) -> lstrip_space (a ++ t) = t.
Proof.
  intros Ha Ht. induction Ha as [|c a Hc Ha IH].
  - cbn [app]. destruct t as [|c r]; [reflexivity|]. cbn [lstrip_space]. destruct (is_space c) eqn:E; [|reflexivity].
    exfalso. apply (Ht c r eq_refl). apply white_space. exact E.
  - cbn [app lstrip_space]. apply white_space in Hc. rewrite Hc. exact IH.
Qed.

Lemma lstrip_all a : Forall white a -> lstrip_space a = [].
Proof. intros Ha. rewrite <- (app_nil_r a). apply lstrip_white; [exact Ha|discriminate]. Qed.

Lemma strip_trimmed s t : trimmed s t -> strip s = t.
Proof.
  intros (a & b & -> & Ha & Hb & Hf & Hl). unfold strip. destruct t as [|c r].
  - cbn [app]. rewrite (lstrip_all (a ++ b)) by (apply Forall_app; split; assumption). reflexivity.
  - rewrite (lstrip_white a); [|exact Ha|].
    + rewrite rev_app_distr, (lstrip_white (rev b)); [apply rev_involutive|apply Forall_rev; exact Hb|].
      intros d q E. apply (Hl d (rev q)). apply (f_equal (@rev Z)) in E. rewrite rev_involutive in E. exact E.
    + intros d q E. injection E as <- _. apply (Hf c r eq_refl).
Qed.

Lemma trimmed_exists s : exists t, trimmed s t.
Proof.
  assert (A : forall x, exists a t, x = a ++ t /\ Forall white a /\ forall c r, t = c :: r -> ~ white c).
  { induction x as [|c x (a & t & -> & Ha & Ht)].
    - exists [], []. split; [reflexivity|]. split; [constructor|discriminate].
    - destruct (is_space c) eqn:E.
      + exists (c :: a), t. split; [reflexivity|]. split; [|exact Ht]. constructor; [apply white_space; exact E|exact Ha].
      + exists [], (c :: a ++ t). split; [reflexivity|]. split; [constructor|]. intros d r [= <- _] W.
        apply white_space in W. congruence. }
  destruct (A s) as (a & t & -> & Ha & Ht). destruct (A (rev t)) as (b & q & E & Hb & Hq).
  apply (f_equal (@rev Z)) in E. rewrite rev_involutive, rev_app_distr in E. subst t.
  exists (rev q), a, (rev b). split; [reflexivity|]. split; [exact Ha|]. split; [apply Forall_rev; exact Hb|]. split.
  - intros c r Ec. apply (Ht c (r ++ rev b)). rewrite Ec. reflexivity.
  - intros c r Ec. apply (Hq c (rev r)). apply (f_equal (@rev Z)) in Ec. rewrite rev_involutive, rev_app_distr in Ec. exact Ec.
Qed.

Lemma ignored_no_decoder n : ignored_decoder n = true <-> no_decoder n.
Proof.
  unfold ignored_decoder, no_decoder. rewrite Bool.orb_true_iff, existsb_exists. split.
  - intros [(x & Hx & E)|H].
    + left. apply list_eqb_eq in E. subst x. cbn [In] in Hx |- *. tauto.
    + right. apply starts_with_spec in H. exact H.
  - intros [H|H].
    + left. exists n. split; [cbn [In] in H |- *; tauto|apply list_eqb_eq; reflexivity].
    + right. apply starts_with_spec. exact H.
Qed.

Lemma decoders_in_filter l k : decoders_in l k -> filter (fun v => negb (ignored_decoder v)) l = k.
Proof.
  induction 1 as [|n l k Hn H IH|n l k Hn H IH]; cbn [filter]; [reflexivity| |].
  - apply ignored_no_decoder in Hn. rewrite Hn. exact IH.
  - destruct (ignored_decoder n) eqn:E; [apply ignored_no_decoder in E; contradiction|]. cbn [negb]. now rewrite IH.
Qed.

Lemma decoders_in_exists l : exists k, decoders_in l k.
Proof.
  induction l as [|n l (k & H)]; [exists []; constructor|]. destruct (ignored_decoder n) eqn:E.
  - exists k. apply di_skip; [apply ignored_no_decoder; exact E|exact H].
  - exists (n :: k). apply di_keep; [|exact H]. intros C. apply ignored_no_decoder in C. congruence.
Qed.

Lemma default_internal c d : default_decoder c d -> internal_decoder c = d.
Proof.
  intros H. inversion H as [c' Hc E1 E2|c' Hc E1 E2|c' Hc E1 E2|c' Hc E1 E2|c' Hc E1 E2|c' Hc E1 E2]; subst c' d.
  1-5: vm_compute in Hc; repeat (destruct Hc as [<-|Hc]; [reflexivity|]); destruct Hc.
  unfold internal_decoder.
  repeat match goal with |- context [existsb (Z.eqb c) ?l] =>
    destruct (existsb (Z.eqb c) l) eqn:?E; [exfalso; apply existsb_in in E; apply Hc; vm_compute in E |- *; tauto|clear E] end.
  destruct (Z.eqb_spec c 109) as [->|N]; [exfalso; apply Hc; vm_compute; tauto|reflexivity].
Qed.

Lemma default_exists c : exists d, default_decoder c d.
Proof.
  assert (D : forall l, {In c l} + {~ In c l}) by (intros l; apply in_dec, Z.eq_dec).
  destruct (D (s2z "s@P")) as [H1|H1]; [eexists; apply dd_string; exact H1|].
  destruct (D (s2z "fFeEgGaA")) as [H2|H2]; [eexists; apply dd_float; exact H2|].
  destruct (D (s2z "diD")) as [H3|H3]; [eexists; apply dd_signed; exact H3|].
  destruct (D (s2z "uUxXoOcp")) as [H4|H4]; [eexists; apply dd_unsigned; exact H4|].
  destruct (D (s2z "m")) as [H5|H5]; [eexists; apply dd_errno; exact H5|].
  exists []. apply dd_none. vm_compute in *. tauto.
Qed.

Lemma decoder_names_ok a c d : decoders_of a c d -> decoder_names a c = d.
Proof.
  intros H. inversion H as [c' d' Hd E1 E2 E3|items names c' d' Hne Hc Ht Hi Hd E1 E2 E3|items names c' n k Hne Hc Ht Hi E1 E2 E3]; subst.
  - unfold decoder_names. cbn [split_on map]. change (strip []) with (@nil Z). cbn. apply default_internal. exact Hd.
  - unfold decoder_names. rewrite split_join by assumption.
    assert (M : map strip items = names) by (clear -Ht; induction Ht as [|s t l q H _ IH]; [reflexivity|]; cbn [map]; rewrite (strip_trimmed _ _ H), IH; reflexivity).
    rewrite M, (decoders_in_filter _ _ Hi). apply default_internal. exact Hd.
  - unfold decoder_names. rewrite split_join by assumption.
    assert (M : map strip items = names) by (clear -Ht; induction Ht as [|s t l q H _ IH]; [reflexivity|]; cbn [map]; rewrite (strip_trimmed _ _ H), IH; reflexivity).
    rewrite M, (decoders_in_filter _ _ Hi). reflexivity.
Qed.

(** Every annotation has decoders. *)
Lemma decoders_exist a c : exists d, decoders_of a c d.
Proof.
  destruct (default_exists c) as [dd Hdd]. destruct a as [s|]; [|exists dd; constructor; exact Hdd].
  pose proof (join_split 44 s) as J. pose proof (split_on_nonempty 44 s) as Ne. pose proof (split_on_no_sep 44 s) as Ns.
  assert (T : exists names, Forall2 trimmed (split_on 44 s) names).
  { clear. induction (split_on 44 s) as [|x l (names & H)]; [exists []; constructor|]. destruct (trimmed_exists x) as [t Ht].
    exists (t :: names). constructor; assumption. }
  destruct T as [names Ht]. destruct (decoders_in_exists names) as [[|n k] Hk].
  - exists dd. rewrite <- J. apply (do_other _ names); assumption.
  - exists (n :: k). rewrite <- J. apply (do_names _ names); assumption.
Qed.

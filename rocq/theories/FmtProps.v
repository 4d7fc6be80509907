(** C38-C40: unified logging format strings. *)

From Verif Require Import Base BaseFacts StrModel StrFacts FmtModel FmtSpec FmtProofs.

(** C38: a format string that is a sequence of literal characters, "%%" and
    conversion specifications yields exactly those specifications in order, and
    formatting puts the values in their places, with the literal text unchanged and
    "%%" shown as "%". *)
Theorem C38_operators : forall l, toks_ok l ->
  let f := parse_format_string (toks_text l) in
  length (fm_operators f) = length (convs l) /\
  length (fm_decoders f) = length (convs l) /\
  forall i c, nth_error (convs l) i = Some c ->
    exists o, nth_error (fm_operators f) i = Some o /\
      op_flags o = cv_flags c /\ op_width o = opt_text (cv_width c) /\
      op_precision o = opt_text (cv_precision c) /\ op_specifier o = cv_specifier c.
Proof.
  intros l Hok f. destruct l as [|t l0].
  - unfold f. cbn. split; [reflexivity|]. split; [reflexivity|]. intros i c H. destruct i; discriminate.
  - unfold f. rewrite parse_toks by (try assumption; discriminate).
    cbn [fm_operators fm_decoders]. rewrite !map_length. split; [reflexivity|]. split; [reflexivity|].
    intros i c H. exists (conv_op c). split; [rewrite nth_error_map, H; reflexivity|].
    repeat split.
Qed.
Print Assumptions C38_operators.

(** Every conversion gets the decoders that its annotation names, or the one of its specifier. *)
Theorem C38_decoders : forall l i c d, toks_ok l -> nth_error (convs l) i = Some c ->
  decoders_of (cv_annotation c) (cv_specifier c) d ->
  nth_error (fm_decoders (parse_format_string (toks_text l))) i = Some d.
Proof.
  intros l i c d Hok Hc Hd. destruct l as [|t l0]; [destruct i; discriminate Hc|].
  rewrite parse_toks by (try assumption; discriminate). cbn [fm_decoders].
  rewrite nth_error_map, Hc. cbn [option_map]. rewrite (decoder_names_ok _ _ _ Hd). reflexivity.
Qed.
Print Assumptions C38_decoders.

(** Decoders are defined for every annotation and specifier. *)
Theorem C38_decoders_exist : forall a c, exists d, decoders_of a c d.
Proof. exact decoders_exist. Qed.
Print Assumptions C38_decoders_exist.

Theorem C38_format : forall l values, toks_ok l ->
  format_string (parse_format_string (toks_text l)) values = Ok (fill l values).
Proof. intros l values Hok. apply format_toks. exact Hok. Qed.
Print Assumptions C38_format.

(** Every string is such a sequence, so that formatting never fails. *)
Theorem C38_total : forall s, exists l, toks_ok l /\ toks_text l = s /\
  forall values, format_string (parse_format_string s) values = Ok (fill l values).
Proof.
  intros s. destruct (toks_exist s) as (l & Hok & Ht). exists l. split; [exact Hok|]. split; [exact Ht|].
  intros values. rewrite <- Ht. apply format_toks. exact Hok.
Qed.
Print Assumptions C38_total.

(** Text without a percent sign is not changed, whatever braces it contains. *)
Theorem C38_literal : forall s values, ~ In 37 s ->
  format_string (parse_format_string s) values = Ok s.
Proof.
  intros s values Hs.
  assert (H : toks_ok (map TChar s) /\ toks_text (map TChar s) = s /\ fill (map TChar s) values = s).
  { induction s as [|c s IH]; [split; [exact I|split; reflexivity]|].
    destruct IH as (H1 & H2 & H3); [intros Hin; apply Hs; right; exact Hin|].
    cbn [map toks_ok fill]. change (toks_text (TChar c :: map TChar s)) with (c :: toks_text (map TChar s)).
    rewrite H2, H3. split; [split; [|exact H1]|split; reflexivity].
    intros [(cv & r & _ & E)|(r & E)].
    - destruct (conv_text_cons cv) as [q Eq]. rewrite Eq in E. injection E as -> _. apply Hs. left. reflexivity.
    - injection E as -> _. apply Hs. left. reflexivity. }
  destruct H as (H1 & H2 & H3). rewrite <- H2 at 1. rewrite format_toks by exact H1. rewrite H3. reflexivity.
Qed.
Print Assumptions C38_literal.

Example C38_case :
  format_string (parse_format_string (s2z "{%{public, uuid_t}.16P} is %5llu%% of %-8s %, 5%zz"))
    [s2z "A"; s2z "{B}"; s2z "C"] = Ok (s2z "{A} is {B}% of C %, 5%zz") /\
  map op_specifier (fm_operators (parse_format_string (s2z "{%{public, uuid_t}.16P} is %5llu%% of %-8s %, 5%zz")))
    = s2z "Pus" /\
  fm_decoders (parse_format_string (s2z "{%{public, uuid_t}.16P} is %5llu"))
    = [[s2z "uuid_t"]; [s2z "internal:u"]].
Proof. repeat split; vm_compute; reflexivity. Qed.

(** C39: with fewer values than specifications each missing value is shown as
    "<decode: missing data>" and the text before it is unaffected. *)
Theorem C39_missing : forall pre c post values,
  toks_ok (pre ++ TConv c :: post) -> length (convs pre) = length values ->
  format_string (parse_format_string (toks_text (pre ++ TConv c :: post))) values =
  Ok (fill pre values ++ s2z "<decode: missing data>" ++ fill post []).
Proof.
  intros pre c post values Hok Hlen. rewrite format_toks by exact Hok. f_equal. clear Hok.
  revert values Hlen. induction pre as [|t pre IH]; intros values Hlen.
  - cbn in Hlen. destruct values; [|discriminate]. reflexivity.
  - destruct t as [d| |d]; cbn [app fill convs] in *.
    + f_equal. apply IH, Hlen.
    + f_equal. apply IH, Hlen.
    + destruct values as [|v vs]; [discriminate|]. rewrite <- app_assoc. f_equal. apply IH. cbn in Hlen. lia.
Qed.
Print Assumptions C39_missing.

Theorem C39_padding : forall s values k,
  (length values <= length (fm_operators (parse_format_string s)))%nat ->
  (k <= length (fm_operators (parse_format_string s)) - length values)%nat ->
  format_string (parse_format_string s) (values ++ repeat (s2z "<decode: missing data>") k) =
  format_string (parse_format_string s) values.
Proof.
  intros s values k H1 H2. unfold format_string.
  replace (pad_values (length (fm_operators (parse_format_string s))) (values ++ repeat (s2z "<decode: missing data>") k))
    with (pad_values (length (fm_operators (parse_format_string s))) values); [reflexivity|].
  unfold pad_values. rewrite <- app_assoc. f_equal.
  change (s2z "<decode: missing data>") with missing_data.
  rewrite app_length, repeat_length, <- repeat_app.
  f_equal. revert H1 H2. generalize (length (fm_operators (parse_format_string s))) as b. intros b.
  change str with (list Z). generalize (length values) as a. intros a. lia.
Qed.
Print Assumptions C39_padding.

Example C39_case :
  format_string (parse_format_string (s2z "%s=%d (%x)")) [s2z "key"] =
  Ok (s2z "key=<decode: missing data> (<decode: missing data>)").
Proof. vm_compute. reflexivity. Qed.

(** C40: integer conversions without precision print what C's printf prints. *)
Theorem C40_signed : forall F W w c value,
  In c (s2z "dDi") -> sign_ok (cf_sign F) -> cf_minus F && cf_zero F = false ->
  width_is W w -> w <= 9223372036854775807 -> In (len value) [1; 2; 4; 8] ->
  exists text,
    format_signed value (Some {| op_flags := flags_text F; op_precision := []; op_specifier := c; op_width := W |})
      = Ok text /\
    printf_int F w c (to_signed (length value) (le_int value)) text.
Proof.
  intros F W w c value Hc Hs Hmz HW Hm Hl.
  set (o := {| op_flags := flags_text F; op_precision := []; op_specifier := c; op_width := W |}).
  assert (Hci : In c int_specifiers) by (cbn in Hc |- *; tauto).
  unfold format_signed. apply existsb_in in Hl. rewrite Hl.
  rewrite (format_one_spec o _ _ (python_format_int o Hci eq_refl)).
  2, 3: rewrite !in_app_iff; pose proof (flags_no_brace F Hs); pose proof (width_no_brace W w HW);
        destruct (int_spec_facts c Hci) as (Hp & _ & _); cbn in Hp |- *; intuition congruence.
  apply py_format_int_printf; try assumption.
  - intros Hn. contradiction.
  - intros _. left. cbn in Hc |- *. tauto.
Qed.
Print Assumptions C40_signed.

Theorem C40_unsigned : forall F W w c value,
  In c (s2z "uUoOxX") -> cf_sign F = None -> cf_minus F && cf_zero F = false ->
  width_is W w -> w <= 9223372036854775807 -> In (len value) [1; 2; 4; 8] -> is_bytes value ->
  (cf_alt F = true -> In c (s2z "uU") \/ (In c (s2z "xX") /\ le_int value <> 0)) ->
  exists text,
    format_unsigned value (Some {| op_flags := flags_text F; op_precision := []; op_specifier := c; op_width := W |})
      = Ok text /\
    printf_int F w c (le_int value) text.
Proof.
  intros F W w c value Hc Hs Hmz HW Hm Hl Hb Ha.
  set (o := {| op_flags := flags_text F; op_precision := []; op_specifier := c; op_width := W |}).
  assert (Hci : In c int_specifiers) by (cbn in Hc |- *; tauto).
  assert (Hso : sign_ok (cf_sign F)) by (left; exact Hs).
  unfold format_unsigned. apply existsb_in in Hl. rewrite Hl.
  assert (Hsp : (le_int value =? 0) && list_eqb (op_flags o) (s2z "#") && (op_specifier o =? 120) = false).
  { destruct (Z.eqb_spec (le_int value) 0) as [E0|]; [|reflexivity].
    destruct (list_eqb (op_flags o) (s2z "#")) eqn:Ef; [|reflexivity].
    destruct (Z.eqb_spec (op_specifier o) 120) as [Ec|]; [|reflexivity].
    exfalso. apply list_eqb_eq in Ef. unfold o in *. cbn [op_flags op_specifier] in *. subst c.
    destruct (cf_alt F) eqn:Ea.
    - destruct (Ha eq_refl) as [G|[_ G]]; [cbn in G; intuition congruence|contradiction].
    - unfold flags_text in Ef. rewrite Hs, Ea in Ef. destruct (cf_minus F), (cf_zero F); discriminate. }
  rewrite Hsp.
  rewrite (format_one_spec o _ _ (python_format_int o Hci eq_refl)).
  2, 3: rewrite !in_app_iff; pose proof (flags_no_brace F Hso); pose proof (width_no_brace W w HW);
        destruct (int_spec_facts c Hci) as (Hp & _ & _); cbn in Hp |- *; intuition congruence.
  apply py_format_int_printf; try assumption.
  - intros _. split; [exact Hs|]. apply le_int_bounds. exact Hb.
  - intros E. destruct (Ha E) as [G|G]; [left; cbn in G |- *; tauto|right; exact G].
Qed.
Print Assumptions C40_unsigned.

(** "%#x" of zero is "0", as in C. *)
Theorem C40_alternate_zero : forall value,
  In (len value) [1; 2; 4; 8] -> le_int value = 0 ->
  format_unsigned value (Some {| op_flags := s2z "#"; op_precision := []; op_specifier := 120; op_width := [] |})
    = Ok (s2z "0").
Proof.
  intros value Hl H0. unfold format_unsigned. apply existsb_in in Hl. rewrite Hl, H0. reflexivity.
Qed.
Print Assumptions C40_alternate_zero.

(** String conversions with a width, or with a precision. *)
Theorem C40_strings : forall decode value t c minus W w,
  value <> [] -> decode value = Some t -> In c (s2z "@sS") ->
  width_is W w -> w <= 9223372036854775807 ->
  format_text decode value
    (Some {| op_flags := if minus : bool then s2z "-" else []; op_precision := []; op_specifier := c; op_width := W |})
    = Ok (printf_str minus w None (rstrip 0 t)).
Proof.
  intros decode value t c minus W w Hv Hd Hc HW Hm. unfold format_text.
  destruct value; [congruence|]. rewrite Hd. apply string_width; assumption.
Qed.
Print Assumptions C40_strings.

Theorem C40_strings_precision : forall decode value t c minus ds n,
  value <> [] -> decode value = Some t -> In c (s2z "@sS") ->
  parse_nat 10 ds = Some n -> Forall (fun c => 48 <= c <= 57) ds -> 0 < n <= 9223372036854775807 ->
  format_text decode value
    (Some {| op_flags := if minus : bool then s2z "-" else []; op_precision := s2z "." ++ ds;
             op_specifier := c; op_width := [] |})
    = Ok (printf_str minus 0 (Some n) (rstrip 0 t)).
Proof.
  intros decode value t c minus ds n Hv Hd Hc Hn HF Hm. unfold format_text.
  destruct value; [congruence|]. rewrite Hd. apply string_precision; assumption.
Qed.
Print Assumptions C40_strings_precision.

(** Floating-point conversions with a width or a precision, and without "-": the
    Python specification denotes the same flags, width and precision. *)
Theorem C40_floats : forall F W w c,
  In c (s2z "eEfFgG") -> sign_ok (cf_sign F) -> cf_minus F = false ->
  width_is W w -> w <= 9223372036854775807 ->
  exists spec,
    python_format_string {| op_flags := flags_text F; op_precision := []; op_specifier := c; op_width := W |}
      = s2z "{0:" ++ spec ++ s2z "}" /\
    parse_pyspec 62 spec =
      Ok {| ps_fill := if cf_zero F then 48 else 32; ps_align := if cf_zero F then Some 61 else None;
            ps_sign := cf_sign F; ps_alt := cf_alt F;
            ps_width := match W with [] => None | _ => Some w end;
            ps_precision := None; ps_type := Some c |}.
Proof.
  intros F W w c Hc Hs Hmi HW Hm.
  assert (Hr : replace_minus (flags_text F) = flags_text F).
  { unfold flags_text. rewrite Hmi. destruct Hs as [->|[->| ->]]; destruct (cf_alt F), (cf_zero F); reflexivity. }
  exists (replace_minus (flags_text F) ++ W ++ [c]). split.
  - rewrite Hr. unfold python_format_string; cbn [op_flags op_precision op_specifier op_width].
    assert (Hf : (c =? 100) = false /\ (c =? 80) = false /\ (c =? 112) = false /\ python_specifier c = c /\
                 existsb (Z.eqb c) (s2z "doxX") = false /\ (c =? 115) = false).
    { cbn in Hc. repeat (destruct Hc as [Hc|Hc]; [subst c; repeat split|]). contradiction. }
    destruct Hf as (F1 & F2 & F3 & F4 & F5 & F6). rewrite F1, F2, F3, F4, F5, F6. cbn [andb].
    change (list_eqb [] (s2z ".")) with false. change (list_eqb [] (s2z ".*")) with false. cbn match.
    rewrite <- !app_assoc. reflexivity.
  - assert (HT : tail_ok (W ++ [c]) (match W with [] => None | _ => Some w end) None c).
    { apply tail_ok_width; [exact HW|exact Hm|cbn in Hc |- *; tauto]. }
    rewrite (parse_pyspec_flags F _ _ _ _ Hs HT). rewrite Hmi. reflexivity.
Qed.
Print Assumptions C40_floats.

Lemma python_format_float F P W c :
  In c (s2z "eEfFgG") -> decimal P ->
  python_format_string {| op_flags := flags_text F; op_precision := s2z "." ++ P; op_specifier := c; op_width := W |}
    = s2z "{0:" ++ (flags_text F ++ 46 :: (P ++ W) ++ [c]) ++ s2z "}".
Proof.
  intros Hc [Hn HP].
  unfold python_format_string; cbn [op_flags op_precision op_specifier op_width].
  assert (Hf : (c =? 100) = false /\ (c =? 80) = false /\ (c =? 112) = false /\ python_specifier c = c /\
               existsb (Z.eqb c) (s2z "doxX") = false /\ (c =? 115) = false).
  { cbn in Hc. repeat (destruct Hc as [Hc|Hc]; [subst c; repeat split|]). contradiction. }
  destruct Hf as (F1 & F2 & F3 & F4 & F5 & F6). rewrite F1, F2, F3, F4, F5, F6. cbn [andb].
  assert (E1 : list_eqb (s2z "." ++ P) (s2z ".") = false).
  { apply list_eqb_neq. intros E. injection E as ->. congruence. }
  assert (E2 : list_eqb (s2z "." ++ P) (s2z ".*") = false).
  { apply list_eqb_neq. intros E. injection E as ->. inversion HP; subst. lia. }
  rewrite E1, E2. rewrite <- !app_assoc. cbn [s2z app]. rewrite <- !app_assoc. reflexivity.
Qed.

Theorem C40_floats_precision : forall F P n c,
  In c (s2z "eEfFgG") -> sign_ok (cf_sign F) -> cf_minus F = false ->
  decimal P -> parse_nat 10 P = Some n -> n <= 9223372036854775807 ->
  exists spec,
    python_format_string {| op_flags := flags_text F; op_precision := s2z "." ++ P; op_specifier := c; op_width := [] |}
      = s2z "{0:" ++ spec ++ s2z "}" /\
    parse_pyspec 62 spec =
      Ok {| ps_fill := if cf_zero F then 48 else 32; ps_align := if cf_zero F then Some 61 else None;
            ps_sign := cf_sign F; ps_alt := cf_alt F; ps_width := None;
            ps_precision := Some n; ps_type := Some c |}.
Proof.
  intros F P n c Hc Hs Hmi HP Hn Hm.
  assert (Hr : replace_minus (flags_text F) = flags_text F).
  { unfold flags_text. rewrite Hmi. destruct Hs as [->|[->| ->]]; destruct (cf_alt F), (cf_zero F); reflexivity. }
  exists (flags_text F ++ 46 :: (P ++ []) ++ [c]). split; [apply python_format_float; assumption|].
  rewrite app_nil_r. rewrite <- Hr.
  assert (HT : tail_ok (46 :: P ++ [c]) None (Some n) c).
  { apply tail_ok_precision; [exact Hn|apply HP|exact Hm|cbn in Hc |- *; tauto]. }
  rewrite (parse_pyspec_flags F _ _ _ _ Hs HT). rewrite Hmi. reflexivity.
Qed.
Print Assumptions C40_floats_precision.

(** With a width and a precision the two are emitted in the wrong order: Python
    reads the digits of the precision followed by those of the width as the
    precision, and no width. *)
Theorem C40_width_and_precision_refuted : forall F P W n c,
  In c (s2z "eEfFgG") -> sign_ok (cf_sign F) -> cf_minus F = false ->
  decimal P -> decimal W -> parse_nat 10 (P ++ W) = Some n -> n <= 9223372036854775807 ->
  exists spec p,
    python_format_string {| op_flags := flags_text F; op_precision := s2z "." ++ P; op_specifier := c; op_width := W |}
      = s2z "{0:" ++ spec ++ s2z "}" /\
    parse_pyspec 62 spec = Ok p /\ ps_width p = None /\ ps_precision p = Some n.
Proof.
  intros F P W n c Hc Hs Hmi HP HW Hn Hm.
  assert (Hr : replace_minus (flags_text F) = flags_text F).
  { unfold flags_text. rewrite Hmi. destruct Hs as [->|[->| ->]]; destruct (cf_alt F), (cf_zero F); reflexivity. }
  exists (flags_text F ++ 46 :: (P ++ W) ++ [c]). eexists.
  split; [apply python_format_float; assumption|].
  rewrite <- Hr.
  assert (HT : tail_ok (46 :: (P ++ W) ++ [c]) None (Some n) c).
  { apply tail_ok_precision; [exact Hn| |exact Hm|cbn in Hc |- *; tauto].
    apply Forall_app. split; [apply HP|apply HW]. }
  rewrite (parse_pyspec_flags F _ _ _ _ Hs HT). repeat split.
Qed.
Print Assumptions C40_width_and_precision_refuted.

(** Further deviations from C, each with the text that is produced: a precision of
    an integer is ignored, "%*d" raises ValueError, "%#5x" of zero has no padding, the
    flags "+-" pad with "+", "-0" pads with zeros on the right, "%10.3s" is not
    truncated, and "%10p" pads between "0x" and the digits. *)
Theorem C40_deviations_refuted :
  let op s := nth 0 (fm_operators (parse_format_string s))
    {| op_flags := []; op_precision := []; op_specifier := 0; op_width := [] |} in
  python_format_string (op (s2z "%5.2f")) = s2z "{0:.25f}" /\
  python_format_string (op (s2z "%-8f")) = s2z "{0:-8f}" /\
  format_unsigned [1] (Some (op (s2z "%.8x"))) = Ok (s2z "1") /\
  format_signed [5] (Some (op (s2z "%*d"))) = Err ValueError /\
  format_unsigned [0] (Some (op (s2z "%#5x"))) = Ok (s2z "0") /\
  format_signed [5] (Some (op (s2z "%+-5d"))) = Ok (s2z "5++++") /\
  format_signed [5] (Some (op (s2z "%-05d"))) = Ok (s2z "50000") /\
  format_text Some (s2z "abcdef") (Some (op (s2z "%10.3s"))) = Ok (s2z "abcdef") /\
  format_unsigned [171] (Some (op (s2z "%6p"))) = Ok (s2z "0x    ab").
Proof. repeat split; vm_compute; reflexivity. Qed.
Print Assumptions C40_deviations_refuted.

Example C40_case :
  format_signed [254; 255] (Some {| op_flags := s2z "0"; op_precision := []; op_specifier := 100; op_width := s2z "6" |})
    = Ok (s2z "-00002") /\
  format_unsigned [171] (Some {| op_flags := s2z "-#"; op_precision := []; op_specifier := 88; op_width := s2z "6" |})
    = Ok (s2z "0XAB  ") /\
  format_text Some (s2z "abc") (Some {| op_flags := []; op_precision := []; op_specifier := 115; op_width := s2z "5" |})
    = Ok (s2z "  abc").
Proof. repeat split; vm_compute; reflexivity. Qed.

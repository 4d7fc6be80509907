(** Properties C09 - C16, C37, C70: text renderings, paths, debug definitions. *)

From Verif Require Import Base BaseFacts BitFacts StrModel StrFacts TextModel TextSpec TextProofs.

(** C09 *)
Theorem C09_hexdump_decodes : forall data,
  is_bytes data -> decode_hexdump (fst (format_hexdump data)) = Some data.
Proof. exact decode_hexdump_format. Qed.
Print Assumptions C09_hexdump_decodes.

Theorem C09_hexdump_lossless : forall a b,
  is_bytes a -> is_bytes b -> fst (format_hexdump a) = fst (format_hexdump b) -> a = b.
Proof. exact format_hexdump_inj. Qed.
Print Assumptions C09_hexdump_lossless.

(** Five equal blocks and a short one: the dump has an abbreviation. *)
Example C09_case :
  is_bytes (repeat 65 85) /\
  split_on 10 (fst (format_hexdump (repeat 65 85))) =
  map s2z ["0x00000000  41 41 41 41 41 41 41 41  41 41 41 41 41 41 41 41  AAAAAAAAAAAAAAAA";
           "...";
           "0x00000050  41 41 41 41 41                                    AAAAA"; ""; ""]%string.
Proof. split; [apply is_bytes_forallb; reflexivity|reflexivity]. Qed.

(** C10: a dump is a sequence of items; [items_from] says which blocks are printed. *)
Theorem C10_hexdump_layout : forall data,
  is_bytes data ->
  exists items lines,
    items_from data (Z.to_nat ((len data + 15) / 16)) 0 items /\
    Forall2 (item_line data) items lines /\
    format_hexdump data = (join [10] (lines ++ [[]; []]), true).
Proof. exact hexdump_items. Qed.
Print Assumptions C10_hexdump_layout.

(** The first and the last block are always printed. *)
Theorem C10_hexdump_first_last_printed : forall data n items,
  items_from data n 0 items -> (0 < n)%nat ->
  (exists l, items = IBlock 0 :: l) /\ exists l, items = l ++ [IBlock (n - 1)].
Proof.
  intros data n items H Hn. split.
  - inversion H; subst; try lia. eexists; reflexivity.
  - assert (G : forall k it, items_from data n k it -> (k < n)%nat -> exists l, it = l ++ [IBlock (n - 1)]).
    { clear. intros k it H. induction H as [|k l Hk H IH|k j l Hk0 Hkj Heq H IH]; intros Hn; [lia| |].
      - destruct (Nat.eq_dec (S k) n) as [E|E].
        + rewrite E in H. inversion H; subst; try lia. exists []. cbn. do 2 f_equal. lia.
        + destruct IH as [l' ->]; [lia|]. exists (IBlock k :: l'). reflexivity.
      - destruct (Nat.eq_dec (S j) n) as [E|E].
        + rewrite E in H. inversion H; subst; try lia. exists [IGap]. cbn. do 3 f_equal. lia.
        + destruct IH as [l' ->]; [lia|]. exists (IGap :: IBlock j :: l'). reflexivity. }
    exact (G 0%nat items H Hn).
Qed.
Print Assumptions C10_hexdump_first_last_printed.

Example C10_case : items_from (repeat 65 85) 6 0 [IBlock 0; IGap; IBlock 5].
Proof.
  constructor; [lia|]. apply items_gap; [lia|lia| |constructor].
  intros i Hi. do 5 (destruct i as [|i]; [try lia; reflexivity|]). lia.
Qed.

(** C11 *)
Theorem C11_decimal_parses_back : forall n, parse_int 10 (fst (format_decimal n)) = Some n.
Proof. intros n. apply parse_fmt_int. lia. Qed.
Print Assumptions C11_decimal_parses_back.

Theorem C11_hexadecimal_parses_back : forall w n,
  exists digits, fst (format_hex w n) = [48; 120] ++ digits /\
    parse_int 16 digits = Some n /\ w <= len digits.
Proof.
  intros w n. exists (fmt_x w n). split; [reflexivity|]. split.
  - apply parse_fmt_int. lia.
  - apply fmt_int_width.
Qed.
Print Assumptions C11_hexadecimal_parses_back.

(** Values that fit the width use exactly that many digits. *)
Theorem C11_hexadecimal_exact_width : forall w n,
  1 <= w -> 0 <= n < 16 ^ w -> len (fst (format_hex w n)) = 2 + w.
Proof.
  intros w n Hw Hn. unfold format_hex. cbn [fst]. rewrite len_app.
  unfold fmt_x. rewrite fmt_int_exact_width by lia. reflexivity.
Qed.
Print Assumptions C11_hexadecimal_exact_width.

Theorem C11_formats_injective : forall w a b,
  (format_decimal a = format_decimal b -> a = b) /\
  (format_hex w a = format_hex w b -> a = b) /\
  (format_offset a = format_offset b -> a = b).
Proof.
  intros w a b. repeat split; intros E.
  - unfold format_decimal in E. injection E as E. apply fmt_int_inj in E; [exact E|lia].
  - unfold format_hex in E. injection E as E. apply fmt_int_inj in E; [exact E|lia].
  - unfold format_offset in E. apply (f_equal (split_on 32)) in E.
    assert (H : forall n t, split_on 32 (fmt_d n ++ 32 :: t) = fmt_d n :: split_on 32 t).
    { intros n t. apply split_on_app. apply fmt_int_not_in; [lia|lia|unfold is_digit_char; lia]. }
    cbn [app] in E. rewrite !H in E. injection E as E _. apply fmt_int_inj in E; [exact E|lia].
Qed.
Print Assumptions C11_formats_injective.

Example C11_case :
  fst (format_hex 8 4660) = s2z "0x00001234" /\ fst (format_hex 2 4660) = s2z "0x1234" /\
  fst (format_hex 4 (-5)) = s2z "0x-005" /\ format_offset 255 = s2z "255 (0x000000ff)" /\
  1 <= 8 /\ 0 <= 4660 < 16 ^ 8.
Proof. repeat split; vm_compute; congruence. Qed.

(** C12 *)
Theorem C12_ipv4_lossless : forall a b s,
  fst (format_ipv4 a) = Some s -> fst (format_ipv4 b) = Some s -> a = b.
Proof. exact ipv4_inj. Qed.
Print Assumptions C12_ipv4_lossless.

Theorem C12_ipv6_lossless : forall a b s,
  is_bytes a -> is_bytes b ->
  fst (format_ipv6 a) = Some s -> fst (format_ipv6 b) = Some s -> a = b.
Proof. exact ipv6_inj. Qed.
Print Assumptions C12_ipv6_lossless.

Theorem C12_ipv6_groups : forall l,
  is_bytes l -> len l = 16 ->
  exists groups, fst (format_ipv6 l) = Some (join [58] groups) /\ length groups = 8%nat /\
                 Forall (fun g => length g = 4%nat /\ Forall is_digit_char g) groups.
Proof. exact ipv6_group_width. Qed.
Print Assumptions C12_ipv6_groups.

(** The text is read back octet by octet, in network order. *)
Theorem C12_ipv4_decodes : forall l s,
  is_bytes l -> fst (format_ipv4 l) = Some s -> map (parse_nat 10) (split_on 46 s) = map Some l.
Proof.
  intros l s Hl. unfold format_ipv4. destruct (Z.eqb_spec (len l) 4) as [E|]; [|discriminate]. cbn [fst].
  intros H. injection H as <-. apply parse_join_fmt; [lia|unfold is_digit_char; lia|destruct l; discriminate|].
  eapply Forall_impl; [|exact Hl]. intros b [B _]. exact B.
Qed.
Print Assumptions C12_ipv4_decodes.

Theorem C12_ipv6_decodes : forall l s,
  is_bytes l -> fst (format_ipv6 l) = Some s ->
  exists groups, map (parse_nat 16) (split_on 58 s) = map Some groups /\
                 l = flat_map (fun g => [g / 256; g mod 256]) groups.
Proof.
  intros l s Hl. unfold format_ipv6. destruct (Z.eqb_spec (len l) 16) as [E|]; [|discriminate]. cbn [fst].
  intros H. injection H as <-. exists (octet_pairs l).
  assert (G : forall n (l : list Z), (length l = 2 * n)%nat -> is_bytes l ->
            Forall (fun n => 0 <= n) (octet_pairs l) /\
            l = flat_map (fun g => [g / 256; g mod 256]) (octet_pairs l)).
  { clear. induction n as [|n IH]; intros l Hn Hl.
    - destruct l; [split; [constructor|reflexivity]|discriminate].
    - destruct l as [|a [|b l]]; try (cbn in Hn; lia).
      pose proof (Forall_inv Hl) as Ha. pose proof (Forall_inv (Forall_inv_tail Hl)) as Hb.
      destruct (IH l) as [F E]; [cbn in Hn; lia|exact (Forall_inv_tail (Forall_inv_tail Hl))|].
      unfold is_byte in *. cbn [octet_pairs flat_map app].
      rewrite (lor_shiftl a b 8) by lia. change (2 ^ 8) with 256. split.
      + constructor; [lia|exact F].
      + rewrite <- E. f_equal; [lia|]. f_equal. lia. }
  destruct (G 8%nat l) as [F El]; [unfold len in E; lia|exact Hl|].
  split; [|exact El]. apply parse_join_fmt; [lia|unfold is_digit_char; lia| |exact F].
  intros C. rewrite C in El. rewrite El in E. discriminate.
Qed.
Print Assumptions C12_ipv6_decodes.

Theorem C12_other_lengths_rejected : forall l,
  (fst (format_ipv4 l) = None <-> len l <> 4) /\ (fst (format_ipv6 l) = None <-> len l <> 16).
Proof. intros l. split; [apply ipv4_none|apply ipv6_none]. Qed.
Print Assumptions C12_other_lengths_rejected.

Example C12_case :
  fst (format_ipv4 [192; 168; 0; 1]) = Some (s2z "192.168.0.1") /\
  fst (format_ipv6 [254;128;0;0;0;0;0;0;0;0;0;0;0;0;0;1]) =
  Some (s2z "fe80:0000:0000:0000:0000:0000:0000:0001").
Proof. split; reflexivity. Qed.

(** C13 *)
Theorem C13_stream_per_byte : forall s,
  is_bytes s -> format_stream s = flat_map stream_char s.
Proof. exact format_stream_spec. Qed.
Print Assumptions C13_stream_per_byte.

Theorem C13_stream_lossless_without_backslash : forall a b,
  is_bytes a -> is_bytes b -> ~ In 92 a -> ~ In 92 b -> format_stream a = format_stream b -> a = b.
Proof. exact format_stream_inj. Qed.
Print Assumptions C13_stream_lossless_without_backslash.

Theorem C13_stream_lossless_refuted :
  exists a b, is_bytes a /\ is_bytes b /\ a <> b /\ format_stream a = format_stream b.
Proof.
  exists [0], [92; 120; 48; 48].
  repeat split; [apply is_bytes_forallb; reflexivity|apply is_bytes_forallb; reflexivity|discriminate].
Qed.
Print Assumptions C13_stream_lossless_refuted.

Example C13_case : format_stream [65; 10; 127; 254; 255; 66] = s2z "A\x0a\x7f\xfe" ++ [255; 66].
Proof. reflexivity. Qed.

(** C14 *)
Theorem C14_structure_text : forall l,
  Forall (fun a => a_description a <> None) l ->
  exists texts tail,
    format_structure l = Ok (concat texts ++ tail) /\
    Forall2 (fun p t => format_attribute (a_description (fst p)) (a_callback (fst p)) (snd p) = Ok t)
      (present l) texts /\
    (tail = [10] \/ (tail = [] /\ exists t0 ts, texts = ts ++ [t0] /\ exists x, t0 = x ++ [10; 10])).
Proof. exact format_structure_spec. Qed.
Print Assumptions C14_structure_text.

(** Every entry starts with its description and contains the formatted value. *)
Theorem C14_entry_shape : forall d cb v t,
  format_attribute (Some d) cb v = Ok t ->
  exists rest, t = d ++ rest /\
    ((exists value, rest = alignment_string d ++ [58; 32] ++ value ++ [10]) \/
     (exists value, In 10 value /\
        (rest = [58; 10] ++ value \/ rest = alignment_string d ++ [58; 32] ++ value))).
Proof. exact format_attribute_shape. Qed.
Print Assumptions C14_entry_shape.

Definition C14_attrs : list dattr :=
  [mkattr (Some (s2z "Signature")) None (Some (DObj (s2z "5")));
   mkattr (Some (s2z "Absent")) None None;
   mkattr (Some (s2z "Data")) (Some (fun _ => CTuple (DStr (s2z "x" ++ [10; 10])) true))
     (Some (DStr (s2z "x")))].

Example C14_case :
  Forall (fun a => a_description a <> None) C14_attrs /\
  format_structure C14_attrs =
  Ok (s2z "Signature" ++ repeat 9 8 ++ s2z ": 5" ++ [10] ++ s2z "Data:" ++ [10] ++ s2z "x" ++ [10; 10]).
Proof. split; [repeat constructor; discriminate|reflexivity]. Qed.

(** The final blank line is missing when the last value has several lines and does not end
    with a line break. *)
Theorem C14_final_blank_line_refuted :
  exists l t, Forall (fun a => a_description a <> None) l /\ format_structure l = Ok t /\
              ends_blank t = false.
Proof.
  exists [mkattr (Some (s2z "D")) None (Some (DStr [97; 10; 98]))]. eexists.
  split; [repeat constructor; discriminate|]. split; reflexivity.
Qed.
Print Assumptions C14_final_blank_line_refuted.

(** C15 *)
Theorem C15_split_of_join : forall l,
  Forall (fun s => s <> [] /\ ~ In 47 s) l -> split_path (join_path l) = l.
Proof. exact split_join_path. Qed.
Print Assumptions C15_split_of_join.

Theorem C15_split_segments_proper : forall path,
  Forall (fun s => s <> [] /\ ~ In 47 s) (split_path path).
Proof. exact split_path_segments. Qed.
Print Assumptions C15_split_segments_proper.

Theorem C15_split_join_idempotent : forall path,
  split_path (join_path (split_path path)) = split_path path.
Proof. exact split_join_split. Qed.
Print Assumptions C15_split_join_idempotent.

Theorem C15_split_compositional : forall a b,
  split_path (a ++ 47 :: b) = split_path a ++ split_path b.
Proof. exact split_path_sep. Qed.
Print Assumptions C15_split_compositional.

Example C15_case :
  split_path (s2z "//private/var//db/") = map s2z ["private"; "var"; "db"]%string /\
  join_path (map s2z ["private"; "var"; "db"]%string) = s2z "/private/var/db".
Proof. split; reflexivity. Qed.

(** C16 *)
Theorem C16_custom_formats : forall custom name,
  resolve_callback custom (s2z "custom:" ++ name) = assoc_str name custom.
Proof. exact resolve_custom. Qed.
Print Assumptions C16_custom_formats.

(** Every accepted built-in format has a callback, except "hexadecimal". *)
Theorem C16_builtin_formats : forall custom f,
  In f supported_formats -> (resolve_callback custom f = None <-> f = s2z "hexadecimal").
Proof.
  intros custom f H. cbn [supported_formats map In] in H.
  repeat (destruct H as [<-|H];
    [vm_compute; split; intros E; solve [reflexivity|discriminate E|congruence]|]).
  contradiction.
Qed.
Print Assumptions C16_builtin_formats.

Theorem C16_debug_information : forall custom d m l,
  debug_information custom d = Ok (m, l) ->
  m = y_map d /\
  l = map (fun a => (y_name a, y_description a, resolve_callback custom (y_format a))) (y_attributes d).
Proof.
  intros custom d m l. unfold debug_information.
  destruct (read_definition d) as [r|] eqn:E; cbn [bind]; [|discriminate].
  apply read_definition_ok in E. destruct E as [_ ->]. injection 1 as <- <-. auto.
Qed.
Print Assumptions C16_debug_information.

Definition C16_def : ydef :=
  mkydef [s2z "data_type_map"; s2z "attributes"] (s2z "header")
    [mkyattr (s2z "signature") (s2z "Signature") (s2z "hexadecimal_8digits");
     mkyattr (s2z "time") (s2z "Time") (s2z "custom:posix_time");
     mkyattr (s2z "x") (s2z "X") (s2z "hexadecimal")].

Example C16_case :
  debug_information [(s2z "posix_time", s2z "_FormatIntegerAsPosixTime")] C16_def =
  Ok (s2z "header",
      [(s2z "signature", s2z "Signature", Some (s2z "_FormatIntegerAsHexadecimal8"));
       (s2z "time", s2z "Time", Some (s2z "_FormatIntegerAsPosixTime"));
       (s2z "x", s2z "X", None)]).
Proof. reflexivity. Qed.

(** C37: JoinPath accepts one argument besides [self]; the call of ParseDirectory passes
    two (chrome_cache.py:668). *)
Theorem C37_join_path_two_arguments : forall a b, call_join_path [a; b] = Err TypeError.
Proof. reflexivity. Qed.
Print Assumptions C37_join_path_two_arguments.

(** C70 *)
Theorem C70_definition_accepted_iff_good : forall d r,
  read_definition d = Ok r <-> good_def d /\ r = (y_map d, y_attributes d).
Proof. exact read_definition_ok. Qed.
Print Assumptions C70_definition_accepted_iff_good.

Theorem C70_definition_rejection : forall d e, read_definition d = Err e -> e = ParseError.
Proof. exact read_definition_err. Qed.
Print Assumptions C70_definition_rejection.

Example C70_case :
  read_definition C16_def = Ok (y_map C16_def, y_attributes C16_def) /\
  read_definition (mkydef [s2z "data_type_map"] (s2z "x") []) = Err ParseError.
Proof. split; reflexivity. Qed.

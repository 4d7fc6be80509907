(** Properties of the CUPS Internet Printing Protocol (IPP) file reader. *)

From Verif Require Import Base BaseFacts CoreModel CoreProofs VarModel VarFacts SeqModel SeqSpec SeqFacts CpioModel DictModel IppModel IppSpec IppProofs.

(** *** C61: CUPS IPP attribute groups *)

Lemma header_iff content : is_bytes content ->
  ((exists vs, read_struct content [FS BE 1; FS BE 1; FS BE 2; FS BE 4] 0 = Ok vs) <-> 8 <= len content).
Proof.
  intros Hb. assert (W : Forall fkind_wf [FS BE 1; FS BE 1; FS BE 2; FS BE 4]) by (apply fs_wf; repeat constructor; tauto). split.
  - intros [vs E]. apply (read_struct_iff _ _ _ _ Hb W ltac:(cbn; lia)) in E as [S F]. apply stored_at_inside in S.
    assert (L : len (enc_struct [FS BE 1; FS BE 1; FS BE 2; FS BE 4] vs) = 8); [|lia].
    vals F. reflexivity.
  - intros L. apply read_struct_exists; [lia|]. change (Z.of_nat (struct_size [FS BE 1; FS BE 1; FS BE 2; FS BE 4])) with 8. lia.
Qed.

(** A file is read exactly if eight bytes of header are followed by attributes and delimiters up
    to an end-of-attributes tag; what is read are these items in their order. *)
Theorem C61_file : forall utf8 decode rfc2579 cs content items cs' fuel, is_bytes content -> (length content < fuel)%nat ->
  (read_ipp fuel utf8 decode rfc2579 cs content = Done (Ok (items, cs')) <->
   exists header d rest, content = header ++ d ++ rest /\ len header = 8 /\ ipp_items utf8 decode rfc2579 cs items cs' d).
Proof.
  intros utf8 decode rfc2579 cs content items cs' fuel Hb Hf. unfold read_ipp. split.
  - destruct (read_struct content _ 0) as [vs|] eqn:E; [|discriminate]. intros G.
    assert (L : 8 <= len content) by (apply (header_iff content Hb); eauto).
    apply group_sound in G as (d & S & I); [|exact Hb|lia]. destruct S as (pre & post & Ec & Lp).
    exists pre, d, post. split; [exact Ec|]. split; [exact Lp|exact I].
  - intros (header & d & rest & -> & L & I).
    destruct (proj2 (header_iff (header ++ d ++ rest) Hb)) as [vs ->]; [rewrite !len_app; pose proof (len_nonneg d); pose proof (len_nonneg rest); lia|].
    eapply group_complete; [exact Hb|exact I| |].
    + exists header, rest. split; [reflexivity|exact L].
    + rewrite !app_length in Hf. lia.
Qed.
Print Assumptions C61_file.

(** Reading any file ends. *)
Theorem C61_ends : forall utf8 decode rfc2579 cs content, is_bytes content ->
  exists r, read_ipp (S (length content)) utf8 decode rfc2579 cs content = Done r.
Proof.
  intros utf8 decode rfc2579 cs content Hb. unfold read_ipp. destruct (read_struct content _ 0) as [vs|e] eqn:E; [|eauto].
  assert (L : 8 <= len content) by (apply (header_iff content Hb); eauto).
  pose proof (group_ends utf8 decode rfc2579 content Hb (S (length content)) cs 8 ltac:(lia) ltac:(unfold len; lia)) as G.
  destruct (ipp_group _ _ _ _ _ _ _); [eauto|contradiction].
Qed.
Print Assumptions C61_ends.

(** A failed read raises ParseError, UnicodeDecodeError, or what decoding text or making a date
    raised. *)
Theorem C61_errors : forall fuel utf8 decode rfc2579 cs content e, is_bytes content ->
  read_ipp fuel utf8 decode rfc2579 cs content = Done (Err e) ->
  e = ParseError \/ e = UnicodeDecodeError \/ (exists cs d, decode cs d = Err e) \/ (exists l, rfc2579 l = Err e).
Proof.
  intros fuel utf8 decode rfc2579 cs content e Hb. unfold read_ipp. destruct (read_struct content _ 0) as [vs|e'] eqn:E.
  - intros G. exact (group_errs utf8 decode rfc2579 content Hb fuel cs 8 e ltac:(lia) G).
  - intros H. injection H as <-. left. eapply (errs_read_struct (eq ParseError)) in E; [symmetry; exact E|reflexivity|lia].
Qed.
Print Assumptions C61_errors.

Definition ipp_example_charset := [71; 0; 7] ++ [99; 104; 97; 114; 115; 101; 116] ++ [0; 5] ++ [117; 116; 102; 45; 56].

(** Two values of one attribute, the second one without a name, a boolean, a character set and
    text in that character set. *)
Definition ipp_example := [2; 0; 0; 2; 0; 0; 0; 1; 1] ++ ipp_example_charset ++ [2]
  ++ [33; 0; 1; 97; 0; 4; 255; 255; 255; 254] ++ [33; 0; 0; 0; 4; 0; 0; 0; 7] ++ [34; 0; 1; 98; 0; 1; 1]
  ++ [65; 0; 1; 99; 0; 2; 104; 105] ++ [3; 9; 9].

Example C61_case : read_ipp (S (length ipp_example)) (fun d => Some d) (fun cs d => Ok (cs ++ d)) (fun _ => Ok tt) [97] ipp_example =
  Done (Ok ([IppDelimiter 1; IppAttribute 71 [99; 104; 97; 114; 115; 101; 116] (IppStr [117; 116; 102; 45; 56]); IppDelimiter 2;
             IppAttribute 33 [97] (IppInt (-2)); IppAttribute 33 [] (IppInt 7); IppAttribute 34 [98] (IppBool true);
             IppAttribute 65 [99] (IppStr [117; 116; 102; 45; 56; 104; 105])], [117; 116; 102; 45; 56])).
Proof.
  vm_compute. reflexivity.
Qed.

(** A keyword with a byte outside of ASCII raises UnicodeDecodeError, which is no ParseError. *)
Theorem C61_keyword_refuted : exists content, is_bytes content /\
  forall utf8 decode rfc2579 cs, utf8 [] = Some [] -> read_ipp 9 utf8 decode rfc2579 cs content = Done (Err UnicodeDecodeError).
Proof.
  exists [2; 0; 0; 2; 0; 0; 0; 1; 68; 0; 0; 0; 1; 233; 3]. split; [repeat constructor; unfold is_byte; lia|].
  intros utf8 decode rfc2579 cs U. unfold read_ipp.
  replace (read_struct _ [FS BE 1; FS BE 1; FS BE 2; FS BE 4] 0) with (@Ok (list fval) [VI 2; VI 0; VI 2; VI 1]) by (vm_compute; reflexivity).
  cbn [ipp_group]. replace (read_struct _ [FS BE 1] 8) with (@Ok (list fval) [VI 68]) by (vm_compute; reflexivity).
  cbn [Z.leb Z.compare Pos.compare Pos.compare_cont]. unfold ipp_attribute.
  replace (read_struct _ [FS BE 1; FS BE 2] 8) with (@Ok (list fval) [VI 68; VI 0]) by (vm_compute; reflexivity).
  cbn [bind]. replace (read_next _ (8 + 3) 0) with (@Ok (bytes * Z) ([], 11)) by (vm_compute; reflexivity). cbn [Z.leb Z.compare guard bind].
  replace (read_struct _ [FS BE 2] 11) with (@Ok (list fval) [VI 1]) by (vm_compute; reflexivity).
  cbn [bind Z.leb Z.compare guard]. replace (read_next _ (11 + 2) 1) with (@Ok (bytes * Z) ([233], 14)) by (vm_compute; reflexivity).
  cbn [bind]. rewrite U. reflexivity.
Qed.
Print Assumptions C61_keyword_refuted.

(** The character set is named by the file and is not checked: whatever decoding with an unknown
    name raises leaves the reader. *)
Theorem C61_charset_refuted : exists content cs', is_bytes content /\
  forall utf8 decode rfc2579 cs e, utf8 [] = Some [] -> decode cs' [97] = Err e ->
    read_ipp 9 utf8 decode rfc2579 cs content = Done (Err e).
Proof.
  exists [2; 0; 0; 2; 0; 0; 0; 1; 71; 0; 0; 0; 1; 120; 65; 0; 0; 0; 1; 97; 3], [120]. split; [repeat constructor; unfold is_byte; lia|].
  intros utf8 decode rfc2579 cs e U D. unfold read_ipp.
  replace (read_struct _ [FS BE 1; FS BE 1; FS BE 2; FS BE 4] 0) with (@Ok (list fval) [VI 2; VI 0; VI 2; VI 1]) by (vm_compute; reflexivity).
  match goal with |- ipp_group _ _ _ _ ?c _ _ = _ => set (content := c) end.
  assert (A1 : ipp_attribute utf8 decode rfc2579 content cs 8 = Ok (IppAttribute 71 [] (IppStr [120]), [120], 14)).
  { unfold ipp_attribute. replace (read_struct content [FS BE 1; FS BE 2] 8) with (@Ok (list fval) [VI 71; VI 0]) by (vm_compute; reflexivity).
    cbn [bind Z.leb Z.compare guard]. replace (read_next content (8 + 3) 0) with (@Ok (bytes * Z) ([], 11)) by (vm_compute; reflexivity). cbn [bind].
    replace (read_struct content [FS BE 2] 11) with (@Ok (list fval) [VI 1]) by (vm_compute; reflexivity).
    cbn [bind Z.leb Z.compare guard]. replace (read_next content (11 + 2) 1) with (@Ok (bytes * Z) ([120], 14)) by (vm_compute; reflexivity).
    cbn [bind]. rewrite U. reflexivity. }
  assert (A2 : ipp_attribute utf8 decode rfc2579 content [120] 14 = Err e).
  { unfold ipp_attribute. replace (read_struct content [FS BE 1; FS BE 2] 14) with (@Ok (list fval) [VI 65; VI 0]) by (vm_compute; reflexivity).
    cbn [bind Z.leb Z.compare guard]. replace (read_next content (14 + 3) 0) with (@Ok (bytes * Z) ([], 17)) by (vm_compute; reflexivity). cbn [bind].
    replace (read_struct content [FS BE 2] 17) with (@Ok (list fval) [VI 1]) by (vm_compute; reflexivity).
    cbn [bind Z.leb Z.compare guard]. replace (read_next content (17 + 2) 1) with (@Ok (bytes * Z) ([97], 20)) by (vm_compute; reflexivity).
    cbn [bind]. rewrite U. unfold ipp_read_value. cbn [zin existsb Z.eqb Pos.eqb orb]. rewrite D. reflexivity. }
  cbn [ipp_group]. replace (read_struct content [FS BE 1] 8) with (@Ok (list fval) [VI 71]) by (vm_compute; reflexivity).
  cbn [Z.leb Z.compare Pos.compare Pos.compare_cont]. rewrite A1.
  replace (read_struct content [FS BE 1] 14) with (@Ok (list fval) [VI 65]) by (vm_compute; reflexivity).
  cbn [Z.leb Z.compare Pos.compare Pos.compare_cont]. rewrite A2. reflexivity.
Qed.
Print Assumptions C61_charset_refuted.

(** The character set of one file stays in force for the next file that the same object reads:
    the same bytes are read differently. *)
Theorem C61_second_file_refuted : exists first second utf8 decode rfc2579 cs r1 r2,
  read_ipp 40 utf8 decode rfc2579 cs first = r1 /\ read_ipp 40 utf8 decode rfc2579 cs second = Done (Ok ([IppAttribute 65 [] (IppStr [97])], [97])) /\
  r1 = Done (Ok ([IppAttribute 71 [] (IppStr [120])], r2)) /\
  read_ipp 40 utf8 decode rfc2579 r2 second = Done (Ok ([IppAttribute 65 [] (IppStr [98])], [120])).
Proof.
  exists [2; 0; 0; 2; 0; 0; 0; 1; 71; 0; 0; 0; 1; 120; 3], [2; 0; 0; 2; 0; 0; 0; 1; 65; 0; 0; 0; 1; 97; 3], (fun d => Some d),
    (fun cs d => Ok (if list_eqb cs [120] then [98] else d)), (fun _ => Ok tt), [97]. eexists. exists [120].
  split; [reflexivity|]. vm_compute. repeat split.
Qed.
Print Assumptions C61_second_file_refuted.

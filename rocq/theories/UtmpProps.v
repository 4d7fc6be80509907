(** Properties of the utmp readers. *)

From Verif Require Import Base BaseFacts StrModel StrFacts CoreModel CoreProofs StructFacts DictModel TextModel UtmpModel UtmpSpec UtmpProofs.
From Coq Require String.
Import String.StringSyntax.

(** *** C65: utmp files *)

(** A Linux file is read exactly if its size is a multiple of 384, into the entries with the
    values at the documented offsets. With debug output all entries must also be printable. *)
Theorem C65_linux : forall show content l,
  (read_linux (S (length content)) show content = Done (Ok l) <->
   exists n, 0 <= n /\ len content = 384 * n /\ l = entries linux_entry content 384 0 n /\ Forall (fun vs => exists t, show vs = Ok t) l).
Proof.
  intros show content l. unfold read_linux. pose proof (len_nonneg content).
  rewrite (entries_iff show content linux_kinds linux_entry ltac:(cbn; lia) (linux_fields content) (S (length content)) 0 l); [|cbn; lia|cbn; unfold len; lia].
  change (Z.of_nat (struct_size linux_kinds)) with 384. unfold entries. split.
  - intros (n & _ & L & E & F). exists (Z.of_nat n). split; [lia|]. split; [exact L|]. rewrite Z.sub_0_r, Nat2Z.id. change (Z.to_nat 0) with 0%nat. rewrite Nat.sub_0_r in E. auto.
  - intros (n & Hn & L & E & F). exists (Z.to_nat n). split; [lia|]. rewrite Z2Nat.id by exact Hn. split; [exact L|]. rewrite Z.sub_0_r in E. rewrite Nat.sub_0_r. auto.
Qed.
Print Assumptions C65_linux.

(** Without debug output files of other sizes are a ParseError. *)
Theorem C65_linux_size : forall content, len content mod 384 <> 0 -> read_linux (S (length content)) no_debug content = Done (Err ParseError).
Proof.
  intros content H. unfold read_linux. pose proof (len_nonneg content).
  destruct (entries_end no_debug content linux_kinds ltac:(cbn; lia) (S (length content)) 0 ltac:(lia) ltac:(unfold len; lia)) as [[l E]|[E|(vs & e & E & _)]]; [|exact E|discriminate].
  exfalso. change (read_linux (S (length content)) no_debug content = Done (Ok l)) in E. apply C65_linux in E as (n & Hn & L & _). rewrite L, Z.mul_comm, Z.mod_mul in H by lia. apply H. reflexivity.
Qed.
Print Assumptions C65_linux_size.

(** A MacOS file is read exactly if its size is a positive multiple of 628 and the first entry has
    the signature and type of a file header; the other entries are read. *)
Theorem C65_macos : forall show content l,
  (read_macos (S (length content)) show content = Done (Ok l) <->
   (exists t, show (macos_entry content 0) = Ok t) /\ part content 0 11 = s2z "utmpx-1.00" ++ [0] /\ signed_at content 296 2 = VI 10 /\
   exists n, 1 <= n /\ len content = 628 * n /\ l = entries macos_entry content 628 1 n /\ Forall (fun vs => exists t, show vs = Ok t) l).
Proof.
  intros show content l. unfold read_macos. pose proof (len_nonneg content).
  rewrite read_struct_fields by (cbn; lia). change (Z.of_nat (struct_size macos_kinds)) with 628. rewrite macos_fields by lia. cbn [Z.add].
  destruct (Z.leb_spec 628 (len content)) as [Hle|Hgt].
  2:{ cbn [bind]. split; [discriminate|]. intros (_ & _ & _ & n & Hn & L & _). lia. }
  cbn [bind]. destruct (show (macos_entry content 0)) as [t|] eqn:Es; [|cbn [bind]; split; [discriminate|intros ([t E] & _); discriminate]].
  cbn [bind]. unfold macos_entry at 1. unfold data_at at 1. unfold signed_at at 1. cbv beta iota zeta. cbn [Z.add].
  assert (E1 : zfirstn 11 (part content 0 256) = part content 0 11) by (unfold part; rewrite zfirstn_zfirstn; reflexivity).
  rewrite E1. unfold utmpx_signature.
  destruct (list_eqb (part content 0 11) (s2z "utmpx-1.00" ++ [0])) eqn:E2.
  2:{ cbn [guard bind]. apply list_eqb_neq in E2. split; [discriminate|]. intros (_ & E & _). contradiction. }
  apply list_eqb_eq in E2. cbn [guard bind]. unfold signed_at. cbv beta iota zeta.
  match goal with |- context [guard (?x =? 10) ParseError] => set (ty := x) end.
  destruct (Z.eqb_spec ty 10) as [E3|N3]; cbn [guard].
  2:{ split; [discriminate|]. intros (_ & _ & E & _). exfalso. apply N3. assert (VI ty = VI 10) by exact E. congruence. }
  change 628 with (Z.of_nat (struct_size macos_kinds) * Z.of_nat 1) at 1.
  rewrite (entries_iff show content macos_kinds macos_entry ltac:(cbn; lia) (macos_fields content) (S (length content)) 1 l); [|cbn; lia|cbn; unfold len; lia].
  change (Z.of_nat (struct_size macos_kinds)) with 628. unfold entries. split.
  - intros (n & Hn & L & E & F). split; [eauto|]. split; [exact E2|]. split; [exact (f_equal VI E3)|].
    exists (Z.of_nat n). split; [lia|]. split; [exact L|]. replace (Z.to_nat (Z.of_nat n - 1)) with (n - 1)%nat by lia. auto.
  - intros (_ & _ & _ & n & Hn & L & E & F). exists (Z.to_nat n). split; [lia|]. rewrite Z2Nat.id by lia. split; [exact L|].
    replace (Z.to_nat n - 1)%nat with (Z.to_nat (n - 1)) by lia. auto.
Qed.
Print Assumptions C65_macos.

(** Reading ends on all data; without debug output all errors are ParseErrors, with it also those
    of decoding strings. *)
Theorem C65_errors : forall utf8 posix content show, (show = no_debug \/ show = show_linux utf8 posix) ->
  (exists l, read_linux (S (length content)) show content = Done (Ok l)) \/ read_linux (S (length content)) show content = Done (Err ParseError) \/
  (show <> no_debug /\ read_linux (S (length content)) show content = Done (Err UnicodeDecodeError)).
Proof.
  intros utf8 posix content show Hshow. unfold read_linux.
  assert (G : forall fuel off, 0 <= off -> len content - off < Z.of_nat fuel ->
    (exists l, read_entries fuel show content linux_kinds off = Done (Ok l)) \/ read_entries fuel show content linux_kinds off = Done (Err ParseError) \/
    (show <> no_debug /\ read_entries fuel show content linux_kinds off = Done (Err UnicodeDecodeError))).
  { induction fuel as [|fuel IH]; intros off Ho Hf; cbn [read_entries]; (destruct (Z.ltb_spec off (len content)) as [Hlt|Hge]; [|eauto]); [lia|].
    rewrite read_struct_fields by (cbn; lia). change (Z.of_nat (struct_size linux_kinds)) with 384. rewrite linux_fields by exact Ho. destruct (off + 384 <=? len content); [|auto].
    destruct (show (linux_entry content off)) as [t|e] eqn:Es.
    - destruct (IH (off + 384) ltac:(lia) ltac:(lia)) as [[l ->]|[->|(N & ->)]]; cbn [rbind]; eauto.
    - right. right. destruct Hshow as [->| ->]; [discriminate|]. split; [intros E; assert (E0 := f_equal (fun f => f (linux_entry content off)) E); cbv beta in E0; rewrite Es in E0; discriminate|].
      revert Es. unfold show_linux, linux_entry, data_at, signed_at, unsigned_at, shown_string. cbv zeta.
      repeat (destruct (utf8 _); cbn [bind]; [|congruence]). discriminate. }
  apply G; [lia|unfold len; lia].
Qed.
Print Assumptions C65_errors.

Theorem C65_macos_errors : forall content,
  (exists l, read_macos (S (length content)) no_debug content = Done (Ok l)) \/ read_macos (S (length content)) no_debug content = Done (Err ParseError).
Proof.
  intros content. unfold read_macos, no_debug. rewrite read_struct_fields by (cbn; lia). change (Z.of_nat (struct_size macos_kinds)) with 628. rewrite macos_fields by lia. cbn [Z.add].
  destruct (Z.leb_spec 628 (len content)); [|cbn [bind]; auto]. cbn [bind]. unfold macos_entry, data_at, signed_at, unsigned_at. cbv zeta.
  destruct (list_eqb _ _); [|cbn [guard bind]; auto]. cbn [guard bind]. destruct (_ =? 10); [|cbn [guard]; auto]. cbn [guard].
  destruct (entries_end no_debug content macos_kinds ltac:(cbn; lia) (S (length content)) 628 ltac:(lia) ltac:(unfold len; lia)) as [[l E]|[E|(vs & e & E & _)]]; [eauto|eauto|discriminate].
Qed.
Print Assumptions C65_macos_errors.

(** The types of login have the documented names, other values none. *)
Theorem C65_types : forall t,
  (forall s, In (t, s) documented_linux_types -> type_name linux_types t = s2z s) /\ (~ In t (map fst documented_linux_types) -> type_name linux_types t = s2z "UNKNOWN") /\
  (forall s, In (t, s) documented_macos_types -> type_name macos_types t = s2z s) /\ (~ In t (map fst documented_macos_types) -> type_name macos_types t = s2z "UNKNOWN").
Proof.
  intros t. split; [|split; [|split]].
  - intros s H. cbn [documented_linux_types In] in H. repeat (destruct H as [[= <- <-]|H]; [reflexivity|]). contradiction.
  - intros H. cbn [documented_linux_types map fst In] in H. unfold type_name, linux_types. cbn [find fst].
    repeat match goal with |- context [?a =? t] => destruct (Z.eqb_spec a t); [exfalso; tauto|] end. reflexivity.
  - intros s H. cbn [documented_macos_types In] in H. repeat (destruct H as [[= <- <-]|H]; [reflexivity|]). contradiction.
  - intros H. cbn [documented_macos_types map fst In] in H. unfold type_name, macos_types. cbn [find fst].
    repeat match goal with |- context [?a =? t] => destruct (Z.eqb_spec a t); [exfalso; tauto|] end. reflexivity.
Qed.
Print Assumptions C65_types.

(** A file with two entries: a login by user "root" from 10.0.0.1 and one with a negative exit
    status. *)
Definition pad (n : Z) (d : bytes) : bytes := d ++ repeat 0 (Z.to_nat (n - len d)).
Definition case_entry (user host : bytes) (exit : Z) (ip : bytes) : bytes :=
  [7; 0; 0; 0] ++ [57; 48; 0; 0] ++ pad 32 [116; 116; 121; 49] ++ [1; 2; 0; 0] ++ pad 32 user ++ pad 256 host ++ [0; 0] ++ le_enc 2 exit
  ++ [5; 0; 0; 0] ++ [0; 0; 0; 0] ++ [64; 66; 15; 0] ++ pad 16 ip ++ repeat 0 20.
Definition plain (d : bytes) : option str := if forallb (fun c => c <? 128) d then Some d else None.

Example C65_case : let content := case_entry (s2z "root") (s2z "h") 65535 [10; 0; 0; 1] ++ case_entry (s2z "x") [] 1 [] in
  exists l, read_linux (S (length content)) (show_linux plain (fun _ => None)) content = Done (Ok l) /\ len l = 2 /\
    nth_error (nth 0 l []) 7 = Some (VI (-1)) /\
    show_linux plain (fun _ => None) (nth 0 l []) =
      Ok [(s2z "Type of login", s2z "0x00000007 (USER_PROCESS)"); (s2z "PID", s2z "12345"); (s2z "Terminal", s2z "tty1"); (s2z "Terminal ID", s2z "513");
          (s2z "Username", s2z "root"); (s2z "Hostname", s2z "h"); (s2z "Termination status", s2z "0x0000"); (s2z "Exit status", s2z "0x-001"); (s2z "Session", s2z "5");
          (s2z "Timestamp", s2z "Not set (0)"); (s2z "Microseconds", s2z "1000000"); (s2z "IP address", s2z "('10.0.0.1', False)")].
Proof. eexists. split; [vm_compute; reflexivity|]. split; [reflexivity|]. split; [reflexivity|]. vm_compute. reflexivity. Qed.

Definition case_header : bytes := pad 256 (s2z "utmpx-1.00") ++ repeat 0 40 ++ [10; 0] ++ repeat 0 330.

Example C65_macos_case : let content := case_header ++ pad 628 (s2z "user") in
  exists vs, read_macos (S (length content)) (show_macos plain (fun _ => None)) content = Done (Ok [vs]) /\ nth_error vs 0 = Some (VB (pad 256 (s2z "user"))).
Proof. eexists. split; [vm_compute; reflexivity|vm_compute; reflexivity]. Qed.

(** The address is never shown as such: the tuple that the formatter returns is printed. *)
Theorem C65_address_refuted : forall d s, len d = 16 -> (fst (format_ipv4 (zfirstn 4 d)) = Some s \/ fst (format_ipv6 d) = Some s) -> shown_address d <> s.
Proof.
  intros d s L H E. assert (H40 : exists r, shown_address d = 40 :: r) by (unfold shown_address, shown_tuple; destruct (list_eqb _ _); eexists; reflexivity).
  destruct H40 as [r Er]. rewrite E in Er. subst s. 
  assert (G : forall b w x r sep l, 2 <= b <= 16 -> join sep (fmt_int b w x :: l) <> 40 :: r).
  { intros b w x r0 sep l Hb Ej. pose proof (fmt_int_chars b w x Hb) as F. destruct (fmt_int b w x) as [|c t] eqn:Ef.
    - assert (P := parse_fmt_int b w x Hb). rewrite Ef in P. discriminate.
    - assert (c = 40) by (destruct l; cbn [join app] in Ej; congruence). subst c. inversion F as [|? ? Fc _]. subst. unfold is_digit_char in Fc. lia. }
  destruct H as [H|H].
  - unfold format_ipv4 in H. destruct (len (zfirstn 4 d) =? 4) eqn:E4; [|discriminate]. cbn [fst] in H. destruct (zfirstn 4 d) as [|x l]; [discriminate|].
    cbn [map] in H. eapply (G 10 0 x r [46]); [lia|]. rewrite <- Er. injection H as H. exact H.
  - unfold format_ipv6 in H. rewrite L in H. cbn [Z.eqb Pos.eqb fst] in H. destruct d as [|x [|y d]]; [discriminate|discriminate|]. cbn [octet_pairs map] in H. eapply (G 16 4 _ r [58]); [lia|]. rewrite <- Er. injection H as H. exact H.
Qed.
Print Assumptions C65_address_refuted.

(** An IPv6 address that ends with 12 zero bytes is shown as an IPv4 address. *)
Theorem C65_ipv6_refuted : forall a b c d, is_bytes [a; b; c; d] -> shown_address ([a; b; c; d] ++ repeat 0 12) = shown_tuple (format_ipv4 [a; b; c; d]).
Proof. intros a b c d _. reflexivity. Qed.
Print Assumptions C65_ipv6_refuted.

(** What is behind the end of a string is shown with it. *)
Theorem C65_string_end_refuted : shown_string plain (s2z "root" ++ [0] ++ s2z "admin" ++ repeat 0 22) = Ok (s2z "rootadmin").
Proof. reflexivity. Qed.
Print Assumptions C65_string_end_refuted.

(** With debug output a string that is not UTF-8 raises UnicodeDecodeError. *)
Theorem C65_decode_refuted : let content := case_entry [228] [] 0 [] in
  read_linux (S (length content)) (show_linux plain (fun _ => None)) content = Done (Err UnicodeDecodeError) /\
  exists l, read_linux (S (length content)) no_debug content = Done (Ok l).
Proof. split; [vm_compute; reflexivity|]. eexists. vm_compute. reflexivity. Qed.
Print Assumptions C65_decode_refuted.

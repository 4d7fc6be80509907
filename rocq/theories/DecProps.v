(** C96: the decoders of values in format strings. *)

From Verif Require Import Base BaseFacts StrModel StrFacts FmtModel FmtSpec FmtProofs FmtProps UuidModel UuidSpec LeModel DecModel DecSpec DecProofs.
Import String.
Local Open Scope string_scope.
Local Open Scope list_scope.
Local Open Scope Z_scope.

(** Every documented decoder shows every value as documented, with a documented result for a missing value. *)
Theorem C96_decoders x name k : In (name, k) documented ->
  exists f, decoders x (s2z name) = Some f /\
    forall o, f None o = missing k /\ forall d, is_bytes d -> outcome x k d o (f (Some d) o).
Proof. exact (documented_decoders x name k). Qed.
Print Assumptions C96_decoders.

(** There are no other decoders. *)
Theorem C96_only x name f : decoders x name = Some f -> exists n k, In (n, k) documented /\ s2z n = name.
Proof. exact (documented_only x name f). Qed.
Print Assumptions C96_only.

(** A value of a format string is shown by the first decoder that its conversion names. *)
Theorem C96_values x l i c names data : toks_ok l -> nth_error (convs l) i = Some c -> decoders_of (cv_annotation c) (cv_specifier c) names ->
  let r := decode_value (decoders x) (Some (parse_format_string (toks_text l))) (Z.of_nat i) data in
  exists o, op_flags o = cv_flags c /\ op_width o = opt_text (cv_width c) /\ op_precision o = opt_text (cv_precision c) /\ op_specifier o = cv_specifier c /\
  match names with
  | [] => r = Ok (s2z "<decode: missing decoder>")
  | name :: _ =>
      (exists n k, In (n, k) documented /\ s2z n = name /\ (data = None -> r = missing k) /\ forall d, data = Some d -> is_bytes d -> outcome x k d (Some o) r) \/
      ((forall n k, In (n, k) documented -> s2z n <> name) /\ r = Ok (s2z "<decode: unsupported decoder: " ++ name ++ s2z ">"))
  end.
Proof.
  intros Ht Hc Hn r. destruct (C38_operators l Ht) as (_ & _ & Ho). destruct (Ho i c Hc) as (o & No & O1 & O2 & O3 & O4). pose proof (C38_decoders l i c names Ht Hc Hn) as Nd.
  exists o. do 4 (split; [assumption|]). remember r as r' eqn:Er. unfold r in Er. clear r. unfold decode_value in Er. rewrite Nat2Z.id, Nd, No in Er. destruct names as [|name names]; [exact Er|].
  destruct (decoders x name) as [f|] eqn:E; subst r'.
  - left. destruct (documented_only x name f E) as (n & k & I & <-). exists n, k. split; [exact I|]. split; [reflexivity|].
    destruct (documented_decoders x n k I) as (f' & E' & A). replace f' with f in A by congruence. destruct (A (Some o)) as [A1 A2].
    split; [intros ->; exact A1|]. intros d -> Hd. apply A2, Hd.
  - right. split; [|reflexivity]. intros n k I En. destruct (documented_decoders x n k I) as (f & E' & _). congruence.
Qed.
Print Assumptions C96_values.

(** Addresses, UUIDs and masked hashes can be told from their texts. *)
Theorem C96_lossless x name size f d d' o o' s :
  In (name, size) [("in_addr", Some 4); ("network:in_addr", Some 4); ("in6_addr", Some 16); ("network:in6_addr", Some 16); ("uuid_t", None); ("mask.hash", None)] ->
  decoders x (s2z name) = Some f -> is_bytes d -> is_bytes d' -> (forall n, size = Some n -> len d = n /\ len d' = n) ->
  f (Some d) o = Ok s -> f (Some d') o' = Ok s -> d = d'.
Proof.
  intros I E Hd Hd' L R R'. cbn [In] in I. destruct I as [I|[I|[I|[I|[I|[I|[]]]]]]]; injection I as <- <-.
  - assert (f = dec_ipv4) as -> by (assert (X : decoders x (s2z "in_addr") = Some dec_ipv4) by reflexivity; congruence). destruct (L 4 eq_refl). eapply ipv4_inj; eassumption.
  - assert (f = dec_ipv4) as -> by (assert (X : decoders x (s2z "network:in_addr") = Some dec_ipv4) by reflexivity; congruence). destruct (L 4 eq_refl). eapply ipv4_inj; eassumption.
  - assert (f = dec_ipv6) as -> by (assert (X : decoders x (s2z "in6_addr") = Some dec_ipv6) by reflexivity; congruence). destruct (L 16 eq_refl). eapply ipv6_inj; eassumption.
  - assert (f = dec_ipv6) as -> by (assert (X : decoders x (s2z "network:in6_addr") = Some dec_ipv6) by reflexivity; congruence). destruct (L 16 eq_refl). eapply ipv6_inj; eassumption.
  - assert (f = dec_uuid) as -> by (assert (X : decoders x (s2z "uuid_t") = Some dec_uuid) by reflexivity; congruence). eapply uuid_inj; eassumption.
  - assert (f = dec_mask) as -> by (assert (X : decoders x (s2z "mask.hash") = Some dec_mask) by reflexivity; congruence). eapply mask_inj; eassumption.
Qed.
Print Assumptions C96_lossless.

(** So can the security identifiers of Windows. *)
Theorem C96_sid x f d d' o o' s : decoders x (s2z "odtypes:nt_sid_t") = Some f -> is_bytes d -> is_bytes d' -> 8 <= len d -> 8 <= len d' ->
  f (Some d) o = Ok s -> f (Some d') o' = Ok s -> exists revision authority subs, stored_sid d revision authority subs /\ stored_sid d' revision authority subs.
Proof.
  intros E Hd Hd' L L' R R'. assert (f = dec_sid) as -> by (assert (X : decoders x (s2z "odtypes:nt_sid_t") = Some dec_sid) by reflexivity; congruence).
  pose proof (dec_sid_outcome x d o Hd) as O. pose proof (dec_sid_outcome x d' o' Hd') as O'. rewrite R in O. rewrite R' in O'.
  destruct O as [[? _]|[(r & a & l & S & T)|(_ & _ & T)]]; [lia| |discriminate T]. destruct O' as [[? _]|[(r' & a' & l' & S' & T')|(_ & _ & T')]]; [lia| |discriminate T'].
  assert (P : forall e r a l, is_bytes e -> stored_sid e r a l -> 0 <= r /\ 0 <= a /\ Forall (fun n => 0 <= n) l).
  { clear. intros e r a l He (xa & xb & rest & -> & _ & <- & F & _). unfold is_bytes in He. rewrite !Forall_app in He. destruct He as (H1 & H2 & _). apply Forall_cons_iff in H1 as [H1 _]. unfold is_byte in H1.
    split; [lia|]. split; [apply be_int_bounds, H2|]. eapply Forall_impl; [|exact F]. cbn. lia. }
  destruct (P _ _ _ _ Hd S) as (P1 & P2 & P3). destruct (P _ _ _ _ Hd' S') as (P4 & P5 & P6).
  destruct (sid_line_inj r a l r' a' l' P1 P2 P3 P4 P5 P6) as (<- & <- & <-); [unfold sid_line; congruence|]. exists r, a, l. split; assumption.
Qed.
Print Assumptions C96_sid.

(** Error numbers are read as unsigned: the text of -1 of the table is never shown. *)
Theorem C96_negative_refuted x : exists f, decoders x (s2z "internal:m") = Some f /\
  f (Some [255; 255; 255; 255]) None = Ok (s2z "<decode: unknown value: 4294967295>").
Proof. eexists. split; [reflexivity|]. vm_compute. reflexivity. Qed.
Print Assumptions C96_negative_refuted.

(** File modes that differ in the set user, set group or sticky bit have the same text. *)
Theorem C96_mode_refuted x : exists f, decoders x (s2z "darwin.mode") = Some f /\
  f (Some (le_enc 2 0x89ed)) None = Ok (s2z "-rwxr-xr-x") /\ f (Some (le_enc 2 0x81ed)) None = Ok (s2z "-rwxr-xr-x") /\ f (Some (le_enc 2 0x43ff)) None = f (Some (le_enc 2 0x41ff)) None.
Proof. eexists. split; [reflexivity|]. vm_compute. repeat split. Qed.
Print Assumptions C96_mode_refuted.

(** Socket addresses are shown without their port, and IPv6 addresses as text that is no address. *)
Theorem C96_socket_refuted x : exists f, decoders x (s2z "sockaddr") = Some f /\
  (forall p1 p2 q1 q2 a z o, len a = 4 -> len z = 8 -> f (Some ([16; 2; p1; p2] ++ a ++ z)) o = f (Some ([16; 2; q1; q2] ++ a ++ z)) o) /\
  f (Some ([28; 30] ++ repeat 0 21 ++ [1] ++ repeat 0 4)) None = Ok (s2z ":::::::0001").
Proof.
  eexists. split; [reflexivity|]. split; [|vm_compute; reflexivity]. intros p1 p2 q1 q2 a z o La Lz. unfold dec_sockaddr. cbn [need bind app]. rewrite !len_cons, !len_app, La, Lz.
  change (2 =? 2) with true. change (1 + (1 + (1 + (1 + (4 + 8)))) =? 16) with true. cbn [andb].
  destruct a as [|a1 [|a2 [|a3 [|a4 [|]]]]]; unfold len in La; cbn [Datatypes.length] in La; try lia. cbn [app]. unfold pyslice. rewrite !len_cons, Lz. reflexivity.
Qed.
Print Assumptions C96_socket_refuted.

(** DNS flags of which none is set, and security identifiers without sub authorities. *)
Theorem C96_empty_refuted x : exists f g, decoders x (s2z "mdns:dns.idflags") = Some f /\ decoders x (s2z "odtypes:nt_sid_t") = Some g /\
  f (Some (le_enc 2 0 ++ le_enc 2 7 ++ repeat 0 4)) None = Ok (s2z "id: 0x0007 (7), flags: 0x0000 (Q/Query, , NoError)") /\
  g (Some [1; 0; 0; 0; 0; 0; 0; 5]) None = Ok (s2z "S-1-5-").
Proof. eexists. eexists. split; [reflexivity|]. split; [reflexivity|]. vm_compute. split; reflexivity. Qed.
Print Assumptions C96_empty_refuted.

(** Missing values and UUIDs of another size end the reading with an exception other than ParseError. *)
Theorem C96_missing_refuted x : (forall name k, In (name, k) documented -> k <> KText -> k <> KMask -> exists f e, decoders x (s2z name) = Some f /\ (forall o, f None o = Err e) /\ e <> ParseError) /\
  exists f, decoders x (s2z "uuid_t") = Some f /\ forall d o, is_bytes d -> len d <> 16 -> f (Some d) o = Err ValueError.
Proof.
  split.
  - intros name k I N1 N2. destruct (documented_decoders x name k I) as (f & E & A). exists f, (match missing k with Err e => e | Ok _ => ParseError end). split; [exact E|].
    split; [intros o; rewrite (proj1 (A o)); destruct k; try reflexivity; congruence|destruct k; cbn; congruence].
  - destruct (documented_decoders x "uuid_t" KUuid ltac:(cbn [documented In]; tauto)) as (f & E & A). exists f. split; [exact E|]. intros d o Hd N. destruct (proj2 (A o) d Hd) as [[L _]|[_ R]]; [contradiction|exact R].
Qed.
Print Assumptions C96_missing_refuted.

(** Conversions without decoder. *)
Theorem C96_conversion_refuted x data : decode_value (decoders x) (Some (parse_format_string (s2z "%C"))) 0 data = Ok (s2z "<decode: missing decoder>") /\
  decode_value (decoders x) (Some (parse_format_string (s2z "%S"))) 0 data = Ok (s2z "<decode: missing decoder>").
Proof. vm_compute. split; reflexivity. Qed.
Print Assumptions C96_conversion_refuted.

(** One value of each kind. *)
Definition case_x : external := mkx (fun d => if forallb (fun b => b <? 128) d then Some d else None) (fun d _ => Ok (fmt_d (le_int d))) (fun n => Ok (fmt_d n)).
Definition shown (name : string) (d : bytes) : option (result str) := match decoders case_x (s2z name) with Some f => Some (f (Some d) None) | None => None end.
Definition ok (s : string) : option (result str) := Some (Ok (s2z s)).

Example C96_case :
  shown "BOOL" [0; 1] = ok "YES" /\ shown "errno" [2; 0; 0; 0] = ok "[2: No such file or directory]" /\ shown "darwin.mode" (le_enc 2 0x41ed) = ok "drwxr-xr-x" /\
  shown "in_addr" [127; 0; 0; 1] = ok "127.0.0.1" /\ shown "in6_addr" (repeat 0 15 ++ [1]) = ok "0000:0000:0000:0000:0000:0000:0000:0001" /\ shown "in_addr" [1] = ok "<decode: unsupported value>" /\
  shown "sockaddr" ([16; 2; 0; 80; 10; 0; 0; 1] ++ repeat 0 8) = ok "10.0.0.1" /\ shown "sockaddr" [] = ok "<NULL>" /\ shown "mask.hash" [77; 97; 110; 33] = ok "<mask.hash: 'TWFuIQ=='>" /\
  shown "uuid_t" (repeat 171 16) = ok "ABABABAB-ABAB-ABAB-ABAB-ABABABABABAB" /\ shown "location:escape_only" (s2z "a/b") = ok """a\/b""" /\
  shown "mdns:dns.counts" ([0; 0; 0; 0; 2; 0; 1; 0]) = ok "1/2/0/0" /\ shown "mdns:dnshdr" [0; 7; 129; 128; 0; 1; 0; 2; 0; 0; 0; 0] = ok "id: 0x0007 (7), flags: 0x8180 (R/Query, RD, RA, NoError), counts: 1/2/0/0" /\
  shown "odtypes:mbr_details" ([0x24] ++ s2z "bob" ++ [0] ++ s2z "here" ++ [0]) = ok "user: bob@here" /\ shown "odtypes:nt_sid_t" ([1; 2; 0; 0; 0; 0; 0; 5] ++ le_enc 4 21 ++ le_enc 4 500) = ok "S-1-5-21-500" /\
  shown "signpost.telemetry:string1" (s2z "x" ++ [0]) = ok "__##__signpost.telemetry#____#string1#_##_#x##__##" /\ shown "other" [1] = None /\
  plain_floats case_x.
Proof. vm_compute. repeat split. intros d _. eexists. reflexivity. Qed.

(** A message with an annotated and a plain conversion. *)
Example C96_case_values : exists l, toks_ok l /\ toks_text l = s2z "%{uuid_t}.16P %d" /\ Datatypes.length (convs l) = 2%nat /\
  decode_value (decoders case_x) (Some (parse_format_string (toks_text l))) 0 (Some (repeat 171 16)) = Ok (s2z "ABABABAB-ABAB-ABAB-ABAB-ABABABABABAB") /\
  decode_value (decoders case_x) (Some (parse_format_string (toks_text l))) 1 (Some [254; 255; 255; 255]) = Ok (s2z "-2") /\
  decode_value (decoders case_x) (Some (parse_format_string (toks_text l))) 1 None = Err TypeError.
Proof.
  destruct (toks_exist (s2z "%{uuid_t}.16P %d")) as (l & Hl & E). exists l. split; [exact Hl|]. split; [exact E|].
  pose proof (C38_operators l Hl) as (L & _). rewrite E in *. split; [rewrite <- L; vm_compute; reflexivity|]. vm_compute. repeat split.
Qed.

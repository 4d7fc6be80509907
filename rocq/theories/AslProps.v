(** Properties of the Apple System Log (ASL) file reader. *)

From Verif Require Import Base BaseFacts BitFacts CoreModel CoreProofs VarModel VarFacts SeqModel SeqSpec SeqFacts StrModel DictModel AslModel AslSpec AslProofs.

(** *** C60: ASL inline strings and record chains *)

(** A string reference gives its string, wherever the string is stored; the file position only
    changes for strings that are stored at an offset. *)
Theorem C60_string : forall utf8 content pos v s e, asl_ref utf8 content v s e ->
  asl_string utf8 content pos v = Ok (s, match e with Some p => p | None => pos end).
Proof. exact string_ok. Qed.
Print Assumptions C60_string.

(** References with the highest bit whose other flag bits are set or whose size is above 7 are
    refused. *)
Theorem C60_invalid_inline : forall utf8 content pos v, 2 ^ 63 <= v < 2 ^ 64 -> 2 ^ 63 + 8 * 2 ^ 56 <= v ->
  asl_string utf8 content pos v = Err ParseError.
Proof.
  intros utf8 content pos v Hv H. unfold asl_string. destruct (Z.eqb_spec v 0); [lia|]. rewrite bit63 by lia.
  destruct (Z.ltb_spec v (2 ^ 63)); [lia|]. cbn [negb]. destruct (Z.eqb_spec (Z.shiftr v 60) 8) as [E|]; [|reflexivity]. cbn [guard bind].
  rewrite Z.shiftr_div_pow2 in E by lia. rewrite (land_mask _ 4) by lia. rewrite Z.shiftr_div_pow2 by lia.
  destruct (Z.ltb_spec ((v / 2 ^ 56) mod 2 ^ 4) 8) as [G|]; [|reflexivity]. exfalso.
  change (2 ^ 60) with 1152921504606846976 in E. change (2 ^ 56) with 72057594037927936 in *. change (2 ^ 4) with 16 in G. lia.
Qed.
Print Assumptions C60_invalid_inline.

(** The records of a file are read in the order of their chain. *)
Theorem C60_file : forall utf8 content rs, asl_file utf8 content rs ->
  exists fuel, forall k, read_asl (fuel + k) utf8 content = Done (Ok rs).
Proof.
  intros utf8 content rs (version & first & created & cache & last & unknown & rest & E & Hv & Hc & U & Lu & Bu & H).
  repeat match goal with H : Forall _ (_ :: _) |- _ => apply Forall_cons_iff in H; destruct H end.
  assert (R : read_struct content [FB 12; FU BE 4; FU BE 8; FU BE 8; FU BE 4; FU BE 8; FB 36] 0 =
    Ok [VB (s2z "ASL DB" ++ [0; 0; 0; 0; 0; 0]); VI version; VI first; VI created; VI cache; VI last; VB unknown]).
  { rewrite E.
    change (s2z "ASL DB" ++ repeat 0 6 ++ be_enc 4 version ++ be_enc 8 first ++ be_enc 8 created ++ be_enc 4 cache ++ be_enc 8 last ++ unknown ++ rest)
      with ([] ++ (s2z "ASL DB" ++ [0; 0; 0; 0; 0; 0]) ++ be_enc 4 version ++ be_enc 8 first ++ be_enc 8 created ++ be_enc 4 cache ++ be_enc 8 last ++ unknown ++ rest).
    replace ((s2z "ASL DB" ++ [0; 0; 0; 0; 0; 0]) ++ be_enc 4 version ++ be_enc 8 first ++ be_enc 8 created ++ be_enc 4 cache ++ be_enc 8 last ++ unknown ++ rest)
      with (enc_struct [FB 12; FU BE 4; FU BE 8; FU BE 8; FU BE 4; FU BE 8; FB 36]
              [VB (s2z "ASL DB" ++ [0; 0; 0; 0; 0; 0]); VI version; VI first; VI created; VI cache; VI last; VB unknown] ++ rest)
      by (cbn [enc_struct enc_field]; rewrite <- !app_assoc; reflexivity).
    apply read_struct_enc; [|reflexivity].
    constructor; [split; [reflexivity|repeat constructor; unfold is_byte; lia]|].
    constructor; [exact Hv|]. do 2 (constructor; [assumption|]). constructor; [exact Hc|]. constructor; [assumption|].
    constructor; [split; assumption|constructor]. }
  unfold read_asl. rewrite R. change (list_eqb _ _) with true. cbv iota. unfold u64 in *.
  destruct H as [[-> ->]|[N H]].
  - exists 0%nat. intros k. reflexivity.
  - destruct (Z.ltb_spec 0 first); [|lia]. apply chain_ok; [exact H|lia].
Qed.
Print Assumptions C60_file.

(** Errors are ParseErrors. *)
Lemma asl_string_errs utf8 content pos v : 0 <= v -> errs (fun e => e = ParseError) (asl_string utf8 content pos v).
Proof.
  intros Hv. unfold asl_string. destruct (v =? 0); [apply errs_ok|]. destruct (negb _).
  - apply errs_bind; [apply errs_guard; reflexivity|]. intros _ _. apply errs_bind; [apply errs_guard; reflexivity|]. intros _ _.
    destruct (utf8 _); [apply errs_ok|apply errs_err; reflexivity].
  - apply errs_bind.
    + intros e. destruct (read_var _ _ _ _) as [x|y] eqn:E; cbn [as_parse_error]; [discriminate|].
      apply read_var_err in E; [|exact Hv]. subst y. congruence.
    + intros [[a b] c] _. destruct (utf8 b); [apply errs_ok|apply errs_err; reflexivity].
Qed.

Lemma asl_fields_errs utf8 content n : forall d pos extra, is_bytes d -> errs (fun e => e = ParseError) (asl_fields utf8 content n d pos extra).
Proof.
  induction n as [|n IH]; intros d pos extra Hd; [apply errs_ok|]. cbn [asl_fields]. apply errs_bind.
  - intros e. destruct (struct_bs _ _) as [x|y] eqn:E; cbn [as_parse_error]; [discriminate|].
    apply struct_bs_errors in E as [->|[-> _]]; congruence.
  - intros vs E. rewrite as_parse_error_ok in E. apply struct_bs_fval in E; [|exact Hd|kinds_wf]. vals E.
    apply errs_bind; [apply asl_string_errs; lia|]. intros [a p] _. apply errs_bind; [apply asl_string_errs; lia|]. intros [b q] _.
    apply IH. apply is_bytes_zskipn, Hd.
Qed.

Lemma asl_read_errs content pos n : errs (fun e => e = ParseError \/ e = ValueError) (asl_read content pos n).
Proof.
  unfold asl_read. apply errs_bind; [apply errs_guard; auto|]. intros _ _ e E. apply read_next_errors in E. auto.
Qed.

Lemma errs_left {A} (x : result A) : errs (fun e => e = ParseError) x -> errs (fun e => e = ParseError \/ e = ValueError) x.
Proof. intros H e E. apply H in E. auto. Qed.

Lemma asl_record_errs utf8 content pos off : is_bytes content -> 0 <= off -> errs (fun e => e = ParseError \/ e = ValueError) (asl_record utf8 content pos off).
Proof.
  intros Hb Ho. unfold asl_record. apply errs_bind; [apply asl_read_errs|]. intros [d p] _.
  apply errs_bind; [apply errs_read_struct; [auto|exact Ho]|]. intros vs E. unfold asl_layout in E.
  apply read_struct_fval in E; [|exact Hb|repeat (apply Forall_cons; [first [exact I|cbn; lia]|]); apply Forall_nil]. vals E.
  do 4 (apply errs_bind; [apply errs_left, asl_string_errs; lia|]; intros [? ?] _).
  apply errs_bind; [apply errs_guard; auto|]. intros _ _. apply errs_bind; [apply asl_read_errs|]. intros [d2 p2] E2.
  apply errs_bind.
  - apply errs_left, asl_fields_errs. unfold asl_read in E2. destruct (guard _ _); [|discriminate]. cbn [bind] in E2. unfold read_next in E2. destruct (_ =? _); [|discriminate]. injection E2 as <- _.
    apply is_bytes_zfirstn, is_bytes_zskipn, Hb.
  - intros [? ?] _. apply errs_ok.
Qed.

Lemma asl_record_next utf8 content pos off r next pos' : is_bytes content -> asl_record utf8 content pos off = Ok (r, next, pos') -> 0 <= next.
Proof.
  intros Hb. unfold asl_record. destruct (asl_read content pos (off - pos)) as [[d p]|]; [|discriminate]. cbn [bind].
  destruct (read_struct content asl_layout off) as [vs|] eqn:E; [|discriminate]. cbn [bind]. unfold asl_layout in E.
  apply read_struct_fval in E; [|exact Hb|repeat (apply Forall_cons; [first [exact I|cbn; lia]|]); apply Forall_nil]. vals E.
  do 4 (match goal with |- context [asl_string utf8 content ?p ?o] => destruct (asl_string utf8 content p o) as [[? ?]|]; [|discriminate]; cbn [bind] end).
  destruct (guard _ _); [|discriminate]. cbn [bind]. destruct (asl_read _ _ _) as [[? ?]|]; [|discriminate]. cbn [bind].
  destruct (asl_fields _ _ _ _ _ _) as [[? ?]|]; [|discriminate]. cbn [bind]. intros Eq.
  injection Eq as _ <- _. lia.
Qed.

Theorem C60_errors : forall fuel utf8 content e, is_bytes content -> read_asl fuel utf8 content = Done (Err e) -> e = ParseError \/ e = ValueError.
Proof.
  intros fuel utf8 content e Hb. unfold read_asl. destruct (read_struct _ _ 0) as [vs|x] eqn:E.
  - apply read_struct_fval in E; [|exact Hb|kinds_wf]. vals E. destruct (list_eqb _ _); [|intros H; left; congruence].
    match goal with |- context [asl_records _ _ _ _ ?z] => destruct (Z.ltb_spec 0 z) as [Hz|]; [|discriminate]; assert (Hz0 : 0 <= z) by lia; clear - Hb Hz0; revert Hz0; generalize z end. generalize 80.
    induction fuel as [|fuel IH]; intros pos off Ho; cbn [asl_records]; destruct (off <? len content); try discriminate.
    destruct (asl_record utf8 content pos off) as [[[r next] pos']|y] eqn:R.
    + destruct (next =? 0); [discriminate|]. pose proof (asl_record_next _ _ _ _ _ _ _ Hb R) as Hn. specialize (IH pos' next Hn).
      destruct (asl_records fuel utf8 content pos' next) as [[l|z]|]; cbn [rbind]; try discriminate. intros Eq. apply IH. congruence.
    + intros Eq. apply asl_record_errs in R; [|exact Hb|exact Ho]. assert (y = e) by congruence. subst y. exact R.
  - intros Eq. apply read_struct_err in E; [|lia]. left. congruence.
Qed.
Print Assumptions C60_errors.

(** Reading ends if no record refers to itself or an earlier record. *)
Theorem C60_ends : forall utf8 content,
  (forall pos off r next pos', asl_record utf8 content pos off = Ok (r, next, pos') -> next = 0 \/ off < next) ->
  read_asl (length content) utf8 content <> OutOfFuel.
Proof.
  intros utf8 content Inc. unfold read_asl. destruct (read_struct _ _ 0) as [vs|x] eqn:E; [|discriminate].
  destruct vs as [|[|sig] [|[?|] [|[first|] [|[?|] [|[?|] [|[?|] [|[|?] [|? ?]]]]]]]]; try discriminate.
  destruct (list_eqb sig _); [|discriminate]. destruct (Z.ltb_spec 0 first) as [Hf|]; [|discriminate].
  assert (G : forall fuel pos off, 0 <= off -> len content <= off + Z.of_nat fuel -> asl_records fuel utf8 content pos off <> OutOfFuel).
  { induction fuel as [|fuel IH]; intros pos off Ho Hl; cbn [asl_records]; destruct (Z.ltb_spec off (len content)); try discriminate; [lia|].
    destruct (asl_record utf8 content pos off) as [[[r next] pos']|y] eqn:R; [|discriminate].
    destruct (Z.eqb_spec next 0); [discriminate|]. destruct (Inc _ _ _ _ _ R) as [|I]; [contradiction|].
    specialize (IH pos' next ltac:(lia) ltac:(lia)). destruct (asl_records fuel utf8 content pos' next) as [[l|?]|]; [discriminate|discriminate|contradiction]. }
  apply G; unfold len; lia.
Qed.
Print Assumptions C60_ends.

(** Finding: a record that refers to itself, and whose last string is stored in front of it, is
    read for ever. *)
Definition ex_asl (next : Z) : bytes :=
  s2z "ASL DB" ++ repeat 0 6 ++ be_enc 4 2 ++ be_enc 8 87 ++ be_enc 8 0 ++ be_enc 4 256 ++ be_enc 8 87 ++ repeat 0 36 ++
  be_enc 2 1 ++ be_enc 4 1 ++ s2z "v" ++
  asl_bytes (mkother 0 1 1500000000 0 5 0 77 (-1) 20 (-1) (-1) 0 0) next (8 * 2 ^ 60 + 3 * 2 ^ 56 + be_int (s2z "mac" ++ repeat 0 4)) 80 0 0
    [(8 * 2 ^ 60 + 2 ^ 56 + be_int (s2z "K" ++ repeat 0 6), 80)].

Theorem C60_cycle_refuted : forall fuel, read_asl fuel Some (ex_asl 87) = OutOfFuel.
Proof.
  intros fuel.
  assert (S1 : forall pos, pos = 80 \/ pos = 87 -> exists r, asl_record Some (ex_asl 87) pos 87 = Ok (r, 87, 87)).
  { intros pos [->| ->]; eexists; vm_compute; reflexivity. }
  assert (S0 : forall fuel pos, pos = 80 \/ pos = 87 -> asl_records fuel Some (ex_asl 87) pos 87 = OutOfFuel).
  { clear fuel. induction fuel as [|fuel IH]; intros pos Hp.
    - vm_compute. reflexivity.
    - cbn [asl_records]. replace (87 <? len (ex_asl 87)) with true by (vm_compute; reflexivity).
      destruct (S1 pos Hp) as [r ->]. change (87 =? 0) with false. cbv iota. rewrite (IH 87) by (right; reflexivity). reflexivity. }
  unfold read_asl.
  replace (read_struct (ex_asl 87) [FB 12; FU BE 4; FU BE 8; FU BE 8; FU BE 4; FU BE 8; FB 36] 0)
    with (@Ok (list fval) [VB (s2z "ASL DB" ++ [0; 0; 0; 0; 0; 0]); VI 2; VI 87; VI 0; VI 256; VI 87; VB (repeat 0 36)]) by (vm_compute; reflexivity).
  change (list_eqb _ _) with true. change (0 <? 87) with true. cbv iota. apply S0. left. reflexivity.
Qed.
Print Assumptions C60_cycle_refuted.

(** A record whose size is too small for its members raises the ValueError of the file object. *)
Definition ex_asl_small : bytes := zfirstn 89 (ex_asl 0) ++ be_enc 4 84 ++ zskipn 93 (ex_asl 0).

Theorem C60_small_refuted : read_asl 1 Some ex_asl_small = Done (Err ValueError).
Proof. vm_compute. reflexivity. Qed.
Print Assumptions C60_small_refuted.

(** The same record at the end of its chain: an inline host name, a sender and an extra field
    value that are stored at an offset. *)
Example C60_case : read_asl 1 Some (ex_asl 0) =
  Done (Ok [mkasl (Some (s2z "mac")) (Some (s2z "v")) None None [(s2z "K", Some (s2z "v"))]]).
Proof. vm_compute. reflexivity. Qed.

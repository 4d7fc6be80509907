(** Properties of the Recycle.Bin and Recycler readers. *)

From Verif Require Import Base BaseFacts CoreModel CoreProofs StrModel TextModel TextProofs SeqModel SeqSpec SeqFacts DictModel Utf16Model Utf16Spec Utf16Facts RbModel RbSpec RbProofs.
From Coq Require String.
Import String.StringSyntax.

(** *** C68: Recycler and Recycle Bin metadata *)

(** A $I file is read exactly if it is one of format 1 or 2, into its values. *)
Theorem C68_metadata : forall content m, is_bytes content -> (read_rb content = Ok m <-> metadata m content).
Proof. intros content m Hb. split; [apply rb_sound, Hb|apply rb_complete]. Qed.
Print Assumptions C68_metadata.

(** In particular for every name without NUL that is stored with its end-of-string character. *)
Theorem C68_metadata_names : forall name t size time, utf16_z name t -> 0 <= size < 2 ^ 64 -> 0 <= time < 2 ^ 64 ->
  read_rb (metadata_head 1 size time ++ t) = Ok (mkrb 1 time size name) /\
  (forall n, len t = 2 * n -> n < 2 ^ 32 -> read_rb (metadata_head 2 size time ++ le_enc 4 n ++ t) = Ok (mkrb 2 time size name)).
Proof.
  intros name t size time Z Hs Ht. split; [|intros n Ln Hn]; apply rb_complete; (split; [exact Hs|]); (split; [exact Ht|]).
  - left. split; [reflexivity|]. exists t, []. rewrite app_nil_r. split; [exact Z|reflexivity].
  - right. split; [reflexivity|]. destruct Z as (Nn & t' & U & Et). exists n, (name ++ [0]), t, []. pose proof (len_nonneg t). split; [lia|].
    split; [|split; [exact Ln|split; [|rewrite app_nil_r; reflexivity]]].
    + rewrite Et. clear - U. induction U; cbn [app]; rewrite <- ?app_assoc; [change [0; 0] with (le_enc 2 0 ++ []); apply u_one; [lia|constructor]|constructor; assumption|apply u_two; assumption].
    + destruct (no_nul_unpadded name Nn) as [_ N]. split; [exists 1%nat; reflexivity|exact N].
Qed.
Print Assumptions C68_metadata_names.

Theorem C68_metadata_errors : forall content e, is_bytes content -> read_rb content = Err e -> e = ParseError.
Proof. exact rb_err. Qed.
Print Assumptions C68_metadata_errors.

(** The string of format 1 is found by reading two more bytes at a time. *)
Theorem C68_string_read : forall content pos off fuel, 0 <= off -> (length content < fuel)%nat ->
  exists n, read_structure fuel wide_map (mkfile content pos) off =
  Done (match utf16_cstr (zskipn off content) with
        | Ok (s, _) => Ok (s, n, mkfile content (off + n))
        | Err e => Err e
        end).
Proof. intros content pos off fuel Ho Hf. apply read_wide_string; assumption. Qed.
Print Assumptions C68_string_read.

(** An INFO2 file is read exactly if it consists of a header and of entries of the size in the
    header, into these entries. With debug output the ANSI names of all entries must be decodable. *)
Theorem C68_info2 : forall ansi debug content l, is_bytes content ->
  (read_info2 (S (length content)) ansi debug content = Done (Ok l) <->
   (exists size, info2 size l content) /\ (debug = true -> Forall (fun e => exists s, ansi (i2_name e) = Some s) l)).
Proof.
  intros ansi debug content l Hb. unfold read_info2.
  assert (Sh : Forall (shown ansi debug) l <-> (debug = true -> Forall (fun e => exists s, ansi (i2_name e) = Some s) l)).
  { unfold shown. destruct debug; split.
    - intros H _. eapply Forall_impl; [|exact H]. intros e He. apply He. reflexivity.
    - intros H. specialize (H eq_refl). eapply Forall_impl; [|exact H]. auto.
    - discriminate.
    - intros _. apply Forall_forall. intros e _ E. discriminate. }
  assert (K : forall u1 c u2 s u3 rest, le_enc 4 u1 ++ le_enc 4 c ++ le_enc 4 u2 ++ le_enc 4 s ++ le_enc 4 u3 ++ rest =
    enc_struct [FU LE 4; FU LE 4; FU LE 4; FU LE 4; FU LE 4] [VI u1; VI c; VI u2; VI s; VI u3] ++ rest).
  { intros. cbn [enc_struct enc_field enc_int]. rewrite <- !app_assoc. reflexivity. }
  assert (L20 : forall u1 c u2 s u3, len (enc_struct [FU LE 4; FU LE 4; FU LE 4; FU LE 4; FU LE 4] [VI u1; VI c; VI u2; VI s; VI u3]) = 20).
  { intros. cbn [enc_struct enc_field enc_int]. rewrite !len_app, !len_le_enc. reflexivity. }
  rewrite <- Sh. split.
  - destruct (read_struct content _ 0) as [vs|] eqn:E; [|discriminate].
    apply read_struct_iff in E; [|exact Hb|kinds_wf|cbn; lia]. destruct E as [St F]. inv2 F.
    repeat match goal with H : fval_ok (FU _ _) ?v |- _ => is_var v; destruct v as [|]; [|contradiction]; apply le4_ok in H end.
    apply stored_at_0 in St as [rest Ec].
    match type of Ec with _ = enc_struct _ [VI ?a; VI ?b; VI ?c; VI ?s; VI ?d] ++ _ => rename a into u1; rename b into cnt; rename c into u2; rename s into size; rename d into u3 end.
    destruct (existsb (Z.eqb size) [280; 800]) eqn:Es; [|discriminate].
    assert (Is : In size [280; 800]) by (apply existsb_exists in Es as (x & I & Ex); apply Z.eqb_eq in Ex; subst; exact I).
    assert (L : 20 <= len content) by (rewrite Ec, len_app, L20; pose proof (len_nonneg rest); lia).
    intros R. apply (proj1 (i2_entries_iff ansi debug content size Hb Is (S (length content)) 20 l ltac:(lia) ltac:(unfold len; lia))) in R. destruct R as ((ds & F & C) & Fs). split; [|exact Fs].
    exists size, u1, cnt, u2, u3, ds. split; [exact Is|]. repeat (split; [assumption|]). rewrite K, Ec. f_equal. rewrite <- C, Ec. symmetry. apply zskipn_app_len. symmetry. apply L20.
  - intros ((size & u1 & cnt & u2 & u3 & ds & Is & H1 & H2 & H3 & H4 & F & Ec) & Fs). rewrite K in Ec.
    assert (R : read_struct content [FU LE 4; FU LE 4; FU LE 4; FU LE 4; FU LE 4] 0 = Ok [VI u1; VI cnt; VI u2; VI size; VI u3]).
    { rewrite Ec. apply (read_struct_enc [] _ _ (concat ds)); [|reflexivity]. assert (0 <= size < 2 ^ 32) by (destruct Is as [<-|[<-|[]]]; lia).
      repeat (apply Forall2_cons; [apply le4_ok; assumption|]). constructor. }
    rewrite R. assert (Es : existsb (Z.eqb size) [280; 800] = true) by (destruct Is as [<-|[<-|[]]]; reflexivity). rewrite Es.
    assert (L : 20 <= len content) by (rewrite Ec, len_app, L20; pose proof (len_nonneg (concat ds)); lia).
    apply (proj2 (i2_entries_iff ansi debug content size Hb Is (S (length content)) 20 l ltac:(lia) ltac:(unfold len; lia))). split; [|exact Fs]. exists ds. split; [exact F|].
    rewrite Ec. apply zskipn_app_len. symmetry. apply L20.
Qed.
Print Assumptions C68_info2.

Theorem C68_info2_ends : forall ansi debug content, is_bytes content ->
  exists r, read_info2 (S (length content)) ansi debug content = Done r /\ (forall e, r = Err e -> e = ParseError).
Proof.
  intros ansi debug content Hb. unfold read_info2. destruct (read_struct content _ 0) as [vs|x] eqn:E.
  2:{ eexists. split; [reflexivity|]. intros e He. apply read_struct_err in E; [congruence|lia]. }
  apply read_struct_fval in E; [|exact Hb|kinds_wf]. inv2 E.
  repeat match goal with H : fval_ok (FU _ _) ?v |- _ => is_var v; destruct v as [|]; [|contradiction] end.
  destruct (existsb _ _) eqn:Es; [|eexists; split; [reflexivity|]; intros e He; congruence].
  apply i2_entries_ends; [exact Hb| |lia|unfold len; lia]. apply existsb_exists in Es as (y & I & Ex). apply Z.eqb_eq in Ex. subst. exact I.
Qed.
Print Assumptions C68_info2_ends.

(** Examples: the name "C:\a". *)
Definition ex_name : str := [67; 58; 92; 97].
Definition ex_wide : bytes := [67; 0; 58; 0; 92; 0; 97; 0; 0; 0].
Definition ex_ansi (remnant : bytes) : bytes := ex_name ++ [0] ++ remnant ++ repeat 0 (255 - length remnant).

Definition ex_info2 (remnant : bytes) : bytes :=
  le_enc 4 5 ++ le_enc 4 1 ++ le_enc 4 1 ++ le_enc 4 800 ++ le_enc 4 0 ++
  ex_ansi remnant ++ le_enc 4 1 ++ le_enc 4 2 ++ le_enc 8 127000000000000000 ++ le_enc 4 4096 ++ ex_wide ++ remnant ++ repeat 0 (510 - length remnant).

(** A decoder that refuses the byte 0x81, as that of code page 1252. *)
Definition ex_cp (d : bytes) : option str := if existsb (Z.eqb 129) d then None else Some d.

Example C68_case :
  read_rb (metadata_head 1 7 9 ++ ex_wide ++ [1]) = Ok (mkrb 1 9 7 ex_name) /\
  read_rb (metadata_head 2 7 9 ++ le_enc 4 5 ++ ex_wide) = Ok (mkrb 2 9 7 ex_name) /\
  read_rb (metadata_head 3 7 9 ++ le_enc 4 5 ++ ex_wide) = Err ParseError /\
  read_info2 1000 ex_cp true (ex_info2 [1; 2]) = Done (Ok [mkinfo2 (ex_ansi [1; 2]) 1 2 127000000000000000 4096 (Some ex_name)]).
Proof. repeat split; vm_compute; reflexivity. Qed.

(** With debug output a file is refused because of remnant data behind the end of a name, which
    the format allows, although the entry is otherwise read. *)
Theorem C68_remnant_refuted : exists content l, info2 800 l content /\
  read_info2 (S (length content)) ex_cp false content = Done (Ok l) /\ read_info2 (S (length content)) ex_cp true content = Done (Err ParseError) /\
  Forall (fun e => exists s r, i2_name e = s ++ [0] ++ r /\ ex_cp s <> None) l.
Proof.
  exists (ex_info2 [129]), [mkinfo2 (ex_ansi [129]) 1 2 127000000000000000 4096 (Some ex_name)].
  assert (R : read_info2 (S (length (ex_info2 [129]))) ex_cp false (ex_info2 [129]) = Done (Ok [mkinfo2 (ex_ansi [129]) 1 2 127000000000000000 4096 (Some ex_name)])) by (vm_compute; reflexivity).
  split; [|split; [exact R|split; [vm_compute; reflexivity|]]].
  - apply C68_info2 in R; [|apply is_bytes_forallb; vm_compute; reflexivity]. destruct R as [(size & I) _]. assert (size = 800); [|subst; exact I].
    destruct I as (u1 & c & u2 & u3 & ds & _ & _ & _ & _ & _ & F & _). inversion F as [|? ? ? ? B]; subst. destruct B as (_ & _ & _ & _ & _ & w & _ & [(_ & B & _)|(B & _)]); [discriminate|exact B].
  - constructor; [|constructor]. exists ex_name, ([129] ++ repeat 0 254). split; [reflexivity|discriminate].
Qed.
Print Assumptions C68_remnant_refuted.

(** The values of the header are not shown in the debug output, for any header. *)
Theorem C68_header_refuted : forall callback u1 count u2 size u3, i2_header_text callback u1 count u2 size u3 = Ok [10].
Proof. reflexivity. Qed.
Print Assumptions C68_header_refuted.

(** In format 2 characters behind the end-of-string character are part of the name. *)
Theorem C68_end_refuted : read_rb (metadata_head 2 7 9 ++ le_enc 4 4 ++ [97; 0; 0; 0; 98; 0; 0; 0]) = Ok (mkrb 2 9 7 [97; 0; 98]).
Proof. vm_compute. reflexivity. Qed.
Print Assumptions C68_end_refuted.

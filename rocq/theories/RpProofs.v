From Verif Require Import Base BaseFacts CoreModel CoreProofs SeqModel SeqSpec SeqFacts Utf16Model Utf16Spec Utf16Facts RdModel RdSpec RdFacts RbProofs RpModel RpSpec.

Lemma header_reads : reads rd_rp_header rp_information.
Proof.
  eapply reads_iff.
  - unfold rd_rp_header. reads_tac fail.
  - intros h d Hd. split.
    + intros (e & d1 & r1 & [He ->] & (t & d2 & r2 & [Ht ->] & (s & d3 & r3 & [Hs ->] & (w & d4 & r4 & U & [-> ->] & ->) & ->) & ->) & ->).
      cbn [fval_ok enc_field] in *. split; [exact He|]. split; [exact Ht|]. split; [exact Hs|]. exists d4. split; [exact U|]. rewrite app_nil_r. reflexivity.
    + destruct h as [e t s w]. cbn [rh_event rh_type rh_sequence rh_description rp_information]. intros (He & Ht & Hs & x & U & ->).
      exists e, (le_enc 4 e), (le_enc 4 t ++ le_enc 8 s ++ x). split; [split; [exact He|reflexivity]|]. split; [|reflexivity].
      exists t, (le_enc 4 t), (le_enc 8 s ++ x). split; [split; [exact Ht|reflexivity]|]. split; [|reflexivity].
      exists s, (le_enc 8 s), x. split; [split; [exact Hs|reflexivity]|]. split; [|reflexivity].
      exists w, x, []. split; [exact U|]. split; [split; reflexivity|]. rewrite app_nil_r. reflexivity.
Qed.

(** The information ends with the end-of-string character. *)
Lemma information_end h d : rp_information h d -> exists d', d = d' ++ [0].
Proof.
  intros (_ & _ & _ & t & (_ & t' & _ & ->) & ->). exists (le_enc 4 (rh_event h) ++ le_enc 4 (rh_type h) ++ le_enc 8 (rh_sequence h) ++ t' ++ [0]).
  rewrite <- !app_assoc. reflexivity.
Qed.

Lemma information_len h d : rp_information h d -> 18 <= len d.
Proof.
  intros (_ & _ & _ & t & (_ & t' & _ & ->) & ->). rewrite !len_app, !len_le_enc. change (len [0; 0]) with 2. pose proof (len_nonneg t'). lia.
Qed.

(** Either there is information at the begin of the file, or the file is refused. *)
Lemma header_cases content : is_bytes content ->
  (exists h d rest, content = d ++ rest /\ rp_information h d /\ rd_rp_header content 0 = Ok (h, len d)) \/
  (rd_rp_header content 0 = Err ParseError /\ forall h d rest, content = d ++ rest -> ~ rp_information h d).
Proof.
  intros Hb. pose proof (len_nonneg content). destruct (header_reads content 0 Hb ltac:(lia)) as [R1 R2].
  destruct (rd_rp_header content 0) as [[h p]|x] eqn:E.
  - left. destruct (proj1 (R1 h p) eq_refl) as (d & I & S & ->). apply stored_at_0 in S as [rest ->]. exists h, d, rest. auto.
  - right. split; [f_equal; apply R2; reflexivity|]. intros h d rest -> I. assert (Q : Err x = Ok (h, 0 + len d)); [|discriminate].
    apply R1. exists d. split; [exact I|]. split; [|reflexivity]. exists [], rest. split; reflexivity.
Qed.

Lemma time_at pre d : is_bytes (pre ++ d) -> len d = 8 -> rd_int (FU LE 8) (pre ++ d) (len (pre ++ d) - 8) = Ok (le_int d, len (pre ++ d)).
Proof.
  intros Hb L. pose proof (len_nonneg pre). assert (Hd : is_bytes d) by (apply Forall_app in Hb as [_ Hb]; exact Hb).
  destruct (reads_int (FU LE 8) ltac:(cbn; lia) (pre ++ d) (len (pre ++ d) - 8) Hb ltac:(rewrite len_app; lia)) as [R _]. apply R.
  exists d. rewrite len_app, L. split; [split|split; [|lia]].
  - cbn [fval_ok]. pose proof (le_int_bounds d Hd) as B. rewrite L in B. exact B.
  - cbn [enc_field]. replace 8%nat with (length d) by (unfold len in L; lia). rewrite le_enc_int by exact Hd. reflexivity.
  - exists pre, []. rewrite app_nil_r. split; [reflexivity|lia].
Qed.

(** What is read behind the information, by the number of bytes that follow it. *)
Lemma rp_rest h d rest : is_bytes (d ++ rest) -> rp_information h d -> rd_rp_header (d ++ rest) 0 = Ok (h, len d) ->
  (len rest < 7 /\ read_rp (d ++ rest) = Err ValueError) \/
  (len rest = 7 /\ read_rp (d ++ rest) = Ok (h, rest, le_int (0 :: rest))) \/
  (exists u f, rest = u ++ f /\ len f = 8 /\ read_rp (d ++ rest) = Ok (h, u, le_int f)).
Proof.
  intros Hb I E. unfold read_rp. rewrite E. cbn [bind]. unfold raw_read.
  replace (len (d ++ rest) - 8 - len d) with (len rest - 8) by (rewrite len_app; lia). destruct (Z.ltb_spec (len rest - 8) (-1)).
  { left. split; [lia|reflexivity]. }
  right. rewrite zskipn_app_len by reflexivity. destruct (Z.eqb_spec (len rest - 8) (-1)) as [E7|N7]; cbn [bind].
  - left. split; [lia|]. destruct (information_end _ _ I) as [d' ->]. rewrite <- app_assoc in *. rewrite (time_at d' ([0] ++ rest)); [reflexivity|exact Hb|].
    cbn [app]. rewrite len_cons. lia.
  - right. exists (zfirstn (len rest - 8) rest), (zskipn (len rest - 8) rest). split; [rewrite zfirstn_zskipn; reflexivity|].
    assert (L : len (zskipn (len rest - 8) rest) = 8) by (rewrite len_zskipn; lia). split; [exact L|].
    assert (T : rd_int (FU LE 8) (d ++ rest) (len (d ++ rest) - 8) = Ok (le_int (zskipn (len rest - 8) rest), len (d ++ rest))); [|rewrite T; reflexivity].
    assert (G : forall w, w = (d ++ zfirstn (len rest - 8) rest) ++ zskipn (len rest - 8) rest -> is_bytes w -> rd_int (FU LE 8) w (len w - 8) = Ok (le_int (zskipn (len rest - 8) rest), len w)).
    { intros w -> Hw. apply time_at; assumption. }
    apply G; [|exact Hb]. rewrite <- app_assoc, zfirstn_zskipn. reflexivity.
Qed.

Lemma app_split {A} (a b c d : list A) : length a = length c -> a ++ b = c ++ d -> a = c /\ b = d.
Proof. revert c. induction a as [|x a IH]; intros [|y c] L E; try discriminate; [auto|]. injection L as L. injection E as -> E. destruct (IH c L E) as [-> ->]. auto. Qed.

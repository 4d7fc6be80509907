(** Properties of the time zone information file reader. *)

From Verif Require Import Base BaseFacts CoreModel CoreProofs VarModel SeqModel SeqFacts TzModel TzSpec TzProofs.

(** *** C56: time zone information files *)

(** Files are accepted exactly if they are as large as the header says and have transition
    times; the sizes of both blocks are those of the first header. *)
Theorem C56_accepted : forall content, is_bytes content ->
  ((exists f, read_tzif content = Ok f) <-> tz_accepted content).
Proof.
  intros content Hb. unfold read_tzif.
  pose proof (tz_information_closed 4 content Hb ltac:(lia)) as H4. pose proof (tz_information_closed 8 content Hb ltac:(lia)) as H8.
  rewrite tz_header_closed in H4, H8.
  destruct ((44 <=? len content) && list_eqb (zfirstn 4 content) (s2z "TZif") && existsb (Z.eqb (tz_version (tz_header_of content))) [0; 50; 51]) eqn:E.
  - apply andb_prop in E. destruct E as [E Ev]. apply andb_prop in E. destruct E as [El Es]. apply list_eqb_eq in Es.
    assert (El' : 44 <= len content) by lia.
    assert (V : znth_error content 4 = Some (tz_version (tz_header_of content))).
    { destruct content as [|x0 [|x1 [|x2 [|x3 [|x4 r]]]]]; try (cbn in El; lia). cbn [znth_error Z.eqb Z.sub Z.add Z.opp Z.pos_sub Pos.pred_double].
      unfold tz_header_of. cbn [tz_version]. rewrite zskipn_skipn, zfirstn_firstn. cbn [Z.to_nat Pos.to_nat Pos.iter_op Nat.add skipn firstn].
      unfold be_int. cbn [fold_left]. reflexivity. }
    change (Z.of_nat 4) with 4 in H4. change (Z.of_nat 8) with 8 in H8.
    destruct ((0 <? count_at content 32) && (tz_size 4 content <=? len content)) eqn:C4.
    + destruct H4 as (l & _ & i & _ & H4). rewrite H4. cbn [bind]. 
      destruct (existsb (Z.eqb (tz_version (tz_header_of content))) [50; 51]) eqn:E2.
      * assert (T : tz_version (tz_header_of content) = 50 \/ tz_version (tz_header_of content) = 51) by (cbn [existsb] in E2; lia).
        destruct ((0 <? count_at content 32) && (tz_size 8 content <=? len content)) eqn:C8.
        -- destruct H8 as (l8 & _ & i8 & _ & H8). rewrite H8. cbn [bind]. split; [|eauto]. intros _.
           split; [lia|]. split; [exact Es|]. split; [lia|]. split; [lia|]. exists (tz_version (tz_header_of content)). split; [exact V|]. right. split; [exact T|lia].
        -- rewrite H8. cbn [bind]. split; [intros [f F]; discriminate F|]. intros (_ & _ & P & _ & v & Ev' & D).
           exfalso. assert (Ew : v = tz_version (tz_header_of content)) by congruence. clear V. lia.
      * assert (T : tz_version (tz_header_of content) = 0) by (cbn [existsb] in Ev, E2; lia).
        split; [|eauto]. intros _. split; [lia|]. split; [exact Es|]. split; [lia|]. split; [lia|].
        exists 0. split; [rewrite <- T; exact V|]. left. reflexivity.
    + rewrite H4. cbn [bind]. split; [intros [f F]; discriminate F|]. intros (_ & _ & P & Q & _). exfalso. lia.
  - rewrite H4. cbn [bind]. split; [intros [f F]; discriminate F|]. intros (P & Q & _ & _ & v & Ev & D). exfalso.
    apply list_eqb_eq in Q. rewrite Q in E.
    assert (V : tz_version (tz_header_of content) = v).
    { destruct content as [|x0 [|x1 [|x2 [|x3 [|x4 r]]]]]; try (cbn in P; lia). cbn [znth_error Z.eqb Z.sub Z.add Z.opp Z.pos_sub Pos.pred_double] in Ev.
      unfold tz_header_of. cbn [tz_version]. rewrite zskipn_skipn, zfirstn_firstn. cbn [Z.to_nat Pos.to_nat Pos.iter_op Nat.add skipn firstn].
      unfold be_int. cbn [fold_left]. injection Ev as <-. reflexivity. }
    rewrite V in E. cbn [existsb] in E. lia.
Qed.
Print Assumptions C56_accepted.

(** Any other file is a ParseError. *)
Theorem C56_errors : forall content e, is_bytes content -> read_tzif content = Err e -> e = ParseError.
Proof.
  intros content e Hb H. unfold read_tzif in H.
  pose proof (tz_information_closed 4 content Hb ltac:(lia)) as H4. pose proof (tz_information_closed 8 content Hb ltac:(lia)) as H8.
  rewrite tz_header_closed in H4, H8. destruct (_ && _ && _) in H4, H8.
  - destruct (_ && _) in H4.
    + destruct H4 as (l & _ & i & _ & H4). rewrite H4 in H. cbn [bind] in H. destruct (existsb _ _) in H; [|discriminate].
      destruct (_ && _) in H8.
      * destruct H8 as (l8 & _ & i8 & _ & H8). rewrite H8 in H. discriminate.
      * rewrite H8 in H. cbn [bind] in H. congruence.
    + rewrite H4 in H. cbn [bind] in H. congruence.
  - rewrite H4 in H. cbn [bind] in H. congruence.
Qed.
Print Assumptions C56_errors.

Lemma tz_table32 version reserved b rest : In version [0; 50; 51] -> length reserved = 15%nat -> is_bytes reserved ->
  tz_block_ok 4 b -> tb_times b <> [] ->
  exists h pos, tz_read_information 4 (tz_header_bytes version reserved b ++ tz_body 4 b ++ rest) = Ok (h, mktzt (tb_times b) (tb_index b), pos) /\
    tz_version h = version.
Proof.
  intros Hv Hr Hrb Hok Hne. pose proof Hok as (Ht & Hi & Hl & Hty & Hle & _).
  destruct (tz_counts version reserved b (tz_body 4 b ++ rest) 4 Hv Hr Hrb Hok) as (Eh & _ & _ & _ & E32 & _ & _ & _ & Es).
  unfold tz_read_information. rewrite Eh. cbn [bind]. unfold tz_read_times. cbn [tz_times].
  assert (Lt : len (concat (map (fun t => be_enc 4 (t mod 256 ^ Z.of_nat 4)) (tb_times b))) = Z.of_nat 4 * len (tb_times b))
    by (apply len_concat_map; intros; apply len_be_enc).
  assert (LH : len (tz_header_bytes version reserved b) = 44) by (apply (tz_raw_len version reserved (counts b)); [exact Hr|reflexivity]).
  assert (Li : len (tb_index b) = len (tb_times b)) by (unfold len; rewrite Hl; reflexivity).
  unfold tz_body. rewrite <- !app_assoc.
  rewrite read_next_app by (symmetry; assumption). cbn [bind].
  assert (S1 : seq_bs (FS BE 4) (len (tb_times b)) (concat (map (fun t => be_enc 4 (t mod 256 ^ Z.of_nat 4)) (tb_times b))) = Ok (tb_times b)).
  { pose proof (seq_bs_enc (FS BE 4) (tb_times b) [] ltac:(cbn; lia) Hne) as S1. rewrite app_nil_r in S1. apply S1.
    eapply Forall_impl; [|exact Ht]. intros t Hx. split; [lia|exact Hx]. }
  rewrite S1. cbn [as_parse_error bind]. unfold tz_read_index. cbn [tz_times]. rewrite Z.mul_1_l.
  rewrite (app_assoc (tz_header_bytes version reserved b)).
  rewrite read_next_app by (rewrite ?len_app, ?LH, ?Lt, ?Li; reflexivity). cbn [bind].
  assert (S2 : seq_bs (FU BE 1) (len (tb_times b)) (tb_index b) = Ok (tb_index b)).
  { rewrite <- Li. assert (Hni : tb_index b <> []) by (intros E; rewrite E in Hl; destruct (tb_times b); [contradiction|discriminate Hl]).
    pose proof (seq_bs_enc (FU BE 1) (tb_index b) [] ltac:(cbn; lia) Hni) as S2. rewrite app_nil_r in S2.
    replace (concat (map (fun z => enc_field (FU BE 1) (VI z)) (tb_index b))) with (tb_index b) in S2.
    - apply S2. eapply Forall_impl; [|exact Hi]. intros z Hz. exact Hz.
    - clear -Hi. induction Hi as [|z l Hz H IH]; [reflexivity|]. cbn [map concat]. rewrite <- IH. cbn [enc_field enc_int].
      unfold be_enc. cbn [le_enc rev app]. unfold is_byte in Hz. rewrite Z.mod_small by lia. reflexivity. }
  rewrite S2. cbn [as_parse_error bind]. cbn [tz_types tz_chars tz_leap tz_standard tz_utc].
  rewrite (app_assoc _ (tb_index b)).
  rewrite read_next_app by (rewrite ?len_app, ?LH, ?Lt, ?Li, ?(len_concat 6) by exact Hty; reflexivity). cbn [bind].
  rewrite (app_assoc _ (concat (tb_types b))).
  rewrite read_next_app by (rewrite ?len_app, ?LH, ?Lt, ?Li, ?(len_concat 6) by exact Hty; reflexivity). cbn [bind].
  rewrite (app_assoc _ (tb_chars b)).
  rewrite read_next_app by (rewrite ?len_app, ?LH, ?Lt, ?Li, ?(len_concat 6) by exact Hty; rewrite ?(len_concat 8) by exact Hle; reflexivity). cbn [bind].
  rewrite (app_assoc _ (concat (tb_leap b))). rewrite Z.mul_1_l.
  rewrite read_next_app by (rewrite ?len_app, ?LH, ?Lt, ?Li, ?(len_concat 6) by exact Hty; rewrite ?(len_concat 8) by exact Hle; reflexivity). cbn [bind].
  rewrite (app_assoc _ (tb_standard b)). rewrite Z.mul_1_l.
  rewrite read_next_app by (rewrite ?len_app, ?LH, ?Lt, ?Li, ?(len_concat 6) by exact Hty; rewrite ?(len_concat 8) by exact Hle; reflexivity). cbn [bind].
  eexists. eexists. split; reflexivity.
Qed.

(** A file of version 1 with transition times is read, whatever follows. *)
Theorem C56_version1 : forall reserved b rest, length reserved = 15%nat -> is_bytes reserved -> tz_block_ok 4 b -> tb_times b <> [] ->
  read_tzif (tzif1 reserved b ++ rest) = Ok (mktzf 0 (mktzt (tb_times b) (tb_index b)) None).
Proof.
  intros reserved b rest Hr Hrb Hok Hne. unfold read_tzif, tzif1. rewrite <- app_assoc.
  destruct (tz_table32 0 reserved b rest ltac:(left; reflexivity) Hr Hrb Hok Hne) as (h & pos & E & V).
  rewrite E. cbn [bind]. rewrite V. reflexivity.
Qed.
Print Assumptions C56_version1.

(** If a file of a later version is read, the version and the first table are right, but ... *)
Theorem C56_version2_first_table : forall version reserved reserved' b b' footer f, version = 50 \/ version = 51 ->
  length reserved = 15%nat -> is_bytes reserved -> tz_block_ok 4 b -> tb_times b <> [] ->
  read_tzif (tzif2 version reserved reserved' b b' footer) = Ok f ->
  tf_version f = version /\ tf_table32 f = mktzt (tb_times b) (tb_index b).
Proof.
  intros version reserved reserved' b b' footer f Hv Hr Hrb Hok Hne H. unfold read_tzif, tzif2 in H.
  destruct (tz_table32 version reserved b (tz_header_bytes version reserved' b' ++ tz_body 8 b' ++ [10] ++ footer ++ [10])
    ltac:(cbn [In]; lia) Hr Hrb Hok Hne) as (h & pos & E & V).
  rewrite E in H. cbn [bind] in H. destruct (existsb _ _) in H.
  - destruct (tz_read_information 8 _) as [[[h' t'] p']|]; [|discriminate H]. cbn [bind] in H.
    split; [transitivity (tz_version h); [|exact V]|]; assert (F : f = mktzf (tz_version h) (mktzt (tb_times b) (tb_index b))
      (Some (t', zskipn p' (tz_header_bytes version reserved b ++ tz_body 4 b ++ tz_header_bytes version reserved' b' ++ tz_body 8 b' ++ [10] ++ footer ++ [10])))) by congruence;
      rewrite F; reflexivity.
  - split; [transitivity (tz_version h); [|exact V]|]; assert (F : f = mktzf (tz_version h) (mktzt (tb_times b) (tb_index b)) None) by congruence; rewrite F; reflexivity.
Qed.
Print Assumptions C56_version2_first_table.

(** ... the 64-bit times are read from the 32-bit times: the first one consists of the first two
    32-bit times, whatever the second block has. *)
Theorem C56_version2_times_refuted : forall version reserved reserved' b b' footer f t1 t2 ts, version = 50 \/ version = 51 ->
  length reserved = 15%nat -> is_bytes reserved -> is_bytes (tzif2 version reserved reserved' b b' footer) ->
  tz_block_ok 4 b -> tb_times b = t1 :: t2 :: ts ->
  read_tzif (tzif2 version reserved reserved' b b' footer) = Ok f ->
  exists table string r, tf_table64 f = Some (table, string) /\ tt_times table = (t1 * 2 ^ 32 + t2 mod 2 ^ 32) :: r /\
    len (tt_times table) = len (tb_times b).
Proof.
  intros version reserved reserved' b b' footer f t1 t2 ts Hv Hr Hrb Hb Hok Et H.
  set (content := tzif2 version reserved reserved' b b' footer) in *.
  assert (Hv' : In version [0; 50; 51]) by (cbn [In]; lia).
  destruct (tz_counts version reserved b (tz_body 4 b ++ tz_header_bytes version reserved' b' ++ tz_body 8 b' ++ [10] ++ footer ++ [10]) 4 Hv' Hr Hrb Hok)
    as (Eh & _ & _ & _ & E32 & _ & _ & _ & Es).
  fold content in Eh, E32, Es. 
  change (tz_header_bytes version reserved b ++ tz_body 4 b ++ tz_header_bytes version reserved' b' ++ tz_body 8 b' ++ [10] ++ footer ++ [10]) with content in Eh, E32, Es.
  pose proof (tz_information_closed 4 content Hb ltac:(lia)) as H4. pose proof (tz_information_closed 8 content Hb ltac:(lia)) as H8.
  rewrite Eh in H4, H8. unfold read_tzif in H. destruct (_ && _) in H4; [|rewrite H4 in H; discriminate H].
  destruct H4 as (l & _ & i & _ & H4). rewrite H4 in H. cbn [bind tz_version] in H.
  replace (existsb (Z.eqb version) [50; 51]) with true in H.
  2:{ symmetry. apply existsb_exists. exists version. split; [cbn [In]; lia|apply Z.eqb_refl]. }
  destruct (_ && _) in H8; [|rewrite H8 in H; discriminate H].
  destruct H8 as (l8 & El8 & i8 & _ & H8). rewrite H8 in H. cbn [bind] in H.
  assert (F : f = mktzf version (mktzt l i) (Some (mktzt l8 i8, zskipn (tz_size (Z.of_nat 8) content) content))) by congruence.
  rewrite F. cbn [tf_table64]. rewrite E32 in El8. assert (Ln : 2 <= len (tb_times b)) by (rewrite Et, !len_cons; pose proof (len_nonneg ts); lia).
  destruct (seq_bs_head _ _ _ _ El8 ltac:(lia)) as [r Er].
  exists (mktzt l8 i8), (zskipn (tz_size (Z.of_nat 8) content) content), r. split; [reflexivity|]. cbn [tt_times].
  split.
  - rewrite Er. f_equal. cbn [map_field fsize endian_int]. rewrite Es. unfold tz_body. rewrite Et. cbn [map concat]. rewrite <- !app_assoc.
    pose proof Hok as (Ht & _). rewrite Et in Ht. apply Forall_inv in Ht.
    rewrite <- (glue t1 t2) by (change (2 ^ 31) with (2 ^ (8 * Z.of_nat 4 - 1)); exact Ht). f_equal.
  - assert (X : exists l', seq_bs (FS BE 8) (len (tb_times b)) (zfirstn (Z.of_nat 8 * len (tb_times b)) (zskipn 44 content)) = Ok l' /\ len l' = len (tb_times b)).
    { destruct (seq_bs_size (FS BE 8) (len (tb_times b)) (zfirstn (Z.of_nat 8 * len (tb_times b)) (zskipn 44 content))) as (l' & E' & L'); eauto; try (cbn; lia).
      unfold seq_bs, struct_bs in El8. destruct (zfirstn _ _) as [|x d] eqn:Ed; [discriminate|].
      destruct (map_struct _ _) eqn:Em in El8; [|discriminate].
      destruct (Z.le_gt_cases (len (tb_times b) * Z.of_nat (fsize (FS BE 8))) (len (x :: d))); [assumption|].
      rewrite map_struct_none in Em; [discriminate|]. rewrite struct_size_repeat. unfold len in *. lia. }
    destruct X as (l' & E' & L'). congruence.
Qed.
Print Assumptions C56_version2_times_refuted.

(** A file without transition times in the first block is rejected, whatever its version and
    whatever follows; files for UTC and files in the current "slim" format are such files. *)
Theorem C56_no_transitions_refuted : forall version reserved b rest, In version [0; 50; 51] ->
  length reserved = 15%nat -> is_bytes reserved -> tz_block_ok 4 b -> tb_times b = [] ->
  read_tzif (tz_header_bytes version reserved b ++ rest) = Err ParseError.
Proof.
  intros version reserved b rest Hv Hr Hrb Hok He.
  destruct (tz_counts version reserved b rest 4 Hv Hr Hrb Hok) as (Eh & _ & _ & _ & _ & _ & _ & L & _).
  unfold read_tzif, tz_read_information. rewrite Eh. cbn [bind]. unfold tz_read_times. cbn [tz_times]. rewrite He. change (len (@nil Z)) with 0. rewrite Z.mul_0_r.
  rewrite read_next_ok by lia. destruct (Z.leb_spec (44 + 0) (len (tz_header_bytes version reserved b ++ rest))); [|lia]. cbn [bind].
  rewrite zfirstn_0 by lia. reflexivity.
Qed.
Print Assumptions C56_no_transitions_refuted.

Definition ex_tz : tz_block := mktzb [-1; 100] [0; 1] [[0; 0; 14; 16; 0; 0]; [0; 0; 28; 32; 1; 4]] (s2z "CET" ++ [0] ++ s2z "CEST" ++ [0]) [] [0; 1] [1; 1].
Definition ex_tz64 : tz_block := mktzb [-5000000000; 5000000000] [0; 1] [[0; 0; 14; 16; 0; 0]; [0; 0; 28; 32; 1; 4]] (s2z "CET" ++ [0] ++ s2z "CEST" ++ [0]) [] [0; 1] [1; 1].

Example C56_case :
  read_tzif (tzif1 (repeat 0 15) ex_tz) = Ok (mktzf 0 (mktzt [-1; 100] [0; 1]) None) /\
  match read_tzif (tzif2 50 (repeat 0 15) (repeat 0 15) ex_tz ex_tz64 (s2z "CET-1CEST")) with
  | Ok f => tf_version f = 50 /\ tt_times (tf_table32 f) = [-1; 100] /\
            match tf_table64 f with Some (t, _) => tt_times t = [-4294967196; 281475212640256] | None => False end
  | Err _ => False
  end /\
  read_tzif (removelast (tzif1 (repeat 0 15) ex_tz)) = Err ParseError.
Proof. vm_compute. repeat split. Qed.

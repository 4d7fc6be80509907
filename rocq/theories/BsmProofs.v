From Verif Require Import Base BaseFacts CoreModel CoreProofs VarModel VarFacts SeqModel SeqSpec SeqFacts DictModel MemModel MemSpec MemFacts BsmModel BsmSpec.

Ltac members t H := unfold bsm_members in H; destruct t as [|p|p]; try discriminate H; do 8 (try destruct p as [p|p|]; try discriminate H); injection H as <-.

Lemma members_wf t ms : bsm_members t = Some ms -> Forall mem_wf ms /\ 17 <= t <= 130.
Proof. intros H. members t H; (split; [|lia]); cbn [app repeat bsm_subject bsm_header]; repeat (apply Forall_cons; [cbn; try exact I; lia|]); apply Forall_nil. Qed.

(** The stored form of tokens in terms of the members of the model. *)
Definition token_mem (k : token) (d : bytes) : Prop :=
  exists ms data, bsm_members (fst k) = Some ms /\ mems_enc [] ms (snd k) data /\ d = fst k :: data.

Lemma mm_nil vs vals d : mems_enc vs [] vals d <-> vals = [] /\ d = [].
Proof. split; [intros E; inversion E; auto|intros [-> ->]; constructor]. Qed.
Lemma mm_cons vs m ms vals d : mems_enc vs (m :: ms) vals d <-> exists v vals' d1 d2, vals = v :: vals' /\ d = d1 ++ d2 /\ mem_enc vs m v d1 /\ mems_enc (vs ++ [v]) ms vals' d2.
Proof. split; [intros E; inversion E; subst; eauto 10|intros (v & vals' & d1 & d2 & -> & -> & A & B); constructor; assumption]. Qed.
Lemma mm_u vs n v d : mem_enc vs (MInt (FU BE n)) v d <-> exists z, v = MI z /\ 0 <= z < 256 ^ Z.of_nat n /\ d = be_enc n z.
Proof. split; [intros E; inversion E; subst; eexists; split; [reflexivity|]; split; [assumption|reflexivity]|intros (z & -> & H & ->); apply (me_int vs (FU BE n)); exact H]. Qed.
Lemma mm_s vs v d : mem_enc vs (MInt (FS BE 4)) v d <-> exists z, v = MI z /\ - 2 ^ 31 <= z < 2 ^ 31 /\ d = be_enc 4 (z mod 2 ^ 32).
Proof.
  split.
  - intros E. inversion E as [k z F| | | | | | | | ]; subst. exists z. split; [reflexivity|]. split; [exact (proj2 F)|reflexivity].
  - intros (z & -> & H & ->). apply (me_int vs (FS BE 4)). split; [lia|exact H].
Qed.
Lemma mm_const vs n c v d : mem_enc vs (MConst (FU BE n) c) v d <-> v = MI c /\ 0 <= c < 256 ^ Z.of_nat n /\ d = be_enc n c.
Proof. split; [intros E; inversion E; subst; split; [reflexivity|]; split; [assumption|reflexivity]|intros (-> & H & ->); apply (me_const vs (FU BE n)); exact H]. Qed.
Lemma mm_data vs f v d : mem_enc vs (MData f) v d <-> v = MB d /\ len d = f vs.
Proof. split; [intros E; inversion E; subst; auto|intros [-> H]; constructor; exact H]. Qed.
Lemma mm_ascii vs f v d : mem_enc vs (MAscii f) v d <-> v = MB d /\ len d = f vs /\ ascii_text d.
Proof. split; [intros E; inversion E; subst; auto|intros (-> & H & A); constructor; [exact H|exact A]]. Qed.
Lemma mm_cstr vs v d : mem_enc vs MCStr v d <-> exists s, v = MB s /\ d = s ++ [0] /\ ~ In 0 s /\ ascii_text s.
Proof. split; [intros E; inversion E; subst; eauto|intros (s & -> & -> & H & A); constructor; [exact H|exact A]]. Qed.
Lemma mm_cstrs vs f v d : mem_enc vs (MCStrs f) v d <-> exists l, v = MS l /\ len l = f vs /\ d = concat (map (fun s => s ++ [0]) l) /\ Forall (fun s => ~ In 0 s /\ ascii_text s) l.
Proof. split; [intros E; inversion E; subst; eauto|intros (l & -> & H & -> & A); constructor; [exact H|exact A]]. Qed.
Lemma nums_ints l : forall d, nums (repeat 4%nat (length l)) l d <-> ints_ok (FU BE 4) l /\ d = enc_ints (FU BE 4) l.
Proof.
  unfold ints_ok, enc_ints. induction l as [|z l IH]; intros d; cbn [length repeat map concat].
  - split; [intros E; inversion E; auto|intros [_ ->]; constructor].
  - split; [intros E; inversion E; subst; match goal with H : nums _ l _ |- _ => apply IH in H as [A ->] end; split; [constructor; assumption|reflexivity]|].
    intros [A ->]. inversion A; subst. constructor; [assumption|]. apply IH. auto.
Qed.
Lemma mm_ints vs f v d : mem_enc vs (MInts (FU BE 4) f) v d <-> exists l, v = ML l /\ len l = f vs /\ nums (repeat 4%nat (length l)) l d.
Proof. split; [intros E; inversion E; subst; eexists; split; [reflexivity|]; split; [assumption|]; apply nums_ints; auto|intros (l & -> & H & A); apply nums_ints in A as [A ->]; constructor; assumption]. Qed.

Lemma nm_nil l d : nums [] l d <-> l = [] /\ d = [].
Proof. split; [intros E; inversion E; auto|intros [-> ->]; constructor]. Qed.
Lemma nm_cons n ns l d : nums (n :: ns) l d <-> exists z l' d', l = z :: l' /\ d = be_enc n z ++ d' /\ 0 <= z < 256 ^ Z.of_nat n /\ nums ns l' d'.
Proof. split; [intros E; inversion E; subst; eauto 10|intros (z & l' & d' & -> & -> & H & E); constructor; assumption]. Qed.

Ltac mem_out := repeat match goal with
  | E : mems_enc _ [] _ _ |- _ => apply mm_nil in E as [-> ->]
  | E : mems_enc _ (_ :: _) _ _ |- _ => apply mm_cons in E as (? & ? & ? & ? & -> & -> & ? & E)
  | E : mem_enc _ (MInt (FU BE _)) _ _ |- _ => apply mm_u in E as (? & -> & ? & ->)
  | E : mem_enc _ (MInt (FS BE _)) _ _ |- _ => apply mm_s in E as (? & -> & ? & ->)
  | E : mem_enc _ (MConst _ _) _ _ |- _ => apply mm_const in E as (-> & ? & ->)
  | E : mem_enc _ (MData _) _ _ |- _ => apply mm_data in E as (-> & E)
  | E : mem_enc _ (fixed _) _ _ |- _ => apply mm_data in E as (-> & E)
  | E : mem_enc _ (MAscii _) _ _ |- _ => apply mm_ascii in E as (-> & E & ?)
  | E : mem_enc _ MCStr _ _ |- _ => apply mm_cstr in E as (? & -> & -> & ? & ?)
  | E : mem_enc _ (MCStrs _) _ _ |- _ => apply mm_cstrs in E as (? & -> & E & -> & ?)
  | E : mem_enc _ (MInts _ _) _ _ |- _ => apply mm_ints in E as (? & -> & E & ?)
  end.

Lemma token_eq k d k' d' : token_enc k d -> k = k' -> d = d' -> token_enc k' d'.
Proof. intros H -> ->. exact H. Qed.

Ltac nums_in := repeat (apply nums_cons; [assumption|]); apply nums_nil.
Ltac in_list := repeat (first [left; reflexivity|right]).
Ltac tk_side := first [nums_in|solve [in_list]|solve [split; [repeat (constructor; [assumption|]); constructor|reflexivity]]|eassumption|lia].
Ltac tk_done := rewrite ?app_nil_r, <- ?app_assoc; cbn [concat map app]; rewrite ?app_nil_r, <- ?app_assoc; reflexivity.
Tactic Notation "tk" uconstr(c) := eapply token_eq; [eapply c|reflexivity|]; [tk_side..|tk_done].

Lemma mem_token k d : token_mem k d -> token_enc k d.
Proof.
  intros (ms & data & M & E & ->). destruct k as [t vs]. cbn [fst snd] in *.
  members t M; unfold bsm_subject, bsm_header in E; cbn [app repeat] in E; mem_out; cbn [mint nth_error app] in *; subst;
  try first [
    tk (tk_ints 0x14 [4; 1; 2; 2; 4; 4]%nat [_; _; _; _; _; _])
  | tk (tk_ints 0x22 [1; 4]%nat [_; _])
  | tk (tk_ints 0x27 [1; 4]%nat [_; _])
  | tk (tk_ints 0x2c [2]%nat [_])
  | tk (tk_ints 0x2f [4]%nat [_])
  | tk (tk_ints 0x32 [4; 4; 4; 4; 2; 2; 2; 2; 2; 2]%nat [_; _; _; _; _; _; _; _; _; _])
  | tk (tk_ints 0x52 [4; 4]%nat [_; _])
  | tk (tk_ints 0x72 [1; 8]%nat [_; _])
  | tk (tk_ints 0x74 [4; 1; 2; 2; 8; 8]%nat [_; _; _; _; _; _])
  | tk tk_trailer
  | tk (tk_attr 0x3e 4%nat) | tk (tk_attr 0x73 8%nat)
  | tk (tk_text 0x11 [4; 4]%nat [_; _]) | tk (tk_text 0x23 [] []) | tk (tk_text 0x28 [] []) | tk (tk_text 0x2d [1; 4]%nat [_; _]) | tk (tk_text 0x60 [] []) | tk (tk_text 0x71 [1; 8]%nat [_; _])
  | tk tk_opaque | tk tk_data
  | tk (tk_subject 0x24 4%nat) | tk (tk_subject 0x26 4%nat) | tk (tk_subject 0x75 8%nat) | tk (tk_subject 0x77 8%nat)
  | tk (tk_subject_ex 0x7a 4%nat) | tk (tk_subject_ex 0x7b 4%nat) | tk (tk_subject_ex 0x7c 8%nat) | tk (tk_subject_ex 0x7d 8%nat)
  | tk (tk_header_ex 0x15 4%nat) | tk (tk_header_ex 0x79 8%nat)
  | tk tk_in_addr | tk tk_ip | tk tk_in_addr_ex | tk (tk_inet 0x80 4) | tk (tk_inet 0x81 16)
  | tk tk_socket | tk tk_unix
  | tk (tk_groups 0x34) | tk (tk_groups 0x3b) | tk (tk_exec 0x3c) | tk (tk_exec 0x3d)].
Qed.

Ltac num_out := repeat match goal with
  | E : nums [] _ _ |- _ => apply nm_nil in E as [? ->]
  | E : nums (_ :: _) _ _ |- _ => apply nm_cons in E as (? & ? & ? & ? & -> & ? & E)
  end.
Ltac mem_in := repeat match goal with
  | |- mems_enc _ [] _ _ => constructor
  | |- mems_enc _ (_ :: _) _ _ => apply mse_cons
  | |- mem_enc _ (MInt (FU BE _)) _ _ => apply mm_u; eexists; split; [reflexivity|]; split; [eassumption|reflexivity]
  | |- mem_enc _ (MInt (FS BE _)) _ _ => apply mm_s; eexists; split; [reflexivity|]; split; [eassumption|reflexivity]
  | |- mem_enc _ (MConst _ _) _ _ => apply mm_const; split; [reflexivity|]; split; [eassumption|reflexivity]
  | |- mem_enc _ (MData _) _ _ => apply mm_data; split; [reflexivity|]; cbn [mint nth_error app]; lia
  | |- mem_enc _ (fixed _) _ _ => apply mm_data; split; [reflexivity|]; cbn [mint nth_error app]; lia
  | |- mem_enc _ (MAscii _) _ _ => apply mm_ascii; split; [reflexivity|]; split; [cbn [mint nth_error app]; lia|assumption]
  | |- mem_enc _ MCStr _ _ => apply mm_cstr; eexists; split; [reflexivity|]; split; [reflexivity|]; split; assumption
  | |- mem_enc _ (MCStrs _) _ _ => apply mm_cstrs; eexists; split; [reflexivity|]; split; [reflexivity|]; split; [reflexivity|assumption]
  | |- mem_enc _ (MInts _ _) _ _ => apply mm_ints; eexists; split; [reflexivity|]; split; [reflexivity|eassumption]
  end.
Lemma mems_eq vs ms vals d d' : mems_enc vs ms vals d -> d = d' -> mems_enc vs ms vals d'.
Proof. intros H <-. exact H. Qed.

Lemma token_mem_in k d : token_enc k d -> token_mem k d.
Proof.
  intros H. unfold token_mem. destruct H; cbn [fst snd];
    repeat match goal with
    | H : In (_, _) _ |- _ => apply in_inv in H as [H|H]; [injection H as <- <-|]
    | H : In _ (_ :: _) |- _ => apply in_inv in H as [<-|H]
    | H : In _ [] |- _ => contradiction
    | H : int32s _ _ |- _ => destruct H as [H ->]
    | H : Forall _ (_ :: _) |- _ => apply Forall_cons_iff in H as [? H]
    end.
  all: repeat match goal with H : len ?s < 2 ^ 16 |- _ => assert (0 <= len s < 256 ^ Z.of_nat 2) by (split; [apply len_nonneg|exact H]); clear H end.
  all: num_out.
  all: try discriminate.
  all: repeat match goal with H : _ :: _ = _ |- _ => first [discriminate H|injection H as]; subst end; subst.
  all: eexists _, _; split; [reflexivity|]; split; [|reflexivity].
  all: unfold bsm_subject, bsm_header; cbn [app repeat map].
  all: eapply mems_eq; [mem_in|].
  all: tk_done.
Qed.

Lemma token_mem_iff k d : token_enc k d <-> token_mem k d.
Proof. split; [apply token_mem_in|apply mem_token]. Qed.

Lemma u1_wf : int_wf (FU BE 1).
Proof. cbn. lia. Qed.

Lemma enc_u1 t : 0 <= t < 256 -> enc_field (FU BE 1) (VI t) = [t].
Proof. intros H. cbn [enc_field enc_int]. unfold be_enc. cbn [le_enc rev app]. rewrite Z.mod_small by lia. reflexivity. Qed.

Lemma token_iff content off k p : is_bytes content -> 0 <= off ->
  (read_token content off = Ok (k, p) <-> exists d, token_enc k d /\ stored_at content off d /\ p = off + len d).
Proof.
  intros Hb Ho. unfold read_token. split.
  - destruct (read_struct content [FU BE 1] off) as [l|] eqn:E; [|discriminate]. destruct (read_int_shape _ _ _ _ Hb u1_wf E) as [t ->]. cbn [bind].
    apply (read_int_iff _ _ _ _ Hb u1_wf) in E as [S F]. cbn [fval_ok] in F. change (256 ^ Z.of_nat 1) with 256 in F. rewrite enc_u1 in S by exact F.
    pose proof (stored_at_inside _ _ _ S) as I. change (len [t]) with 1 in I.
    destruct (bsm_members t) as [ms|] eqn:M; [|discriminate]. destruct (read_mems content (off + 1) [] ms) as [[vs p1]|] eqn:R; [|discriminate]. cbn [bind].
    apply (read_mems_iff _ Hb) in R as (vs' & d & -> & R & S2 & ->); [|apply (members_wf t), M|lia]. intros H.
    assert (k = (t, [] ++ vs')) by congruence. assert (p = off + 1 + len d) by congruence. subst k p. clear H. exists (t :: d). split; [apply mem_token; exists ms, d; auto|].
    split; [|rewrite len_cons; lia]. change (t :: d) with ([t] ++ d). apply stored_at_app. auto.
  - intros (d & T & S & ->). apply token_mem_in in T as (ms & data & M & R & ->). destruct k as [t vs]. cbn [fst snd] in *. destruct (members_wf _ _ M) as [W Ht].
    change (t :: data) with ([t] ++ data) in S. apply stored_at_app in S as [S1 S2]. change (len [t]) with 1 in S2. pose proof (stored_at_inside _ _ _ S2). pose proof (len_nonneg data).
    rewrite (proj2 (read_int_iff content (FU BE 1) off t Hb u1_wf)).
    2:{ rewrite enc_u1 by lia. split; [exact S1|]. cbn. lia. }
    cbn [bind]. rewrite M. assert (E : read_mems content (off + 1) [] ms = Ok (vs, off + 1 + len data)).
    { apply (read_mems_iff _ Hb); [exact W|lia|]. exists vs, data. auto. }
    rewrite E. cbn [bind]. rewrite len_cons. match goal with |- Ok (_, ?a) = Ok (_, ?b) => replace a with b by lia; reflexivity end.
Qed.

Lemma token_err content off e : is_bytes content -> 0 <= off -> read_token content off = Err e -> e = ParseError.
Proof.
  intros Hb Ho. unfold read_token. destruct (read_struct content [FU BE 1] off) as [l|] eqn:E.
  - destruct (read_int_shape _ _ _ _ Hb u1_wf E) as [t ->]. cbn [bind].
    apply (read_int_iff _ _ _ _ Hb u1_wf) in E as [S F]. pose proof (stored_at_inside _ _ _ S) as I. rewrite len_enc_int in I by exact F.
    change (Z.of_nat (fsize (FU BE 1))) with 1 in I.
    destruct (bsm_members t) as [ms|] eqn:M; [|congruence]. destruct (read_mems _ _ _ _) as [[vs p]|] eqn:R; cbn [bind]; [congruence|].
    intros H. apply (read_mems_err _ Hb) in R; [congruence|apply (members_wf t), M|lia].
  - cbn [bind]. intros H. apply read_struct_err in E; [congruence|exact Ho].
Qed.

Lemma token_len k d : token_enc k d -> 1 <= len d.
Proof. intros T. apply token_mem_in in T as (ms & data & _ & _ & ->). rewrite len_cons. pose proof (len_nonneg data). lia. Qed.

(** What the loop reads. *)
Lemma tokens_sound content fuel : is_bytes content -> forall off e pos l p, 0 <= off ->
  record_tokens fuel content off e pos = Done (Ok (l, p)) ->
  exists d, tokens_enc l d /\ (l <> [] -> stored_at content off d /\ p = off + len d) /\ (l = [] -> p = pos /\ e <= off).
Proof.
  intros Hb. induction fuel as [|fuel IH]; intros off e pos l p Ho; cbn [record_tokens].
  - destruct (Z.ltb_spec off e); [discriminate|]. intros E. assert (l = []) by congruence. assert (p = pos) by congruence. subst l p.
    exists []. split; [constructor|]. split; [congruence|auto].
  - destruct (Z.ltb_spec off e).
    2:{ intros E. assert (l = []) by congruence. assert (p = pos) by congruence. subst l p. exists []. split; [constructor|]. split; [congruence|auto]. }
    destruct (read_token content off) as [[k p1]|] eqn:T; [|discriminate]. apply (token_iff _ _ _ _ Hb Ho) in T as (d & T & S & ->).
    pose proof (token_len _ _ T). destruct (fst k =? 19).
    + intros E. assert (l = [k]) by congruence. assert (p = off + len d) by congruence. subst l p. exists (d ++ []). split; [constructor; [exact T|constructor]|].
      rewrite app_nil_r. split; [auto|discriminate].
    + destruct (record_tokens fuel content (off + len d) e (off + len d)) as [[[l1 p2]|]|] eqn:R; [|discriminate|discriminate]. cbn [rbind].
      intros E. assert (l = k :: l1) by congruence. assert (p2 = p) by congruence. subst l p2. apply IH in R as (d1 & T1 & N1 & N2); [|lia].
      exists (d ++ d1). split; [constructor; assumption|]. split; [|discriminate]. intros _. destruct l1 as [|k1 l1].
      * destruct (N2 eq_refl) as [-> _]. inversion T1. subst. rewrite app_nil_r. auto.
      * destruct N1 as [S1 ->]; [discriminate|]. split; [apply stored_at_app; auto|]. rewrite len_app. lia.
Qed.

Lemma tokens_complete content l d t dt e : is_bytes content -> tokens_enc l d -> Forall (fun k => fst k <> 19) l -> fst t = 19 -> token_enc t dt ->
  forall fuel off pos, 0 <= off -> stored_at content off (d ++ dt) -> off + len d < e -> (length l < fuel)%nat ->
  record_tokens fuel content off e pos = Done (Ok (l ++ [t], off + len d + len dt)).
Proof.
  intros Hb T. induction T as [|k l dk dl K T IH]; intros F Et Tt fuel off pos Ho S He Hf.
  - destruct fuel as [|fuel]; [lia|]. cbn [record_tokens]. change (len (@nil Z)) with 0 in *. destruct (Z.ltb_spec off e); [|lia].
    assert (E : read_token content off = Ok (t, off + len dt)) by (apply (token_iff _ _ _ _ Hb Ho); exists dt; auto).
    rewrite E, Et. cbn [Z.eqb Pos.eqb app]. replace (off + 0) with off by lia. reflexivity.
  - destruct fuel as [|fuel]; [lia|]. cbn [record_tokens]. inversion F as [|? ? Nk F']. subst. rewrite <- app_assoc in S. apply stored_at_app in S as [S1 S2].
    pose proof (token_len _ _ K). rewrite len_app in He. assert (Ll : 0 <= len dl) by apply len_nonneg. destruct (Z.ltb_spec off e); [|lia].
    assert (E : read_token content off = Ok (k, off + len dk)) by (apply (token_iff _ _ _ _ Hb Ho); exists dk; auto).
    rewrite E. destruct (Z.eqb_spec (fst k) 19); [contradiction|]. rewrite (IH F' Et Tt fuel _ (off + len dk)); [|lia|exact S2|lia|cbn [length] in Hf; lia].
    cbn [rbind app]. rewrite len_app. match goal with |- Done (Ok (_, ?a)) = Done (Ok (_, ?b)) => replace a with b by lia; reflexivity end.
Qed.

Lemma tokens_ends content : is_bytes content -> forall fuel off e pos, 0 <= off <= len content -> len content - off < Z.of_nat fuel ->
  record_tokens fuel content off e pos <> OutOfFuel.
Proof.
  intros Hb. induction fuel as [|fuel IH]; intros off e pos Ho Hf; cbn [record_tokens]; destruct (off <? e); try discriminate.
  - lia.
  - destruct (read_token content off) as [[k p]|] eqn:T; [|discriminate]. apply (token_iff _ _ _ _ Hb (proj1 Ho)) in T as (d & T & S & ->).
    pose proof (token_len _ _ T). apply stored_at_inside in S. destruct (fst k =? 19); [discriminate|].
    specialize (IH (off + len d) e (off + len d) ltac:(lia) ltac:(lia)).
    destruct (record_tokens fuel content (off + len d) e (off + len d)) as [[[]|]|]; [discriminate|discriminate|contradiction].
Qed.

Lemma tokens_err content : is_bytes content -> forall fuel off e pos x, 0 <= off -> record_tokens fuel content off e pos = Done (Err x) -> x = ParseError.
Proof.
  intros Hb. induction fuel as [|fuel IH]; intros off e pos x Ho; cbn [record_tokens]; destruct (off <? e); try discriminate.
  destruct (read_token content off) as [[k p]|y] eqn:T.
  - apply (token_iff _ _ _ _ Hb Ho) in T as (d & T & S & ->). pose proof (token_len _ _ T). destruct (fst k =? 19); [discriminate|].
    destruct (record_tokens fuel content (off + len d) e (off + len d)) as [[[]|y]|] eqn:R; [discriminate| |discriminate]. cbn [rbind].
    intros E. assert (y = x) by congruence. subst y. eapply IH; [|exact R]. lia.
  - intros E. assert (y = x) by congruence. subst y. eapply token_err; eauto.
Qed.

Lemma is_header_iff t : is_header t = true <-> In t [20; 21; 116; 121].
Proof. unfold is_header. rewrite existsb_exists. split; [intros (x & I & E); apply Z.eqb_eq in E; subst; exact I|intros I; exists t; split; [exact I|apply Z.eqb_refl]]. Qed.

Lemma header_values k d : token_enc k d -> is_header (fst k) = true -> exists a b vs, snd k = MI a :: MI b :: vs /\ 0 <= a < 2 ^ 32.
Proof.
  intros T H. apply token_mem_in in T as (ms & data & M & E & _). rewrite is_header_iff in H.
  assert (exists ms', ms = MInt (FU BE 4) :: MInt (FU BE 1) :: ms') as [ms' ->].
  { destruct H as [H|[H|[H|[H|[]]]]]; rewrite <- H in M; injection M as <-; eexists; reflexivity. }
  inversion E as [|? ? ? v1 d1 vs1 d1' E1 E2]; subst. inversion E2 as [|? ? ? v2 d2 vs2 d2' E3 E4]; subst. inversion E1; inversion E3; subst.
  match goal with A : fval_ok (FU BE 4) _ |- _ => cbn in A end. repeat eexists; try reflexivity; lia.
Qed.

Lemma trailer_values k d : token_enc k d -> fst k = 19 -> exists a, k = (19, [MI 45317; MI a]) /\ 0 <= a < 2 ^ 32.
Proof.
  intros T H. apply token_mem_in in T as (ms & data & M & E & _). destruct k as [t vs]. cbn [fst snd] in *. subst t. injection M as <-.
  inversion E as [|? ? ? v1 d1 vs1 d1' E1 E2]; subst. inversion E2 as [|? ? ? v2 d2 vs2 d2' E3 E4]; subst. inversion E1; inversion E3; inversion E4; subst.
  match goal with A : fval_ok (FU BE 4) _ |- _ => cbn in A end. eexists. split; [reflexivity|lia].
Qed.

Lemma last_snoc {A} (l : list A) x y : last (l ++ [x]) y = x.
Proof. induction l as [|z l IH]; [reflexivity|]. cbn [app]. destruct (l ++ [x]) eqn:E; [destruct l; discriminate|]. exact IH. Qed.

(** A record is read into its tokens. *)
Lemma record_ok content off l d fuel : is_bytes content -> 0 <= off -> bsm_record l d -> stored_at content off d -> (length l <= fuel)%nat ->
  read_bsm_record fuel content off = Done (Ok (l, off + len d)).
Proof.
  intros Hb Ho (h & body & t & -> & (Hh & vs & Eh) & -> & F & T) S Hf.
  assert (exists dh db dt, d = (dh ++ db) ++ dt /\ token_enc h dh /\ tokens_enc (h :: body) (dh ++ db) /\ token_enc (19, [MI 45317; MI (len d)]) dt) as (dh & db & dt & Ed & Th & Tb & Tt).
  { clear Hf S Eh Hh F.
    assert (G : forall a l d0 x, tokens_enc l d0 -> l = a ++ [x] -> exists d1 d2, d0 = d1 ++ d2 /\ tokens_enc a d1 /\ token_enc x d2).
    { clear. induction a as [|k a IH]; intros l d0 x T E; subst l; cbn [app] in T; inversion T as [|? ? d1 d2 K T']; subst.
      - inversion T'. subst. exists [], d1. rewrite app_nil_r. split; [reflexivity|]. split; [constructor|exact K].
      - destruct (IH _ _ _ T' eq_refl) as (e1 & e2 & -> & A & B). exists (d1 ++ e1), e2. rewrite app_assoc. split; [reflexivity|]. split; [constructor; assumption|exact B]. }
    destruct (G (h :: body) _ _ _ T eq_refl) as (d1 & dt & E1 & A & B). inversion A as [|? ? dh db K T']. subst d1. exists dh, db, dt.
    split; [exact E1|]. split; [exact K|]. split; [constructor; assumption|exact B]. }
  unfold read_bsm_record. assert (S' := S). rewrite Ed in S'. rewrite <- app_assoc in S'. apply stored_at_app in S' as [S1 S2].
  assert (E : read_token content off = Ok (h, off + len dh)) by (apply (token_iff _ _ _ _ Hb Ho); exists dh; auto).
  rewrite E. rewrite (proj2 (is_header_iff _) Hh). cbn [negb]. rewrite Eh. change (mint 1 (MI (len d) :: MI 11 :: vs)) with 11. cbn [Z.eqb Pos.eqb negb].
  change (mint 0 (MI (len d) :: MI 11 :: vs)) with (len d).
  pose proof (token_len _ _ Tt) as Lt.
  rewrite (tokens_complete content (h :: body) (dh ++ db) (19, [MI 45317; MI (len d)]) dt (off + len d) Hb Tb).
  - cbn [rbind app]. change (h :: body ++ [(19, [MI 45317; MI (len d)])]) with ((h :: body) ++ [(19, [MI 45317; MI (len d)])]). rewrite last_snoc.
    unfold record_size. cbn [fst is_header existsb Z.eqb Pos.eqb orb snd]. change (mint 1 [MI 45317; MI (len d)]) with (len d). rewrite Z.eqb_refl.
    match goal with |- Done (Ok (_, ?a)) = Done (Ok (_, ?b)) => replace a with b; [reflexivity|] end.
    replace (len d) with (len ((dh ++ db) ++ dt)) by (rewrite <- Ed; reflexivity). rewrite !len_app. lia.
  - constructor; [|exact F]. intros E19. rewrite E19 in Hh. cbn [In] in Hh. lia.
  - reflexivity.
  - exact Tt.
  - exact Ho.
  - rewrite <- Ed. exact S.
  - replace (len d) with (len ((dh ++ db) ++ dt)) by (rewrite <- Ed; reflexivity). rewrite !len_app. lia.
  - cbn [length] in *. rewrite app_length in Hf. cbn [length] in Hf. lia.
Qed.

Lemma tokens_length l d : tokens_enc l d -> Z.of_nat (length l) <= len d.
Proof. induction 1 as [|k l dk dl K T IH]; [cbn; lia|]. cbn [length]. rewrite len_app. pose proof (token_len _ _ K). lia. Qed.

Lemma file_ok content rs d : is_bytes content -> bsm_file rs d -> forall fuel off, 0 <= off -> stored_at content off d -> off + len d = len content ->
  len content - off < Z.of_nat fuel -> read_bsm fuel content off = Done (Ok rs).
Proof.
  intros Hb H. induction H as [|r rs dr ds R H IH]; intros fuel off Ho S L Hf.
  - change (len (@nil Z)) with 0 in L. destruct fuel; cbn [read_bsm]; (destruct (Z.ltb_spec off (len content)); [lia|reflexivity]).
  - apply stored_at_app in S as [S1 S2]. rewrite len_app in L.
    assert (Lr : 1 <= len dr). { destruct R as (h & body & t & -> & _ & _ & _ & T). apply tokens_length in T. cbn [length] in T. lia. }
    assert (Ls : 0 <= len ds) by apply len_nonneg. destruct fuel as [|fuel]; [lia|]. cbn [read_bsm]. destruct (Z.ltb_spec off (len content)); [|lia].
    rewrite (record_ok content off r dr (Datatypes.S fuel) Hb Ho R S1).
    + cbn [rbind]. rewrite (IH fuel); [reflexivity|lia|exact S2|lia|lia].
    + destruct R as (h & body & t & -> & _ & _ & _ & T). apply tokens_length in T. lia.
Qed.

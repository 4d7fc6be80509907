From Verif Require Import Base BaseFacts CoreModel CoreProofs VarModel VarFacts SeqModel SeqSpec SeqFacts GzipModel GzipProofs MemModel MemSpec.

(** Integer kinds that have a size. *)
Definition int_wf (k : fkind) : Prop := match k with FU _ n => (0 < n)%nat | FS _ n => (0 < n)%nat | FB _ => False end.

Definition mem_wf (m : mem) : Prop :=
  match m with
  | MInt k | MConst k _ | MInts k _ => int_wf k
  | _ => True
  end.

Lemma int_wf_kind k : int_wf k -> fkind_wf k /\ (0 < fsize k)%nat /\ (forall m, k <> FB m).
Proof. destruct k; cbn; intros H; [|destruct n|contradiction]; repeat split; try lia; discriminate. Qed.

Lemma ascii_iff d : ascii d = true <-> Forall (fun c => c < 128) d.
Proof.
  unfold ascii. rewrite forallb_forall, Forall_forall. split; intros H c Hc; specialize (H c Hc); lia.
Qed.

Lemma read_int_iff content k pos z : is_bytes content -> int_wf k ->
  (read_struct content [k] pos = Ok [VI z] <-> stored_at content pos (enc_field k (VI z)) /\ fval_ok k (VI z)).
Proof.
  intros Hb Hk. destruct (int_wf_kind k Hk) as (W & P & N).
  rewrite (read_struct_iff content [k] pos [VI z] Hb) by (first [repeat constructor; exact W|cbn; lia]).
  cbn [enc_struct]. rewrite app_nil_r. split; intros [S F]; (split; [exact S|]).
  - apply F2_cons in F as (v & vs & E & F & _). injection E as <- <-. exact F.
  - constructor; [exact F|constructor].
Qed.

Lemma read_int_shape content k pos vs : is_bytes content -> int_wf k -> read_struct content [k] pos = Ok vs -> exists z, vs = [VI z].
Proof.
  intros Hb Hk E. destruct (int_wf_kind k Hk) as (W & P & N). apply read_struct_fval in E; [|exact Hb|repeat constructor; exact W].
  apply F2_cons in E as (v & vs' & -> & F & E). apply F2_nil in E as ->. destruct v as [z|b]; [eauto|]. destruct k; contradiction.
Qed.

Lemma len_enc_int k z : fval_ok k (VI z) -> len (enc_field k (VI z)) = Z.of_nat (fsize k).
Proof. intros H. destruct k as [[] n|[] n|n]; [| | | |contradiction]; cbn [enc_field enc_int fsize]; rewrite ?len_le_enc, ?len_be_enc; reflexivity. Qed.

Lemma read_cstr_iff content pos s p : 0 <= pos <= len content ->
  (read_cstr content pos = Ok (s, p) <-> stored_at content pos (s ++ [0]) /\ ~ In 0 s /\ Forall (fun c => c < 128) s /\ p = pos + len (s ++ [0])).
Proof.
  intros Hp. unfold read_cstr. rewrite stored_at_from by exact Hp. rewrite len_app. change (len [0]) with 1.
  split.
  - destruct (cstring_end _) as [s'|] eqn:E; [|discriminate]. apply cstring_end_spec in E as (rest & E & N).
    destruct (ascii s') eqn:A; cbn [guard bind]; [|discriminate]. intros H. assert (s' = s) by congruence. subst s'.
    assert (p = pos + len s + 1) by congruence. subst p. split; [exists rest; rewrite <- app_assoc; exact E|].
    split; [exact N|]. split; [apply ascii_iff, A|]. lia.
  - intros ((rest & E) & N & A & ->). rewrite <- app_assoc in E. rewrite E. cbn [app]. rewrite cstring_end_app by exact N.
    rewrite (proj2 (ascii_iff s) A). cbn [guard bind]. match goal with |- Ok (_, ?a) = Ok (_, ?b) => replace a with b by lia; reflexivity end.
Qed.

Lemma read_cstrs_iff content : forall n pos l p, 0 <= pos <= len content ->
  (read_cstrs n content pos = Ok (l, p) <->
   length l = n /\ stored_at content pos (concat (map (fun s => s ++ [0]) l)) /\ Forall (fun s => ~ In 0 s /\ Forall (fun c => c < 128) s) l /\
   p = pos + len (concat (map (fun s => s ++ [0]) l))).
Proof.
  induction n as [|n IH]; intros pos l p Hp; cbn [read_cstrs].
  - split.
    + intros H. assert (l = []) by congruence. assert (p = pos) by congruence. subst l p. split; [reflexivity|]. split; [|split; [constructor|cbn; lia]].
      cbn [map concat]. apply stored_at_from; [exact Hp|]. exists (zskipn pos content). reflexivity.
    + intros (L & _ & _ & ->). destruct l; [|discriminate]. cbn [map concat]. change (len (@nil Z)) with 0. rewrite Z.add_0_r. reflexivity.
  - split.
    + destruct (read_cstr content pos) as [[s p1]|] eqn:E; [|discriminate]. cbn [bind].
      apply read_cstr_iff in E as (S & N & A & ->); [|exact Hp]. pose proof (stored_at_inside _ _ _ S) as I. pose proof (len_nonneg (s ++ [0])).
      destruct (read_cstrs n content (pos + len (s ++ [0]))) as [[l' p2]|] eqn:E2; [|discriminate]. cbn [bind].
      apply IH in E2 as (L2 & S2 & F2 & ->); [|lia]. intros H'. assert (l = s :: l') by congruence. subst l.
      assert (Ep : p = pos + len (s ++ [0]) + len (concat (map (fun s => s ++ [0]) l'))) by congruence. subst p. clear H'.
      cbn [length map concat]. split; [lia|]. split; [apply stored_at_app; auto|]. split; [constructor; auto|]. rewrite (len_app (s ++ [0])). lia.
    + intros (L & S & F & ->). destruct l as [|s l]; [discriminate|]. cbn [map concat length] in *. apply stored_at_app in S as [S1 S2].
      inversion F as [|? ? [N A] F']. subst. pose proof (stored_at_inside _ _ _ S2) as I. pose proof (stored_at_inside _ _ _ S1) as I1. pose proof (len_nonneg (s ++ [0])).
      pose proof (len_nonneg (concat (map (fun s => s ++ [0]) l))).
      assert (E : read_cstr content pos = Ok (s, pos + len (s ++ [0]))) by (apply read_cstr_iff; auto). rewrite E. cbn [bind].
      assert (E2 : read_cstrs n content (pos + len (s ++ [0])) = Ok (l, pos + len (s ++ [0]) + len (concat (map (fun s => s ++ [0]) l)))).
      { apply IH; [lia|]. split; [lia|]. split; [exact S2|]. split; [exact F'|lia]. }
      rewrite E2. cbn [bind]. rewrite (len_app (s ++ [0])). match goal with |- Ok (_, ?a) = Ok (_, ?b) => replace a with b by lia; reflexivity end.
Qed.

(** A member is read exactly if it is stored there. *)
Lemma read_mem_iff content pos vs m v p : is_bytes content -> mem_wf m -> 0 <= pos <= len content ->
  (read_mem content pos vs m = Ok (v, p) <-> exists d, mem_enc vs m v d /\ stored_at content pos d /\ p = pos + len d).
Proof.
  intros Hb Hm Hp. destruct m as [k|k c|size|size|k count| |count|ok size|ok]; cbn [read_mem mem_wf] in *.
  - split.
    + destruct (read_struct content [k] pos) as [l|] eqn:E; [|discriminate]. destruct (read_int_shape _ _ _ _ Hb Hm E) as [z ->]. cbn [bind].
      apply (read_int_iff _ _ _ _ Hb Hm) in E as [S F]. intros H. assert (v = MI z) by congruence. assert (p = pos + Z.of_nat (fsize k)) by congruence. subst v p.
      exists (enc_field k (VI z)). split; [constructor; exact F|]. split; [exact S|]. rewrite len_enc_int by exact F. reflexivity.
    + intros (d & M & S & ->). inversion M as [k' z F Ek Ez Ed| | | | | | | |]; subst. 
      rewrite (proj2 (read_int_iff content k pos z Hb Hm) (conj S F)). cbn [bind]. rewrite len_enc_int by exact F. reflexivity.
  - split.
    + destruct (read_struct content [k] pos) as [l|] eqn:E; [|discriminate]. destruct (read_int_shape _ _ _ _ Hb Hm E) as [z ->]. cbn [bind].
      apply (read_int_iff _ _ _ _ Hb Hm) in E as [S F]. destruct (Z.eqb_spec z c) as [->|]; cbn [guard bind]; [|discriminate].
      intros H. assert (v = MI c) by congruence. assert (p = pos + Z.of_nat (fsize k)) by congruence. subst v p.
      exists (enc_field k (VI c)). split; [constructor; exact F|]. split; [exact S|]. rewrite len_enc_int by exact F. reflexivity.
    + intros (d & M & S & ->). inversion M as [|k' z F Ek Ez Ed| | | | | | |]; subst. 
      rewrite (proj2 (read_int_iff content k pos c Hb Hm) (conj S F)). cbn [bind]. rewrite Z.eqb_refl. cbn [guard bind]. rewrite len_enc_int by exact F. reflexivity.
  - split.
    + destruct (Z.leb_spec 0 (size vs)) as [H0|]; cbn [guard bind]; [|discriminate].
      destruct (read_next content pos (size vs)) as [[d p1]|] eqn:E; [|discriminate]. cbn [bind].
      apply read_next_iff in E as (S & L & ->); [|exact Hp|exact H0]. intros H. assert (v = MB d) by congruence. assert (p = pos + size vs) by congruence. subst v p.
      exists d. split; [constructor; exact L|]. split; [exact S|]. lia.
    + intros (d & M & S & ->). inversion M as [| |size' d' L| | | | | |]; subst. pose proof (len_nonneg d). rewrite <- L.
      destruct (Z.leb_spec 0 (len d)); [|lia]. cbn [guard bind].
      rewrite (proj2 (read_next_iff content pos (len d) d (pos + len d) Hp H) (conj S (conj eq_refl eq_refl))). reflexivity.
  - split.
    + destruct (Z.leb_spec 0 (size vs)) as [H0|]; cbn [guard bind]; [|discriminate].
      destruct (read_next content pos (size vs)) as [[d p1]|] eqn:E; [|discriminate]. cbn [bind].
      apply read_next_iff in E as (S & L & ->); [|exact Hp|exact H0]. destruct (ascii d) eqn:A; cbn [guard bind]; [|discriminate].
      intros H. assert (v = MB d) by congruence. assert (p = pos + size vs) by congruence. subst v p.
      exists d. split; [constructor; [exact L|apply ascii_iff, A]|]. split; [exact S|]. lia.
    + intros (d & M & S & ->). inversion M as [| | |size' d' L A| | | | |]; subst. pose proof (len_nonneg d). rewrite <- L.
      destruct (Z.leb_spec 0 (len d)); [|lia]. cbn [guard bind].
      rewrite (proj2 (read_next_iff content pos (len d) d (pos + len d) Hp H) (conj S (conj eq_refl eq_refl))). cbn [bind].
      rewrite (proj2 (ascii_iff d) A). reflexivity.
  - destruct (int_wf_kind k Hm) as (W & P & N).
    assert (WR : forall n, Forall fkind_wf (repeat k n)) by (intros n; apply Forall_forall; intros x Hx; apply repeat_spec in Hx; subst x; exact W).
    split.
    + destruct (Z.leb_spec 0 (count vs)) as [H0|]; cbn [guard bind]; [|discriminate].
      destruct (read_next content pos (count vs * Z.of_nat (fsize k))) as [[d p1]|] eqn:E; [|discriminate]. cbn [bind].
      apply read_next_iff in E as (S & L & ->); [|exact Hp|lia]. destruct (map_struct _ d) as [l|] eqn:M; [|discriminate].
      apply map_struct_iff in M as (rest & Ed & F); [|eapply is_bytes_stored; eassumption|apply WR].
      apply ints_fval_ok in F as (El & O & Ln); [|exact N]. intros H. assert (v = ML (ints l)) by congruence.
      assert (p = pos + count vs * Z.of_nat (fsize k)) by congruence. subst v p.
      assert (Er : enc_struct (repeat k (Z.to_nat (count vs))) l = enc_ints k (ints l)).
      { rewrite El at 1. rewrite <- Ln. rewrite enc_struct_repeat. reflexivity. }
      assert (Lr : len rest = 0). { rewrite Ed, Er, len_app, len_enc_ints in L by exact O. unfold len at 1 in L. rewrite Ln in L. rewrite Z2Nat.id in L by exact H0. lia. }
      assert (rest = []) by (destruct rest; [reflexivity|rewrite len_cons in Lr; pose proof (len_nonneg rest); lia]). subst rest. rewrite app_nil_r, Er in Ed.
      exists d. split; [|split; [exact S|lia]]. rewrite Ed. constructor; [|exact O]. unfold len. rewrite Ln. lia.
    + intros (d & M & S & ->). inversion M as [| | | |k' count' l L O| | | |]; subst. pose proof (len_nonneg l). rewrite <- L.
      destruct (Z.leb_spec 0 (len l)); [|lia]. cbn [guard bind]. 
      rewrite (proj2 (read_next_iff content pos (len l * Z.of_nat (fsize k)) (enc_ints k l) (pos + len (enc_ints k l)) Hp ltac:(nia))).
      2:{ split; [exact S|]. rewrite len_enc_ints by exact O. split; reflexivity. }
      cbn [bind]. replace (map_struct (repeat k (Z.to_nat (len l))) (enc_ints k l)) with (Some (map VI l)).
      { rewrite ints_VI. reflexivity. }
      symmetry. apply map_struct_iff; [eapply is_bytes_stored; eassumption|apply WR|]. exists []. rewrite app_nil_r.
      replace (Z.to_nat (len l)) with (length l) by (unfold len; lia). rewrite enc_struct_repeat. split; [reflexivity|]. apply repeat_ok, O.
  - split.
    + destruct (read_cstr content pos) as [[s p1]|] eqn:E; [|discriminate]. cbn [bind]. apply read_cstr_iff in E as (S & N & A & ->); [|exact Hp].
      intros H. assert (v = MB s) by congruence. assert (p = pos + len (s ++ [0])) by congruence. subst v p. exists (s ++ [0]). split; [constructor; assumption|auto].
    + intros (d & M & S & ->). inversion M as [| | | | |s N A| | |]; subst.
      rewrite (proj2 (read_cstr_iff content pos s _ Hp) (conj S (conj N (conj A eq_refl)))). reflexivity.
  - split.
    + destruct (Z.leb_spec 0 (count vs)) as [H0|]; cbn [guard bind]; [|discriminate].
      destruct (read_cstrs _ content pos) as [[l p1]|] eqn:E; [|discriminate]. cbn [bind]. apply read_cstrs_iff in E as (L & S & F & ->); [|exact Hp].
      intros H. assert (v = MS l) by congruence. assert (p = pos + len (concat (map (fun s => s ++ [0]) l))) by congruence. subst v p.
      eexists. split; [constructor; [|exact F]|split; [exact S|reflexivity]]. change (Z.of_nat (length l) = count vs). rewrite L. apply Z2Nat.id, H0.
    + intros (d & M & S & ->). inversion M as [| | | | | |count' l L F| |]; subst. pose proof (len_nonneg l).
      destruct (Z.leb_spec 0 (count vs)); [|lia]. cbn [guard bind].
      rewrite (proj2 (read_cstrs_iff content (Z.to_nat (count vs)) pos l (pos + len (concat (map (fun s => s ++ [0]) l))) Hp)); [reflexivity|].
      split; [rewrite <- L; unfold len; symmetry; apply Nat2Z.id|]. auto.
  - split.
    + destruct (Z.leb_spec 0 (size vs)) as [H0|]; cbn [guard bind]; [|discriminate].
      destruct (read_next content pos (size vs)) as [[d p1]|] eqn:E; [|discriminate]. cbn [bind].
      apply read_next_iff in E as (S & L & ->); [|exact Hp|exact H0]. destruct (ok d) eqn:A; cbn [guard bind]; [|discriminate].
      intros H. assert (v = MB d) by congruence. assert (p = pos + size vs) by congruence. subst v p.
      exists d. split; [constructor; [exact L|exact A]|]. split; [exact S|]. lia.
    + intros (d & M & S & ->). inversion M as [| | | | | | |ok' size' d' L A|]; subst. pose proof (len_nonneg d). rewrite <- L.
      destruct (Z.leb_spec 0 (len d)); [|lia]. cbn [guard bind].
      rewrite (proj2 (read_next_iff content pos (len d) d (pos + len d) Hp H) (conj S (conj eq_refl eq_refl))). cbn [bind].
      rewrite A. reflexivity.
  - split.
    + destruct (cstring_end _) as [s|] eqn:E; [|discriminate]. apply cstring_end_spec in E as (rest & E & N).
      destruct (ok s) eqn:A; cbn [guard bind]; [|discriminate]. intros H. assert (v = MB s) by congruence. assert (p = pos + len s + 1) by congruence. subst v p.
      exists (s ++ [0]). split; [constructor; assumption|]. split; [|rewrite len_app; change (len [0]) with 1; lia].
      apply stored_at_from; [exact Hp|]. exists rest. rewrite <- app_assoc. exact E.
    + intros (d & M & S & ->). inversion M as [| | | | | | | |ok' s N A]; subst. apply stored_at_from in S as (rest & E); [|exact Hp].
      rewrite <- app_assoc in E. rewrite E. cbn [app]. rewrite cstring_end_app by exact N. rewrite A. cbn [guard bind].
      rewrite len_app. change (len [0]) with 1. match goal with |- Ok (_, ?a) = Ok (_, ?b) => replace a with b by lia; reflexivity end.
Qed.

Lemma read_mems_iff content : is_bytes content -> forall ms pos vs all p, Forall mem_wf ms -> 0 <= pos <= len content ->
  (read_mems content pos vs ms = Ok (all, p) <->
   exists vs' d, all = vs ++ vs' /\ mems_enc vs ms vs' d /\ stored_at content pos d /\ p = pos + len d).
Proof.
  intros Hb. induction ms as [|m ms IH]; intros pos vs all p W Hp; cbn [read_mems].
  - split.
    + intros H. assert (all = vs) by congruence. assert (p = pos) by congruence. subst all p. exists [], []. rewrite app_nil_r. 
      split; [reflexivity|]. split; [constructor|]. split; [|cbn; lia]. apply stored_at_from; [exact Hp|]. exists (zskipn pos content). reflexivity.
    + intros (vs' & d & -> & M & S & ->). inversion M. subst. rewrite app_nil_r. change (len (@nil Z)) with 0. rewrite Z.add_0_r. reflexivity.
  - inversion W as [|? ? Wm W']. subst. split.
    + destruct (read_mem content pos vs m) as [[v p1]|] eqn:E; [|discriminate]. cbn [bind].
      apply (read_mem_iff _ _ _ _ _ _ Hb Wm Hp) in E as (d & M & S & ->). pose proof (stored_at_inside _ _ _ S). pose proof (len_nonneg d).
      intros E. apply IH in E as (vs' & d' & -> & M' & S' & ->); [|exact W'|lia]. exists (v :: vs'), (d ++ d').
      split; [rewrite <- app_assoc; reflexivity|]. split; [constructor; assumption|]. split; [apply stored_at_app; auto|]. rewrite len_app. lia.
    + intros (vs' & d & -> & M & S & ->). inversion M as [|? ? ? v d1 vs1 d2 M1 M2]. subst. apply stored_at_app in S as [S1 S2].
      pose proof (stored_at_inside _ _ _ S1). pose proof (stored_at_inside _ _ _ S2). pose proof (len_nonneg d1). pose proof (len_nonneg d2).
      assert (E : read_mem content pos vs m = Ok (v, pos + len d1)) by (apply read_mem_iff; eauto). rewrite E. cbn [bind].
      apply IH; [exact W'|lia|]. exists vs1, d2. rewrite <- app_assoc. split; [reflexivity|]. split; [exact M2|]. split; [exact S2|]. rewrite len_app. lia.
Qed.

Lemma read_cstr_err content pos e : read_cstr content pos = Err e -> e = ParseError.
Proof. unfold read_cstr. destruct (cstring_end _); [|congruence]. destruct (ascii _); cbn [guard bind]; congruence. Qed.

Lemma read_cstrs_err n content : forall pos e, read_cstrs n content pos = Err e -> e = ParseError.
Proof.
  induction n as [|n IH]; intros pos e; cbn [read_cstrs]; [discriminate|]. destruct (read_cstr content pos) as [[s p]|] eqn:E; cbn [bind].
  - destruct (read_cstrs n content p) as [[l p2]|] eqn:E2; cbn [bind]; [discriminate|]. intros H. apply (IH p). congruence.
  - intros H. apply read_cstr_err in E. congruence.
Qed.

Lemma read_mem_err content pos vs m e : is_bytes content -> mem_wf m -> 0 <= pos -> read_mem content pos vs m = Err e -> e = ParseError.
Proof.
  intros Hb Hm Hp. destruct m as [k|k c|size|size|k count| |count|ok size|ok]; cbn [read_mem mem_wf] in *.
  - destruct (read_struct content [k] pos) as [l|] eqn:E; cbn [bind].
    + destruct (read_int_shape _ _ _ _ Hb Hm E) as [z ->]. discriminate.
    + intros H. apply read_struct_err in E; [congruence|exact Hp].
  - destruct (read_struct content [k] pos) as [l|] eqn:E; cbn [bind].
    + destruct (read_int_shape _ _ _ _ Hb Hm E) as [z ->]. destruct (z =? c); cbn [guard bind]; congruence.
    + intros H. apply read_struct_err in E; [congruence|exact Hp].
  - destruct (0 <=? size vs); cbn [guard bind]; [|congruence]. destruct (read_next _ _ _) as [[]|] eqn:E; cbn [bind]; [congruence|].
    intros H. apply read_next_errors in E. congruence.
  - destruct (0 <=? size vs); cbn [guard bind]; [|congruence]. destruct (read_next _ _ _) as [[d p]|] eqn:E; cbn [bind].
    + destruct (ascii d); cbn [guard bind]; congruence.
    + intros H. apply read_next_errors in E. congruence.
  - destruct (0 <=? count vs); cbn [guard bind]; [|congruence]. destruct (read_next _ _ _) as [[d p]|] eqn:E; cbn [bind].
    + destruct (map_struct _ d); congruence.
    + intros H. apply read_next_errors in E. congruence.
  - destruct (read_cstr content pos) as [[s p]|] eqn:E; cbn [bind]; [congruence|]. intros H. apply read_cstr_err in E. congruence.
  - destruct (0 <=? count vs); cbn [guard bind]; [|congruence]. destruct (read_cstrs _ _ _) as [[d p]|] eqn:E; cbn [bind]; [congruence|].
    intros H. apply read_cstrs_err in E. congruence.
  - destruct (0 <=? size vs); cbn [guard bind]; [|congruence]. destruct (read_next _ _ _) as [[d p]|] eqn:E; cbn [bind].
    + destruct (ok d); cbn [guard bind]; congruence.
    + intros H. apply read_next_errors in E. congruence.
  - destruct (cstring_end _) as [s|]; [|congruence]. destruct (ok s); cbn [guard bind]; congruence.
Qed.

Lemma read_mems_err content : is_bytes content -> forall ms pos vs e, Forall mem_wf ms -> 0 <= pos <= len content ->
  read_mems content pos vs ms = Err e -> e = ParseError.
Proof.
  intros Hb. induction ms as [|m ms IH]; intros pos vs e W Hp; cbn [read_mems]; [discriminate|]. inversion W as [|? ? Wm W']. subst.
  destruct (read_mem content pos vs m) as [[v p]|] eqn:E; cbn [bind].
  - apply (read_mem_iff _ _ _ _ _ _ Hb Wm Hp) in E as (d & M & S & ->). pose proof (stored_at_inside _ _ _ S). pose proof (len_nonneg d).
    apply IH; [exact W'|lia].
  - intros H. apply read_mem_err in E; [congruence|exact Hb|exact Wm|lia].
Qed.

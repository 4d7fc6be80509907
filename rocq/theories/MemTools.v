(** The encodings of structures, member by member. *)

From Verif Require Import Base BaseFacts CoreModel CoreProofs SeqModel SeqSpec SeqFacts MemModel MemSpec MemFacts.

Lemma mse_cons_iff vs m ms all d : mems_enc vs (m :: ms) all d <->
  exists v all' d1 d2, all = v :: all' /\ d = d1 ++ d2 /\ mem_enc vs m v d1 /\ mems_enc (vs ++ [v]) ms all' d2.
Proof.
  split.
  - intros H. inversion H. subst. eauto 9.
  - intros (v & all' & d1 & d2 & -> & -> & H & H'). constructor; assumption.
Qed.

Lemma mse_nil_iff vs all d : mems_enc vs [] all d <-> all = [] /\ d = [].
Proof. split; [intros H; inversion H; auto|intros [-> ->]; constructor]. Qed.

Lemma me_uint_iff vs e n v d : mem_enc vs (MInt (FU e n)) v d <-> exists z, v = MI z /\ d = enc_int e n z /\ 0 <= z < 256 ^ Z.of_nat n.
Proof. split; [intros H; inversion H; subst; eauto|intros (z & -> & -> & H); constructor; exact H]. Qed.

Lemma me_data_iff vs size v d : mem_enc vs (MData size) v d <-> v = MB d /\ len d = size vs.
Proof. split; [intros H; inversion H; subst; auto|intros (-> & H); constructor; exact H]. Qed.

Lemma me_text_iff vs ok size v d : mem_enc vs (MText ok size) v d <-> v = MB d /\ len d = size vs /\ ok d = true.
Proof. split; [intros H; inversion H; subst; auto|intros (-> & H & H'); constructor; assumption]. Qed.

Lemma me_uints_iff vs e n count v d : mem_enc vs (MInts (FU e n) count) v d <->
  exists l, v = ML l /\ d = concat (map (enc_int e n) l) /\ len l = count vs /\ Forall (fun z => 0 <= z < 256 ^ Z.of_nat n) l.
Proof. split; [intros H; inversion H; subst; eexists; repeat split; assumption|intros (l & -> & -> & H & H'); constructor; assumption]. Qed.

Ltac unmem H :=
  lazymatch type of H with
  | mems_enc _ (_ :: _) _ _ =>
      let v := fresh "v" in let r := fresh "r" in let d1 := fresh "d" in let d2 := fresh "d" in let M := fresh "M" in
      apply mse_cons_iff in H as (v & r & d1 & d2 & -> & -> & M & H);
      lazymatch type of M with
      | mem_enc _ (MInt (FU _ _)) _ _ => let z := fresh "z" in apply me_uint_iff in M as (z & -> & -> & M)
      | mem_enc _ (MData _) _ _ => apply me_data_iff in M as (-> & M)
      | mem_enc _ (MText _ _) _ _ => let M' := fresh "M" in apply me_text_iff in M as (-> & M & M')
      | mem_enc _ (MInts (FU _ _) _) _ _ => let l := fresh "l" in let M' := fresh "M" in apply me_uints_iff in M as (l & -> & -> & M & M')
      end; cbn [app] in H; unmem H
  | mems_enc _ [] _ _ => apply mse_nil_iff in H as (-> & ->)
  end.

(** Behind the end of the file. *)
Lemma read_mems_far content k ms pos vs : int_wf k -> len content <= pos -> read_mems content pos vs (MInt k :: ms) = Err ParseError.
Proof.
  intros Hk Hp. pose proof (len_nonneg content). cbn [read_mems read_mem].
  destruct (read_struct content [k] pos) as [l|e] eqn:E.
  - exfalso. apply read_struct_inside in E. cbn [struct_size map fold_right] in E.
    + destruct (int_wf_kind k Hk) as (_ & P & _). cbn in E. lia.
    + destruct (int_wf_kind k Hk) as (_ & P & _). cbn. lia.
  - cbn [bind]. apply read_struct_err in E; [congruence|lia].
Qed.

Lemma mems_enc_app vs a b va vb da db : mems_enc vs a va da -> mems_enc (vs ++ va) b vb db -> mems_enc vs (a ++ b) (va ++ vb) (da ++ db).
Proof.
  intros H. induction H as [vs|vs m ms v d vs' d' M H IH]; intros G; [rewrite app_nil_r in G; exact G|].
  cbn [app]. rewrite <- app_assoc. constructor; [exact M|]. apply IH. rewrite <- app_assoc. exact G.
Qed.

(** Members that can have any data of their size. *)
Definition fixed_mem (m : mem) : Prop :=
  match m with
  | MInt (FU _ _) => True
  | MData s => 0 <= s [] /\ forall vs, s vs = s []
  | _ => False
  end.

Definition mem_size (m : mem) : Z :=
  match m with
  | MInt k => Z.of_nat (fsize k)
  | MData s => s []
  | _ => 0
  end.

Definition mems_size (ms : list mem) : Z := fold_right (fun m a => mem_size m + a) 0 ms.

Lemma fixed_total ms : Forall fixed_mem ms -> forall vs d, is_bytes d -> len d = mems_size ms ->
  exists vs', mems_enc vs ms vs' d /\ length vs' = length ms.
Proof.
  induction 1 as [|m ms F Fs IH]; intros vs d Hb Hl; cbn [mems_size fold_right] in Hl.
  - apply len_zero in Hl. subst d. exists []. split; [constructor|reflexivity].
  - fold (mems_size ms) in Hl. assert (Hs : 0 <= mems_size ms).
    { clear -Fs. induction Fs as [|x l F Fs IH]; cbn [mems_size fold_right]; [lia|]. fold (mems_size l). destruct x as [[]| | | | | | | |]; cbn in F |- *; try contradiction; lia. }
    assert (Hm : 0 <= mem_size m) by (destruct m as [[]| | | | | | | |]; cbn in F |- *; try contradiction; lia).
    assert (V : exists v, mem_enc vs m v (zfirstn (mem_size m) d)).
    { assert (L : len (zfirstn (mem_size m) d) = mem_size m) by (rewrite len_zfirstn; lia).
      destruct m as [[e n| |]| |s| | | | | |]; cbn [fixed_mem mem_size] in *; try contradiction.
      - exists (MI (endian_int e (zfirstn (Z.of_nat n) d))). apply me_uint_iff. eexists. split; [reflexivity|].
        assert (Bf : is_bytes (zfirstn (Z.of_nat n) d)) by (apply is_bytes_zfirstn, Hb). cbn [fsize] in L.
        assert (Ln : length (zfirstn (Z.of_nat n) d) = n) by (unfold len in L; lia). split.
        + cbn [fsize]. destruct e; cbn [endian_int enc_int]; symmetry; [assert (X := le_enc_int _ Bf)|assert (X := be_enc_int _ Bf)]; rewrite Ln in X; exact X.
        + destruct e; cbn [endian_int]; [assert (X := le_int_bounds _ Bf)|assert (X := be_int_bounds _ Bf)]; rewrite L in X; exact X.
      - exists (MB (zfirstn (s []) d)). constructor. rewrite L. symmetry. apply F. }
    destruct V as [v V]. destruct (IH (vs ++ [v]) (zskipn (mem_size m) d)) as (vs' & E & L).
    + apply is_bytes_zskipn, Hb.
    + rewrite len_zskipn. lia.
    + exists (v :: vs'). rewrite <- (zfirstn_zskipn d (mem_size m)). split; [constructor; assumption|cbn; lia].
Qed.

Lemma mems_enc_length vs ms vs' d : mems_enc vs ms vs' d -> length vs' = length ms.
Proof. induction 1; cbn; lia. Qed.

Lemma mems_one vs m v d : mem_enc vs m v d -> mems_enc vs [m] [v] d.
Proof. intros H. rewrite <- (app_nil_r d). constructor; [exact H|constructor]. Qed.

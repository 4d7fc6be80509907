From Verif Require Import Base BaseFacts StrModel CoreModel CoreProofs StructFacts DictModel TextModel UtmpModel UtmpSpec.

Lemma part_skip content o a n : 0 <= o -> 0 <= a -> zfirstn n (zskipn a (zskipn o content)) = part content (o + a) n.
Proof. intros Ho Ha. unfold part. rewrite zskipn_zskipn by assumption. reflexivity. Qed.

Lemma linux_fields content o : 0 <= o -> fields linux_kinds (zskipn o content) = linux_entry content o.
Proof.
  intros Ho. unfold linux_kinds, linux_entry, signed_at, unsigned_at, data_at. cbn [fields map_field fsize endian_int Z.of_nat Pos.of_succ_nat Pos.succ].
  rewrite !zskipn_zskipn by lia. rewrite <- !Z.add_assoc. cbn [Z.add Pos.add Pos.succ Pos.add_carry]. rewrite Z.add_0_r.
  reflexivity.
Qed.

Lemma macos_fields content o : 0 <= o -> fields macos_kinds (zskipn o content) = macos_entry content o.
Proof.
  intros Ho. unfold macos_kinds, macos_entry, signed_at, unsigned_at, data_at. cbn [fields map_field fsize endian_int Z.of_nat Pos.of_succ_nat Pos.succ].
  rewrite !zskipn_zskipn by lia. rewrite <- !Z.add_assoc. cbn [Z.add Pos.add Pos.succ Pos.add_carry]. rewrite Z.add_0_r.
  reflexivity.
Qed.

(** The entries from offset [size * i] on. *)
Lemma entries_iff show content ks entry : (0 < struct_size ks)%nat -> (forall o, 0 <= o -> fields ks (zskipn o content) = entry content o) ->
  forall fuel i l, let size := Z.of_nat (struct_size ks) in let off := size * Z.of_nat i in off <= len content -> len content - off < Z.of_nat fuel ->
  (read_entries fuel show content ks off = Done (Ok l) <->
   exists n, (i <= n)%nat /\ len content = size * Z.of_nat n /\ l = map (fun j => entry content (size * Z.of_nat j)) (seq i (n - i)) /\ Forall (fun vs => exists t, show vs = Ok t) l).
Proof.
  intros Hk He. cbv zeta. set (size := Z.of_nat (struct_size ks)). assert (Hs : 0 < size) by (unfold size; lia).
  induction fuel as [|fuel IH]; intros i l Ho Hf; [lia|]. cbn [read_entries]. destruct (Z.ltb_spec (size * Z.of_nat i) (len content)) as [Hlt|Hge].
  - rewrite read_struct_fields by lia. fold size. destruct (Z.leb_spec (size * Z.of_nat i + size) (len content)) as [Hle|Hgt].
    + rewrite He by lia. replace (size * Z.of_nat i + size) with (size * Z.of_nat (S i)) in * by lia. split.
      * destruct (show _) as [t|] eqn:Es; [|discriminate]. destruct (read_entries fuel show content ks _) as [[l'|]|] eqn:E; [|discriminate|discriminate]. cbn [rbind].
        intros H. assert (l = entry content (size * Z.of_nat i) :: l') by congruence. subst l. apply IH in E as (n & Hn & L & -> & F); [|lia|lia].
        exists n. split; [lia|]. split; [exact L|]. split; [|constructor; eauto]. replace (n - i)%nat with (S (n - S i)) by lia. reflexivity.
      * intros (n & Hn & L & -> & F). assert (i <> n) by (intros ->; lia). replace (n - i)%nat with (S (n - S i)) in * by lia. cbn [seq map] in *.
        inversion F as [|? ? [t Et] F']. subst. rewrite Et. rewrite (proj2 (IH (S i) (map (fun j => entry content (size * Z.of_nat j)) (seq (S i) (n - S i))) ltac:(lia) ltac:(lia))); [reflexivity|].
        exists n. split; [lia|]. auto.
    + split; [discriminate|]. intros (n & Hn & L & _). exfalso. rewrite L in Hlt, Hgt. apply Z.mul_lt_mono_pos_l in Hlt; [|exact Hs].
      pose proof (Z.mul_le_mono_nonneg_l (Z.of_nat i + 1) (Z.of_nat n) size ltac:(lia) ltac:(lia)). lia.
  - split.
    + intros H. assert (l = []) by congruence. subst l. exists i. split; [lia|]. split; [lia|]. rewrite Nat.sub_diag. split; [reflexivity|constructor].
    + intros (n & Hn & L & -> & _). assert (n = i) by (rewrite L in Hge; apply Z.mul_le_mono_pos_l in Hge; [lia|exact Hs]). subst n. rewrite Nat.sub_diag. reflexivity.
Qed.

Lemma entries_end show content ks : (0 < struct_size ks)%nat -> forall fuel off, 0 <= off -> len content - off < Z.of_nat fuel ->
  (exists l, read_entries fuel show content ks off = Done (Ok l)) \/ read_entries fuel show content ks off = Done (Err ParseError) \/
  exists vs e, show vs = Err e /\ read_entries fuel show content ks off = Done (Err e).
Proof.
  intros Hk. induction fuel as [|fuel IH]; intros off Ho Hf; cbn [read_entries]; (destruct (Z.ltb_spec off (len content)) as [Hlt|Hge]; [|eauto]); [lia|].
  rewrite read_struct_fields by lia. destruct (off + _ <=? len content); [|auto]. destruct (show _) as [t|e] eqn:Es; [|eauto 7].
  destruct (IH (off + Z.of_nat (struct_size ks)) ltac:(lia) ltac:(lia)) as [[l ->]|[->|(vs & e & S & ->)]]; cbn [rbind]; eauto 7.
Qed.

Lemma type_name_in types t s : NoDup (map fst types) -> In (t, s) types -> type_name types t = s.
Proof.
  intros N I. unfold type_name. induction types as [|[a b] types IH]; [contradiction|]. cbn [map fst] in N. inversion N as [|? ? N1 N2]. subst. cbn [find fst].
  destruct (Z.eqb_spec a t) as [->|Hne].
  - destruct I as [E|I]; [congruence|]. exfalso. apply N1. apply (in_map fst) in I. exact I.
  - destruct I as [E|I]; [congruence|]. apply IH; assumption.
Qed.

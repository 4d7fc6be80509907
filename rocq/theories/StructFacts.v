(** Closed form of the mapping of fixed-size structures. *)

From Verif Require Import Base BaseFacts CoreModel.

(** The member values of a structure at the start of the data. *)
Fixpoint fields (ks : list fkind) (d : bytes) : list fval :=
  match ks with
  | [] => []
  | k :: r => map_field k (zfirstn (Z.of_nat (fsize k)) d) :: fields r (zskipn (Z.of_nat (fsize k)) d)
  end.

Lemma map_struct_fields ks : forall d,
  map_struct ks d = if Z.of_nat (struct_size ks) <=? len d then Some (fields ks d) else None.
Proof.
  induction ks as [|k ks IH]; intros d.
  - cbn. pose proof (len_nonneg d). destruct (Z.leb_spec 0 (len d)); [reflexivity|lia].
  - cbn [map_struct struct_size fold_right fields]. fold (struct_size ks). cbv zeta.
    destruct (Nat.ltb_spec (length d) (fsize k)).
    + destruct (Z.leb_spec (Z.of_nat (fsize k + struct_size ks)) (len d)); [unfold len in *; lia|reflexivity].
    + rewrite IH. rewrite zfirstn_firstn, zskipn_skipn, Nat2Z.id.
      unfold len at 1. rewrite skipn_length. unfold len.
      destruct (Z.leb_spec (Z.of_nat (struct_size ks)) (Z.of_nat (length d - fsize k)));
      destruct (Z.leb_spec (Z.of_nat (fsize k + struct_size ks)) (Z.of_nat (length d))); try lia; reflexivity.
Qed.

Lemma zskipn_zfirstn {A} (l : list A) a b : 0 <= a -> zskipn a (zfirstn b l) = zfirstn (b - a) (zskipn a l).
Proof.
  intros Ha. rewrite !zskipn_skipn, !zfirstn_firstn. rewrite skipn_firstn_comm. f_equal. lia.
Qed.

Lemma fields_zfirstn ks : forall n d, Z.of_nat (struct_size ks) <= n -> fields ks (zfirstn n d) = fields ks d.
Proof.
  induction ks as [|k ks IH]; intros n d Hn; [reflexivity|].
  cbn [fields]. unfold struct_size in Hn. cbn [fold_right] in Hn. fold (struct_size ks) in Hn.
  rewrite zskipn_zfirstn by lia. rewrite IH by lia.
  rewrite zfirstn_zfirstn. rewrite Z.min_l by lia. reflexivity.
Qed.

Lemma read_struct_fields content ks off : 0 <= off -> (0 < struct_size ks)%nat ->
  read_struct content ks off =
  if off + Z.of_nat (struct_size ks) <=? len content then Ok (fields ks (zskipn off content))
  else Err ParseError.
Proof.
  intros Ho Hk. unfold read_struct, read_at.
  destruct (Z.ltb_spec off 0); [lia|]. destruct (Z.ltb_spec (Z.of_nat (struct_size ks)) 0); [lia|].
  cbn [bind]. set (d := zfirstn (Z.of_nat (struct_size ks)) (zskipn off content)).
  assert (L : len d = Z.min (Z.of_nat (struct_size ks)) (Z.max 0 (len content - off))).
  { unfold d. rewrite len_zfirstn, len_zskipn. lia. }
  destruct (Z.leb_spec (off + Z.of_nat (struct_size ks)) (len content)).
  - rewrite (proj2 (Z.eqb_eq (len d) _)) by lia. cbn [negb]. rewrite map_struct_fields.
    rewrite (proj2 (Z.leb_le _ (len d))) by lia. unfold d. rewrite fields_zfirstn by lia. reflexivity.
  - rewrite (proj2 (Z.eqb_neq (len d) _)) by lia. reflexivity.
Qed.

Lemma le_int_window_bounds d a n : is_bytes d -> 0 <= n ->
  0 <= le_int (zfirstn n (zskipn a d)) < 256 ^ n.
Proof.
  intros Hd Hn.
  assert (B : is_bytes (zfirstn n (zskipn a d))) by (apply is_bytes_zfirstn, is_bytes_zskipn, Hd).
  pose proof (le_int_bounds _ B) as [B1 B2]. split; [exact B1|].
  eapply Z.lt_le_trans; [exact B2|]. apply Z.pow_le_mono_r; [lia|]. rewrite len_zfirstn. lia.
Qed.

From Verif Require Import Base BaseFacts CoreModel CoreProofs VarModel.

Lemma struct_bs_is_read_structure_bs ks d :
  struct_bs ks d = read_structure_bs (struct_map ks) d.
Proof.
  destruct d as [|b d]; [reflexivity|]. cbn [struct_bs read_structure_bs struct_map m_map].
  destruct (map_struct ks (b :: d)); reflexivity.
Qed.

Lemma read_var_ok content ks ext off vs d n :
  read_var content ks ext off = Ok (vs, d, n) ->
  read_struct content ks off = Ok vs /\ 0 <= ext vs /\ len d = ext vs /\
  d = zfirstn (ext vs) (zskipn (off + Z.of_nat (struct_size ks)) content) /\
  n = Z.of_nat (struct_size ks) + ext vs.
Proof.
  unfold read_var. destruct (read_struct content ks off) as [vs'|]; cbn [bind]; [|discriminate].
  destruct (Z.leb_spec 0 (ext vs')); cbn [guard bind]; [|discriminate].
  destruct (Z.eqb_spec (len (zfirstn (ext vs') (zskipn (off + Z.of_nat (struct_size ks)) content))) (ext vs'))
    as [E|]; [|discriminate].
  injection 1 as <- <- <-. auto.
Qed.

(** All bytes read lie in the file. *)
Lemma read_var_inside content ks ext off vs d n :
  read_var content ks ext off = Ok (vs, d, n) -> (0 < struct_size ks)%nat ->
  0 <= off /\ Z.of_nat (struct_size ks) <= n /\ off + n <= len content.
Proof.
  intros E Hs. apply read_var_ok in E. destruct E as (E & H0 & Hl & Hd & ->).
  apply read_struct_inside in E; [|exact Hs]. destruct E as [H1 H2].
  rewrite Hd, len_zfirstn, len_zskipn in Hl. lia.
Qed.

Lemma read_var_errors content ks ext off e :
  read_var content ks ext off = Err e -> e = ParseError \/ (e = OSError /\ off < 0).
Proof.
  unfold read_var. destruct (read_struct content ks off) as [vs'|e'] eqn:E; cbn [bind].
  - destruct (0 <=? ext vs'); cbn [guard bind]; [|injection 1 as <-; auto].
    destruct (_ =? _); [discriminate|injection 1 as <-; auto].
  - injection 1 as <-. apply read_struct_errors in E. intuition.
Qed.

Lemma read_var_enc pre ks vs d post ext off :
  Forall2 fval_ok ks vs -> off = len pre -> ext vs = len d ->
  read_var (pre ++ enc_struct ks vs ++ d ++ post) ks ext off =
  Ok (vs, d, Z.of_nat (struct_size ks) + len d).
Proof.
  intros Hv -> He. unfold read_var. rewrite read_struct_enc by auto. cbn [bind]. rewrite He.
  pose proof (len_nonneg d). destruct (Z.leb_spec 0 (len d)); [|lia]. cbn [guard bind].
  assert (L : len (enc_struct ks vs) = Z.of_nat (struct_size ks))
    by (unfold len; rewrite enc_struct_length by exact Hv; reflexivity).
  rewrite (app_assoc pre). rewrite (zskipn_app_len (pre ++ enc_struct ks vs)) by (rewrite len_app, L; reflexivity).
  rewrite zfirstn_app_len by reflexivity. rewrite Z.eqb_refl. reflexivity.
Qed.

Lemma struct_bs_enc ks vs rest : Forall2 fval_ok ks vs -> (0 < struct_size ks)%nat ->
  struct_bs ks (enc_struct ks vs ++ rest) = Ok vs.
Proof.
  intros Hv Hs. pose proof (map_struct_enc ks vs rest Hv) as E.
  pose proof (enc_struct_length ks vs Hv) as L.
  unfold struct_bs. destruct (enc_struct ks vs ++ rest) as [|b d] eqn:Eb.
  - apply (f_equal (@length Z)) in Eb. rewrite app_length, L in Eb. cbn in Eb. lia.
  - rewrite E. reflexivity.
Qed.

Lemma struct_bs_errors ks d e : struct_bs ks d = Err e -> e = ParseError \/ (e = ValueError /\ d = []).
Proof.
  unfold struct_bs. destruct d as [|b d]; [injection 1 as <-; auto|].
  destruct (map_struct ks (b :: d)); [discriminate|injection 1 as <-; auto].
Qed.

(** The direct definition is the general structure read with the map. *)
Lemma map_struct_app ks d rest vs : map_struct ks d = Some vs -> map_struct ks (d ++ rest) = Some vs.
Proof.
  revert d vs; induction ks as [|k ks IH]; intros d vs; cbn [map_struct]; [auto|].
  destruct (Nat.ltb_spec (length d) (fsize k)); [discriminate|].
  destruct (map_struct ks (skipn (fsize k) d)) as [vs'|] eqn:E; [|discriminate]. intros E2.
  destruct (Nat.ltb_spec (length (d ++ rest)) (fsize k)) as [H1|H1]; [rewrite app_length in H1; lia|].
  rewrite skipn_app, firstn_app. replace (fsize k - length d)%nat with 0%nat by lia.
  cbn [skipn firstn]. rewrite app_nil_r. apply IH in E. cbn [skipn] in E. rewrite E. exact E2.
Qed.

Lemma read_var_is_read_structure content pos ks ext off :
  (0 < struct_size ks)%nat ->
  read_structure 3 (var_map ks ext) (mkfile content pos) off =
  Done (match read_var content ks ext off with
        | Ok (vs, d, n) => Ok ((vs, d), n, mkfile content (off + n))
        | Err e => Err e
        end).
Proof.
  intros Hs. unfold read_structure. set (hs := Z.of_nat (struct_size ks)). assert (Hhs : 0 < hs) by (unfold hs; lia).
  change (m_hint0 (var_map ks ext)) with hs. cbn [read_structure_loop].
  destruct (Z.eqb_spec hs 0); [lia|]. rewrite Z.add_0_r, Z.sub_0_r.
  unfold read_data, f_seek. unfold read_var, read_struct, read_at. fold hs.
  destruct (Z.ltb_spec off 0) as [Hneg|Hoff]; [reflexivity|].
  cbn [bind]. unfold f_try_read. destruct (Z.ltb_spec hs (-1)); [lia|]. unfold f_read. cbn [bind fpos fdata].
  destruct (Z.ltb_spec hs 0); [lia|].
  set (h := zfirstn hs (zskipn off content)).
  destruct (Z.eqb_spec (len h) hs) as [El|]; cbn [negb]; [|reflexivity].
  cbn [app]. change (m_map (var_map ks ext) h) with
    (match map_struct ks h with
       | None => MTooSmall
       | Some vs =>
           if ext vs <? 0 then MError
           else if len h <? hs + ext vs then MTooSmall
           else MOk (vs, zfirstn (ext vs) (zskipn hs h))
       end).
  destruct (map_struct ks h) as [vs|] eqn:Em.
  - cbn [bind]. destruct (Z.ltb_spec (ext vs) 0); destruct (Z.leb_spec 0 (ext vs)); try lia; [reflexivity|].
    cbn [guard bind]. rewrite El.
    assert (Hskip : zskipn (off + hs) content = zskipn hs (zskipn off content))
      by (symmetry; apply zskipn_zskipn; lia).
    destruct (Z.ltb_spec hs (hs + ext vs)) as [Hlt|Hge].
    + change (m_hint (var_map ks ext) h) with (var_size ks ext h). unfold var_size. rewrite Em. fold hs.
      destruct (Z.eqb_spec (hs + ext vs) hs); [lia|].
      replace (hs + ext vs - hs) with (ext vs) by lia.
      destruct (Z.ltb_spec (off + hs) 0); [lia|]. cbn [bind fpos fdata].
      destruct (Z.ltb_spec (ext vs) (-1)); [lia|]. cbn [bind].
      destruct (Z.ltb_spec (ext vs) 0); [lia|].
      set (d := zfirstn (ext vs) (zskipn (off + hs) content)).
      destruct (Z.eqb_spec (len d) (ext vs)) as [Ed|]; cbn [negb]; [|reflexivity].
      change (m_map (var_map ks ext) (h ++ d)) with
        (match map_struct ks (h ++ d) with
         | None => MTooSmall
         | Some vs =>
           if ext vs <? 0 then MError
           else if len (h ++ d) <? hs + ext vs then MTooSmall
           else MOk (vs, zfirstn (ext vs) (zskipn hs (h ++ d)))
         end).
      rewrite (map_struct_app ks h d vs Em).
      destruct (Z.ltb_spec (ext vs) 0); [lia|]. rewrite len_app, El, Ed, Z.ltb_irrefl.
      rewrite zskipn_app_len by (symmetry; exact El). rewrite zfirstn_all by lia.
      do 4 f_equal. lia.
    + assert (E0 : ext vs = 0) by lia. rewrite E0.
      rewrite zfirstn_0 by lia. rewrite zfirstn_0 by lia. cbn [len length Z.of_nat Z.eqb].
      rewrite !Z.add_0_r. reflexivity.
  - exfalso. destruct (map_struct_some ks h) as [vs E]; [unfold len in El; unfold hs in El; lia|congruence].
Qed.

(** Goals [Forall2 fval_ok ks vs]: one goal per value, with the bound computed. *)
Ltac fval_bound :=
  cbn [fval_ok];
  repeat match goal with
  | |- context [256 ^ Z.of_nat ?n] =>
      let v := eval vm_compute in (256 ^ Z.of_nat n) in change (256 ^ Z.of_nat n) with v
  | |- context [2 ^ (8 * Z.of_nat ?n - 1)] =>
      let v := eval vm_compute in (2 ^ (8 * Z.of_nat n - 1)) in change (2 ^ (8 * Z.of_nat n - 1)) with v
  end.
Ltac fvals := repeat (apply Forall2_cons; [fval_bound|]); try apply Forall2_nil.

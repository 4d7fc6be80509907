(** Proofs about the reading of AMCache files. *)

From Verif Require Import Base BaseFacts CoreModel StrModel StrFacts DictModel AmcModel AmcSpec.
From Coq Require String.
Import String.StringSyntax.

Lemma andthen_ok a b l : andthen a b = (l, Ok tt) <-> exists x y, a = (x, Ok tt) /\ b = (y, Ok tt) /\ l = x ++ y.
Proof.
  unfold andthen. destruct a as [x [[]|e]], b as [y r]; split.
  - intros H. injection H as <- ->. eauto.
  - intros (x' & y' & Ea & Eb & ->). injection Ea as <-. injection Eb as <- <-. reflexivity.
  - discriminate.
  - intros (x' & y' & Ea & _). discriminate.
Qed.

Lemma emit_ok t l : emit t = (l, Ok tt) <-> l = t.
Proof. unfold emit. split; [intros H; injection H; auto|intros ->; reflexivity]. Qed.

Lemma each_ok {A} (f : A -> out) xs : forall l, each f xs = (l, Ok tt) <-> exists ls, Forall2 (fun x e => f x = (e, Ok tt)) xs ls /\ l = concat ls.
Proof.
  induction xs as [|x xs IH]; intros l; cbn [each fold_right].
  - rewrite emit_ok. split; [intros ->; exists []; split; [constructor|reflexivity]|intros (ls & F & ->); inversion F; reflexivity].
  - rewrite andthen_ok. fold (each f xs). split.
    + intros (e & y & He & Hy & ->). apply IH in Hy as (ls & F & ->). exists (e :: ls). split; [now constructor|reflexivity].
    + intros (ls & F & ->). inversion F as [|? e ? ls' He F']; subst. exists e, (concat ls'). repeat split; [assumption|]. apply IH. eauto.
Qed.

Lemma forall2_iff {A B} (P Q : A -> B -> Prop) l m : (forall a b, P a b <-> Q a b) -> Forall2 P l m <-> Forall2 Q l m.
Proof. intros H. split; induction 1; constructor; auto; now apply H. Qed.

Lemma each_iff {A} (f : A -> out) (P : A -> list ev -> Prop) xs l : (forall x e, f x = (e, Ok tt) <-> P x e) -> each f xs = (l, Ok tt) <-> exists ls, Forall2 P xs ls /\ l = concat ls.
Proof. intros H. rewrite each_ok. split; intros (ls & F & ->); exists ls; (split; [|reflexivity]); revert F; apply forall2_iff; intros; [symmetry|]; auto; symmetry; auto. Qed.

Section Amc.
Variable g : regf.

Lemma in_existsb (z : Z) l : existsb (Z.eqb z) l = true <-> In z l.
Proof. rewrite existsb_exists. split; [intros (x & I & E); apply Z.eqb_eq in E; now subst|intros I; exists z; split; [assumption|apply Z.eqb_refl]]. Qed.

Lemma get_data_iff v d : get_data g v = Ok d <-> has_data g v d.
Proof.
  unfold get_data. destruct (existsb (Z.eqb (v_type v)) [1; 2; 6]) eqn:E1.
  { apply in_existsb in E1. split.
    - destruct (g_string g v) as [s|[]] eqn:Es; cbn; intros H; try discriminate; injection H as <-; split; assumption.
    - destruct d; cbn [has_data]; intros (I & H); try (exfalso; cbn in *; lia); try (rewrite H; reflexivity); exfalso; apply I; cbn in *; lia. }
  destruct (existsb (Z.eqb (v_type v)) [4; 5; 11]) eqn:E2.
  { apply in_existsb in E2. split.
    - destruct (g_integer g v) as [s|[]] eqn:Es; cbn; intros H; try discriminate; injection H as <-; split; assumption.
    - destruct d; cbn [has_data]; intros (I & H); try (exfalso; cbn in *; lia); try (rewrite H; reflexivity); exfalso; apply I; cbn in *; lia. }
  assert (N1 : ~ In (v_type v) [1; 2; 6]) by (rewrite <- in_existsb, E1; discriminate). assert (N2 : ~ In (v_type v) [4; 5; 11]) by (rewrite <- in_existsb, E2; discriminate).
  destruct (Z.eqb_spec (v_type v) 7) as [E3|E3].
  - split.
    + destruct (g_multi g v) as [s|[]] eqn:Es; cbn; intros H; try discriminate; injection H as <-; split; assumption.
    + destruct d; cbn [has_data]; intros (I & H); try contradiction; try (rewrite H; reflexivity); exfalso; apply I; cbn; lia.
  - split.
    + destruct (g_bytes g v) as [s|[]] eqn:Es; cbn; intros H; try discriminate; injection H as <-; (split; [cbn in *; lia|assumption]).
    + destruct d; cbn [has_data]; intros (I & H); try contradiction. rewrite H. reflexivity.
Qed.

Lemma with_data_iff v f l : with_data g v f = (l, Ok tt) <-> exists d, has_data g v d /\ f d = (l, Ok tt).
Proof.
  unfold with_data. destruct (get_data g v) as [d|e] eqn:E.
  - apply get_data_iff in E as H. split; [eauto|]. intros (d' & H' & F). apply get_data_iff in H'. rewrite E in H'. now injection H' as <-.
  - split; [discriminate|]. intros (d & H & _). apply get_data_iff in H. congruence.
Qed.

Definition table_ok (t : list (String.string * String.string)) : Prop := NoDup (map (fun p => S (fst p)) t).

Lemma table_unique t n d n' d' : table_ok t -> In (n, d) t -> In (n', d') t -> S n = S n' -> d = d'.
Proof.
  unfold table_ok. induction t as [|[m x] t IH]; intros N I I' E; [destruct I|]. cbn [map fst] in N. inversion N as [|? ? Nm N']; subst.
  destruct I as [I|I], I' as [I'|I'].
  - congruence.
  - exfalso. injection I as -> ->. apply Nm. rewrite E. apply (in_map (fun p => S (fst p)) _ _ I').
  - exfalso. injection I' as -> ->. apply Nm. rewrite <- E. apply (in_map (fun p => S (fst p)) _ _ I).
  - eapply IH; eassumption.
Qed.

Lemma describe_ok t v : shown_name t v (describe (map S2 t) v).
Proof.
  unfold describe, shown_name. induction t as [|[n d] t IH]; [right; split; [intros n d []|reflexivity]|]. cbn [map S2 fst snd sdict_get]. destruct (list_eqb (s2z n) (v_name v)) eqn:E.
  - apply list_eqb_eq in E. left. exists n, d. repeat split; [now left|now symmetry].
  - destruct IH as [(n' & d' & I & H)|(H & H')]; [left; exists n', d'; split; [now right|exact H]|]. right. split; [|exact H'].
    intros n' d' [I|I]; [|eapply H; exact I]. injection I as <- <-. intros Hn. unfold S in Hn. rewrite Hn, list_eqb_refl in E. discriminate.
Qed.

Lemma shown_unique t v s s' : table_ok t -> shown_name t v s -> shown_name t v s' -> s = s'.
Proof.
  intros T [(n & d & I & E & ->)|(H & ->)] [(n' & d' & I' & E' & ->)|(H' & ->)]; [|exfalso; eapply H'; eassumption|exfalso; eapply H; eassumption|reflexivity].
  f_equal. eapply table_unique; [exact T|exact I|exact I'|congruence].
Qed.

Lemma describe_iff t v s : table_ok t -> describe (map S2 t) v = s <-> shown_name t v s.
Proof. intros T. split; [intros <-; apply describe_ok|]. intros H. eapply shown_unique; [exact T|apply describe_ok|exact H]. Qed.

Fixpoint nodupb (l : list str) : bool := match l with [] => true | x :: l => negb (existsb (list_eqb x) l) && nodupb l end.
Lemma nodupb_ok (l : list str) : nodupb l = true -> NoDup l.
Proof.
  induction l as [|x l IH]; cbn [nodupb]; [constructor|]. intros H. apply andb_prop in H as [H1 H2]. constructor; [|auto]. intros I. apply negb_true_iff in H1.
  assert (existsb (list_eqb x) l = true); [|congruence]. apply existsb_exists. exists x. split; [assumption|apply list_eqb_refl].
Qed.
Lemma application_ok : table_ok application_table.
Proof. now apply nodupb_ok. Qed.
Lemma reference_ok : table_ok reference_table.
Proof. now apply nodupb_ok. Qed.
Lemma program_ok : table_ok program_table.
Proof. now apply nodupb_ok. Qed.
Lemma empty_ok : table_ok [].
Proof. constructor. Qed.

Lemma named_iff v l : named v l = true <-> is_named v l.
Proof.
  unfold named, is_named. rewrite existsb_exists, in_map_iff. split; intros (x & A & B); exists x.
  - apply list_eqb_eq in B. split; [now symmetry|assumption].
  - split; [assumption|]. rewrite <- A. apply list_eqb_refl.
Qed.
Lemma named_false v l : named v l = false <-> ~ is_named v l.
Proof. rewrite <- named_iff. destruct (named v l); split; congruence. Qed.

Lemma is_named_cons v x l : is_named v (x :: l) <-> v_name v = S x \/ is_named v l.
Proof. unfold is_named. cbn [map In]. split; intros [H|H]; auto. Qed.

(** ** Keys *)

Lemma block_iff (titled : key -> list ev -> Prop) shown (title : key -> out) f k l : (forall l, title k = (l, Ok tt) <-> titled k l) -> (forall v d e, f v d = (e, Ok tt) <-> shown v d e) ->
  andthen (title k) (andthen (each (fun v => with_data g v (f v)) (k_values k)) (emit [EText [10]])) = (l, Ok tt) <-> block g titled shown k l.
Proof.
  intros Ht Hf. rewrite andthen_ok. unfold block.
  assert (Hv : forall e, each (fun v => with_data g v (f v)) (k_values k) = (e, Ok tt) <-> exists ls, Forall2 (fun v e => exists d, has_data g v d /\ shown v d e) (k_values k) ls /\ e = concat ls).
  { intros e. apply each_iff. intros v x. rewrite with_data_iff. split; intros (d & H & E); exists d; (split; [assumption|]); now apply Hf. }
  split.
  - intros (x & y & Hx & Hy & ->). apply Ht in Hx. apply andthen_ok in Hy as (z & z' & Hz & Hz' & ->). apply Hv in Hz as (ls & F & ->). apply emit_ok in Hz' as ->. exists x, ls. auto.
  - intros (t & vs & Hx & F & ->). exists t, (concat vs ++ [EText [10]]). split; [now apply Ht|]. split; [|reflexivity]. apply andthen_ok. exists (concat vs), [EText [10]]. split; [apply Hv; eauto|]. now split.
Qed.

Lemma title_iff s k l : emit (title s k) = (l, Ok tt) <-> simple_title s k l.
Proof. rewrite emit_ok. reflexivity. Qed.

Lemma plain_key_iff s t k l : table_ok t -> plain_key g s (map S2 t) k = (l, Ok tt) <-> block g (simple_title s) (value_shown t) k l.
Proof.
  intros T. unfold plain_key. apply (block_iff _ _ (fun k => emit (title s k)) (fun v d => emit [EValue (describe (map S2 t) v) d])); [intros; apply title_iff|].
  intros v d e. rewrite emit_ok. unfold value_shown. split; [intros ->; eexists; split; [apply describe_ok|reflexivity]|]. intros (s' & H & ->). apply (describe_iff t v s' T) in H. now subst.
Qed.

Lemma reference_value_iff v d l : reference_value v d = (l, Ok tt) <-> reference_shown v d l.
Proof.
  unfold reference_value, reference_shown. change reference_names with (map S2 reference_table). set (s := describe (map S2 reference_table) v).
  assert (Hs : forall s', shown_name reference_table v s' <-> s' = s) by (intros s'; rewrite <- (describe_iff _ _ _ reference_ok); unfold s; split; auto).
  assert (Hd : forall x y l, is_named v [x] -> is_named v l -> In y l -> x = y \/ True) by auto. clear Hd.
  assert (One : forall x y, is_named v [x] -> is_named v [y] -> S x = S y) by (intros x y; rewrite !is_named_cons; intros [Hx|[]] [Hy|[]]; congruence).
  destruct (named v ["d"%string]) eqn:Nd; [apply named_iff in Nd|apply named_false in Nd].
  - assert (Vd : v_name v = S "d") by (apply is_named_cons in Nd as [H|[]]; exact H).
    assert (Nf : named v ["f"%string] = false) by (apply named_false; rewrite is_named_cons, Vd; intros [H|[]]; discriminate).
    assert (Nt : named v ["11"; "12"; "17"]%string = false) by (apply named_false; rewrite !is_named_cons, Vd; intros [H|[H|[H|[]]]]; discriminate).
    split.
    + destruct d as [ |n| | ]; try discriminate. rewrite Nf, Nt, emit_ok. intros ->. exists s. split; [now apply Hs|]. left. split; [exact Nd|]. exists n. split; [reflexivity|].
      rewrite Z.shiftr_div_pow2 by lia. change 0xffff with (Z.ones 16). rewrite Z.land_ones by lia. reflexivity.
    + intros (s' & H & C). apply Hs in H as ->. destruct C as [(_ & n & -> & ->)|[(Hf & _)|[(Ht & _)|(Ho & _)]]].
      * rewrite Nf, Nt, emit_ok. rewrite Z.shiftr_div_pow2 by lia. change 0xffff with (Z.ones 16). rewrite Z.land_ones by lia. reflexivity.
      * apply named_iff in Hf. congruence.
      * apply named_iff in Ht. congruence.
      * exfalso. apply Ho. rewrite is_named_cons. now left.
  - destruct (named v ["f"%string]) eqn:Nf; [apply named_iff in Nf|apply named_false in Nf].
    + rewrite emit_ok. split; [intros ->; exists s; split; [now apply Hs|]; right; left; auto|]. intros (s' & H & C). apply Hs in H as ->.
      assert (Vf : v_name v = S "f") by (apply is_named_cons in Nf as [H|[]]; exact H).
      destruct C as [(Hd & _)|[(_ & ->)|[(Ht & _)|(Ho & _)]]]; [contradiction|reflexivity| |].
      * exfalso. rewrite !is_named_cons, Vf in Ht. destruct Ht as [H|[H|[H|[]]]]; discriminate.
      * exfalso. apply Ho. rewrite !is_named_cons. auto.
    + destruct (named v ["11"; "12"; "17"]%string) eqn:Nt; [apply named_iff in Nt|apply named_false in Nt]; rewrite emit_ok.
      * split; [intros ->; exists s; split; [now apply Hs|]; right; right; left; auto|]. intros (s' & H & C). apply Hs in H as ->.
        destruct C as [(Hd & _)|[(Hf & _)|[(_ & ->)|(Ho & _)]]]; [contradiction|contradiction|reflexivity|]. exfalso. apply Ho. rewrite !is_named_cons in *. tauto.
      * split; [intros ->; exists s; split; [now apply Hs|]; right; right; right; split; [|reflexivity]; rewrite !is_named_cons in *; tauto|]. intros (s' & H & C). apply Hs in H as ->.
        destruct C as [(Hd & _)|[(Hf & _)|[(Ht & _)|(_ & ->)]]]; [contradiction|contradiction|contradiction|reflexivity].
Qed.

Lemma parts_iff d l : parts d = Ok l <-> data_parts d l.
Proof. destruct d; cbn; split; intros H; try discriminate; try contradiction; try (now injection H as <-); now rewrite H. Qed.

Lemma lines_iff s ds l : part_events s ds = l <-> lines_shown s ds l.
Proof.
  assert (E : forall ds, lines_shown [] ds (map (EValue []) ds)) by (induction ds0; constructor; auto).
  assert (U : forall s ds l l', lines_shown s ds l -> lines_shown s ds l' -> l = l').
  { clear. intros s ds l l' H. revert l'. induction H; intros l' H'; inversion H'; subst; [reflexivity|]. f_equal. auto. }
  assert (P : lines_shown s ds (part_events s ds)) by (destruct ds; cbn; constructor; apply E).
  split; [intros <-; exact P|]. intros H. eapply U; eassumption.
Qed.

Lemma program_value_iff v d l : program_value v d = (l, Ok tt) <-> program_shown v d l.
Proof.
  unfold program_value, program_shown. change program_names with (map S2 program_table). set (s := describe (map S2 program_table) v).
  assert (Hs : forall s', shown_name program_table v s' <-> s' = s) by (intros s'; rewrite <- (describe_iff _ _ _ program_ok); unfold s; split; auto).
  destruct (named v ["7"; "d"; "Files"]%string) eqn:N1; [apply named_iff in N1|apply named_false in N1].
  - split.
    + destruct (parts d) as [ds|e] eqn:Ed; [|discriminate]. rewrite emit_ok. intros ->. exists s. split; [now apply Hs|]. left. split; [assumption|]. exists ds. split; [now apply parts_iff|now apply lines_iff].
    + intros (s' & H & C). apply Hs in H as ->. destruct C as [(_ & ds & Hp & Hl)|[(Ha & _)|(Ho & _)]].
      * apply parts_iff in Hp. rewrite Hp, emit_ok. symmetry. now apply lines_iff.
      * exfalso. unfold is_named in N1, Ha. cbn [map In] in N1, Ha. destruct N1 as [H|[H|[H|[]]]]; destruct Ha as [Ha|[Ha|[]]]; rewrite <- H in Ha; discriminate.
      * exfalso. apply Ho. rewrite !is_named_cons in *. tauto.
  - destruct (named v ["a"; "b"]%string) eqn:N2; [apply named_iff in N2|apply named_false in N2]; rewrite emit_ok.
    + split; [intros ->; exists s; split; [now apply Hs|]; right; left; auto|]. intros (s' & H & C). apply Hs in H as ->.
      destruct C as [(H & _)|[(_ & ->)|(Ho & _)]]; [contradiction|reflexivity|]. exfalso. apply Ho. rewrite !is_named_cons in *. tauto.
    + split; [intros ->; exists s; split; [now apply Hs|]; right; right; split; [|reflexivity]; rewrite !is_named_cons in *; tauto|]. intros (s' & H & C). apply Hs in H as ->.
      destruct C as [(H & _)|[(H & _)|(_ & ->)]]; [contradiction|contradiction|reflexivity].
Qed.

(** ** File references *)

Definition zeros : str := [48; 48; 48; 48].

Lemma starts_front x y : (4 <= length x)%nat -> starts_with zeros (x ++ y) = true <-> starts_with zeros x = true.
Proof. intros H. do 4 (destruct x as [|? x]; [cbn in H; lia|]). reflexivity. Qed.

Lemma contains_cons c s : contains0 (c :: s) <-> starts_with zeros (c :: s) = true \/ contains0 s.
Proof.
  unfold contains0. change (S "0000") with zeros. rewrite starts_with_spec. split.
  - intros ([|c' a] & b & E); [left; exists b; exact E|]. injection E as -> E. right. exists a, b. exact E.
  - intros [(r & E)|(a & b & ->)]; [exists [], r; exact E|exists (c :: a), b; reflexivity].
Qed.
Lemma contains_nil : ~ contains0 [].
Proof. intros ([|] & b & E); discriminate. Qed.
Lemma contains_short s : (length s < 4)%nat -> ~ contains0 s.
Proof. intros H (a & b & ->). rewrite !app_length in H. cbn in H. lia. Qed.

Lemma cut_none s : cut s = None <-> ~ contains0 s.
Proof.
  induction s as [|c s IH]; [split; [intros _; apply contains_nil|reflexivity]|]. rewrite contains_cons. cbn [cut]. fold zeros. change [48; 48; 48; 48] with zeros. destruct (starts_with zeros (c :: s)).
  - split; [discriminate|]. intros H. exfalso. auto.
  - destruct (cut s) as [[a b]|].
    + split; [discriminate|]. intros H. assert (Some (a, b) = None) by (apply IH; tauto). discriminate.
    + split; [|reflexivity]. intros _ [H|H]; [discriminate|]. now apply IH.
Qed.

Lemma cut_some s a b : cut s = Some (a, b) <-> s = a ++ S "0000" ++ b /\ ~ contains0 (a ++ S "000").
Proof.
  change (S "0000") with zeros. split.
  - revert a b. induction s as [|c s IH]; intros a b; cbn [cut]; change [48; 48; 48; 48] with zeros; [discriminate|]. destruct (starts_with zeros (c :: s)) eqn:E.
    + apply starts_with_spec in E as (r & E). rewrite E. intros H. injection H as <- <-. split; [reflexivity|]. apply contains_short. cbn. lia.
    + destruct (cut s) as [[a' b']|]; [|discriminate]. intros H. injection H as <- <-. destruct (IH _ _ eq_refl) as (-> & N). split; [reflexivity|]. cbn [app]. rewrite contains_cons. intros [H|H]; [|contradiction].
      enough (X : starts_with zeros (c :: a' ++ zeros ++ b') = true) by congruence. change zeros with (S "000" ++ [48]) at 2. change (c :: a' ++ (S "000" ++ [48]) ++ b') with ((c :: a') ++ (S "000" ++ [48]) ++ b').
      rewrite <- app_assoc, app_assoc. apply starts_front; [rewrite app_length; cbn; lia|]. exact H.
  - intros (-> & N). revert N. induction a as [|c a IH]; intros N; [reflexivity|]. cbn [app] in N |- *. rewrite contains_cons in N. cbn [cut]. change [48; 48; 48; 48] with zeros.
    destruct (starts_with zeros (c :: a ++ zeros ++ b)) eqn:E; [|rewrite IH by tauto; reflexivity]. exfalso. apply N. left.
    apply (starts_front _ ([48] ++ b)); [cbn; rewrite app_length; cbn; lia|]. cbn [app]. rewrite <- app_assoc. exact E.
Qed.

Lemma reference_title_iff k l : reference_title g k = Ok l <-> file_title g k l.
Proof.
  unfold reference_title, file_title, simple_title. destruct (cut (k_name k)) as [[a b]|] eqn:E.
  - assert (C : contains0 (k_name k)) by (apply cut_some in E as (-> & _); exists a, b; reflexivity). split.
    + destruct (cut b) eqn:Eb; [discriminate|]. destruct (g_int16 g b) as [e|] eqn:Ee; [|discriminate]. destruct (g_int16 g a) as [q|] eqn:Eq; [|discriminate]. intros H. injection H as <-.
      right. exists a, b, e, q. apply cut_some in E as (En & N). apply cut_none in Eb. repeat split; auto.
    + intros [(N & _)|(a' & b' & e & q & En & N & Nb & He & Hq & ->)]; [contradiction|]. assert (E' : cut (k_name k) = Some (a', b')) by (apply cut_some; auto). rewrite E in E'. injection E' as -> ->.
      apply cut_none in Nb. rewrite Nb, He, Hq. reflexivity.
  - apply cut_none in E as N. split; [intros H; injection H as <-; left; auto|]. intros [(_ & ->)|(a' & b' & e & q & En & _)]; [reflexivity|]. exfalso. apply N. exists a', b'. exact En.
Qed.

Lemma reference_key_iff k l : reference_key g k = (l, Ok tt) <-> block g (file_title g) reference_shown k l.
Proof.
  rewrite <- (block_iff (file_title g) reference_shown (fun k => match reference_title g k with Ok l => emit l | Err e => fail e end) reference_value).
  - unfold reference_key. destruct (reference_title g k); reflexivity.
  - intros l'. rewrite <- reference_title_iff. destruct (reference_title g k); [rewrite emit_ok|]; (split; [|]); intros H; try discriminate; [now subst|now injection H].
  - intros. apply reference_value_iff.
Qed.

Lemma program_key_iff k l : program_key g k = (l, Ok tt) <-> block g (simple_title "Program: ") program_shown k l.
Proof. apply (block_iff _ _ (fun k => emit (title "Program: " k)) program_value); intros; [apply title_iff|apply program_value_iff]. Qed.

(** ** Sections *)

Lemma all_iff f (shown : key -> list ev -> Prop) k l : (forall k l, f k = (l, Ok tt) <-> shown k l) -> each f (k_subs k) = (l, Ok tt) <-> all_subs shown k l.
Proof. intros H. apply each_iff. exact H. Qed.

Lemma sub_key_iff k name o : sub_key g k name = o <-> first_sub g k name o.
Proof.
  unfold sub_key, first_sub, same_name. fold (S name). set (p := fun s => list_eqb (g_lower g (k_name s)) (g_lower g (S name))).
  assert (Hp : forall s, p s = true <-> g_lower g (k_name s) = g_lower g (S name)) by (intros s; unfold p; split; [apply list_eqb_eq|intros ->; apply list_eqb_refl]).
  assert (Hn : forall l, find p l = None <-> Forall (fun s => g_lower g (k_name s) <> g_lower g (S name)) l).
  { clear k. induction l as [|s l IH]; cbn [find]; [split; [constructor|reflexivity]|]. destruct (p s) eqn:E.
    - split; [discriminate|]. intros F. inversion F; subst. apply Hp in E. contradiction.
    - rewrite IH. split; [intros F; constructor; [rewrite <- Hp; congruence|assumption]|intros F; now inversion F]. }
  destruct o as [s|]; [|apply Hn]. generalize (k_subs k) as l. induction l as [|x l IH]; cbn [find].
  - split; [discriminate|]. intros ([|] & post & E & _); discriminate.
  - destruct (p x) eqn:E.
    + split; [intros H; injection H as <-; exists [], l; repeat split; [now apply Hp|constructor]|]. intros (pre & post & El & Hs & F). destruct pre as [|y pre]; [injection El as -> ->; reflexivity|]. injection El as -> _. inversion F; subst. apply Hp in E. contradiction.
    + rewrite IH. split.
      * intros (pre & post & -> & Hs & F). exists (x :: pre), post. repeat split; auto. constructor; [rewrite <- Hp; congruence|assumption].
      * intros (pre & post & El & Hs & F). destruct pre as [|y pre]; [injection El as -> _; apply Hp in Hs; congruence|]. injection El as -> ->. exists pre, post. inversion F; auto.
Qed.

Lemma section_iff root name f (shown : key -> list ev -> Prop) l : (forall k l, f k = (l, Ok tt) <-> shown k l) -> section g root name f = (l, Ok tt) <-> section_shown g root name shown l.
Proof.
  intros H. unfold section, section_shown. split.
  - intros E. exists (sub_key g root name). split; [now apply sub_key_iff|]. destruct (sub_key g root name); [now apply H|now apply emit_ok].
  - intros (o & Ho & E). apply sub_key_iff in Ho. rewrite Ho. destruct o; [now apply H|now apply emit_ok].
Qed.

Lemma read_iff top l : read_amcache g top = (l, Ok tt) <-> amcache_shown g top l.
Proof.
  unfold read_amcache, amcache_shown.
  assert (K : existsb (list_eqb (g_lower g (k_name top))) root_names = true <-> known_root g top).
  { unfold known_root, root_names. rewrite existsb_exists. cbn [map In]. split.
    - intros (x & [<-|[<-|[]]] & E); apply list_eqb_eq in E; rewrite E; auto.
    - intros [E|E]; eexists; (split; [|rewrite E; apply list_eqb_refl]); auto. }
  destruct (existsb (list_eqb (g_lower g (k_name top))) root_names).
  - assert (Kr : known_root g top) by now apply K.
    assert (R : forall root, andthen (section g root "File" (file_key g)) (andthen (section g root "Programs" (fun k => each (program_key g) (k_subs k)))
      (andthen (section g root "InventoryApplication" (fun k => each (application_key g) (k_subs k))) (section g root "InventoryApplicationFile" (fun k => each (application_file_key g) (k_subs k))))) = (l, Ok tt) <->
      exists l1 l2 l3 l4, l = l1 ++ l2 ++ l3 ++ l4 /\
        section_shown g root "File" (all_subs (all_subs (block g (file_title g) reference_shown))) l1 /\
        section_shown g root "Programs" (all_subs (block g (simple_title "Program: ") program_shown)) l2 /\
        section_shown g root "InventoryApplication" (all_subs (block g (simple_title "Application: ") (value_shown application_table))) l3 /\
        section_shown g root "InventoryApplicationFile" (all_subs (block g (simple_title "Application File: ") (value_shown []))) l4).
    { intros root.
      assert (S1 : forall l, section g root "File" (file_key g) = (l, Ok tt) <-> section_shown g root "File" (all_subs (all_subs (block g (file_title g) reference_shown))) l).
      { intros l'. apply section_iff. intros. unfold file_key. apply (all_iff (fun volume => each (reference_key g) (k_subs volume))). intros. apply all_iff. apply reference_key_iff. }
      assert (S2' : forall l, section g root "Programs" (fun k => each (program_key g) (k_subs k)) = (l, Ok tt) <-> section_shown g root "Programs" (all_subs (block g (simple_title "Program: ") program_shown)) l).
      { intros l'. apply section_iff. intros. apply all_iff. apply program_key_iff. }
      assert (S3 : forall l, section g root "InventoryApplication" (fun k => each (application_key g) (k_subs k)) = (l, Ok tt) <->
        section_shown g root "InventoryApplication" (all_subs (block g (simple_title "Application: ") (value_shown application_table))) l).
      { intros l'. apply section_iff. intros. apply all_iff. intros. apply (plain_key_iff "Application: " application_table). apply application_ok. }
      assert (S4 : forall l, section g root "InventoryApplicationFile" (fun k => each (application_file_key g) (k_subs k)) = (l, Ok tt) <->
        section_shown g root "InventoryApplicationFile" (all_subs (block g (simple_title "Application File: ") (value_shown []))) l).
      { intros l'. apply section_iff. intros. apply all_iff. intros. apply (plain_key_iff "Application File: " []). apply empty_ok. }
      rewrite andthen_ok. split.
      - intros (x & y & Hx & Hy & ->). apply andthen_ok in Hy as (z & z' & Hz & Hz' & ->). apply andthen_ok in Hz' as (w & w' & Hw & Hw' & ->).
        exists x, z, w, w'. repeat split; [now apply S1|now apply S2'|now apply S3|now apply S4].
      - intros (x & z & w & w' & -> & Hx & Hz & Hw & Hw'). exists x, (z ++ w ++ w'). repeat split; [now apply S1|]. apply andthen_ok. exists z, (w ++ w'). repeat split; [now apply S2'|]. apply andthen_ok. exists w, w'.
        repeat split; [now apply S3|now apply S4]. }
    split.
    + intros H. right. split; [assumption|]. exists (sub_key g top "Root"). split; [now apply sub_key_iff|]. destruct (sub_key g top "Root") as [root|]; [now apply R|now apply emit_ok].
    + intros [(N & _)|(_ & o & Ho & H)]; [contradiction|]. apply sub_key_iff in Ho. rewrite Ho. destruct o as [root|]; [now apply R|now apply emit_ok].
  - assert (N : ~ known_root g top) by (intros H; apply K in H; discriminate). rewrite emit_ok. split; [intros ->; left; auto|]. intros [(_ & ->)|(H & _)]; [reflexivity|contradiction].
Qed.
End Amc.

(** ** The numbers of a file reference *)

Lemma digits_aux_acc base f : forall n acc, digits_aux f base n acc = digits_aux f base n [] ++ acc.
Proof.
  induction f as [|f IH]; intros n acc; cbn [digits_aux]; [reflexivity|]. destruct (n <? base); [reflexivity|].
  rewrite (IH _ (n mod base :: acc)), (IH _ [n mod base]), <- app_assoc. reflexivity.
Qed.
Lemma digits_aux_fuel base : 2 <= base -> forall f f' n, 0 <= n -> Z.log2 n < Z.of_nat f -> Z.log2 n < Z.of_nat f' -> digits_aux f base n [] = digits_aux f' base n [].
Proof.
  intros Hb. induction f as [|f IH]; intros f' n Hn Hf Hf'; [pose proof (Z.log2_nonneg n); lia|]. destruct f' as [|f']; [pose proof (Z.log2_nonneg n); lia|]. cbn [digits_aux].
  destruct (Z.ltb_spec n base) as [L|L]; [reflexivity|]. rewrite (digits_aux_acc base f), (digits_aux_acc base f'). f_equal. pose proof (log2_div n base Hb L). apply IH; [apply Z.div_pos; lia|lia|lia].
Qed.

Lemma digits_mul base r : 2 <= base -> 0 < r -> digits base (base * r) = digits base r ++ [0].
Proof.
  intros Hb Hr. unfold digits at 1. cbn [digits_aux]. destruct (Z.ltb_spec (base * r) base) as [L|L]; [nia|]. rewrite (Z.mul_comm base r), Z.mod_mul, Z.div_mul, digits_aux_acc by lia. f_equal.
  pose proof (log2_div (base * r) base Hb L) as H. rewrite (Z.mul_comm base r), Z.div_mul in H by lia. pose proof (Z.log2_nonneg r). apply digits_aux_fuel; lia.
Qed.

Lemma digits_last base n : 2 <= base -> 0 <= n -> exists p, digits base n = p ++ [n mod base].
Proof.
  intros Hb Hn. unfold digits. cbn [digits_aux]. destruct (Z.ltb_spec n base); [exists []; rewrite Z.mod_small by lia; reflexivity|]. rewrite digits_aux_acc. eauto.
Qed.

Definition hex (n : Z) : str := map digit_char (digits 16 n).
Lemma fmt_x_hex n : 0 <= n -> fmt_x 0 n = hex n.
Proof.
  intros Hn. unfold fmt_x, fmt_int, hex. destruct (Z.ltb_spec n 0); [lia|]. rewrite Z.abs_eq by lia. cbn [app].
  pose proof (len_nonneg (map digit_char (digits 16 n))). match goal with |- context [Z.to_nat ?x] => replace (Z.to_nat x) with 0%nat by (unfold len in *; cbn [length]; lia) end. reflexivity.
Qed.

Lemma hex_mul k : forall r, 0 < r -> hex (16 ^ Z.of_nat k * r) = hex r ++ repeat 48 k.
Proof.
  induction k as [|k IH]; intros r Hr; [cbn [repeat]; rewrite app_nil_r; f_equal; change (16 ^ Z.of_nat 0) with 1; lia|].
  rewrite Nat2Z.inj_succ, Z.pow_succ_r, <- Z.mul_assoc by lia. unfold hex at 1. rewrite digits_mul, map_app by (pose proof (Z.pow_pos_nonneg 16 (Z.of_nat k)); nia).
  change (map digit_char (digits 16 (16 ^ Z.of_nat k * r))) with (hex (16 ^ Z.of_nat k * r)). rewrite IH, <- app_assoc by assumption. f_equal.
  change (map digit_char [0]) with [48]. clear. induction k as [|k IH]; [reflexivity|]. cbn [repeat app] in *. now f_equal.
Qed.

Lemma hex_last r : 0 <= r -> r mod 16 <> 0 -> exists p c, hex r = p ++ [c] /\ c <> 48.
Proof.
  intros Hr Hm. destruct (digits_last 16 r ltac:(lia) Hr) as (p & E). exists (map digit_char p), (digit_char (r mod 16)). unfold hex. rewrite E, map_app. split; [reflexivity|].
  pose proof (Z.mod_pos_bound r 16 ltac:(lia)). unfold digit_char. destruct (Z.ltb_spec (r mod 16) 10); lia.
Qed.
Lemma hex_head n : 0 < n -> exists c t, hex n = c :: t /\ c <> 48.
Proof.
  intros Hn. destruct (digits_head 16 n ltac:(lia) ltac:(lia)) as (h & t & E & H). destruct (digits_spec 16 n ltac:(lia) ltac:(lia)) as (F & _). exists (digit_char h), (map digit_char t). unfold hex. rewrite E in *.
  split; [reflexivity|]. inversion F; subst. unfold digit_char. destruct (Z.ltb_spec h 10); lia.
Qed.
Lemma hex_len n : 0 <= n < 65536 -> (length (hex n) <= 4)%nat.
Proof. intros H. pose proof (digits_len 16 n 4 ltac:(lia) ltac:(lia) ltac:(lia) ltac:(lia)) as L. unfold hex. rewrite map_length. unfold len in L. lia. Qed.

Lemma parse_hex n : 0 <= n -> parse_nat 16 (hex n) = Some n.
Proof. intros H. rewrite <- fmt_x_hex by assumption. unfold fmt_x. now apply parse_nat_fmt. Qed.
Lemma parse_hex_zeros k n : 0 <= n -> parse_nat 16 (repeat 48 k ++ hex n) = Some n.
Proof.
  intros H. destruct k as [|k]; [now apply parse_hex|]. unfold parse_nat. cbn [repeat app]. change (48 :: repeat 48 k ++ hex n) with (repeat 48 (Datatypes.S k) ++ hex n). rewrite parse_digits_zeros by lia.
  pose proof (parse_hex n H) as P. unfold parse_nat in P. destruct (hex n) eqn:E; [discriminate|exact P].
Qed.

Lemma starts_zeros a b c d r : starts_with zeros (a :: b :: c :: d :: r) = true -> a = 48 /\ b = 48 /\ c = 48 /\ d = 48.
Proof. intros H. apply starts_with_spec in H as (x & E). unfold zeros in E. cbn [app] in E. injection E. auto. Qed.

Lemma no_zeros_left p c : (length p < 4)%nat -> c <> 48 -> ~ contains0 ((p ++ [c]) ++ S "000").
Proof.
  intros L Nc. change (S "000") with [48; 48; 48]. do 4 (destruct p as [|? p]; [cbn [app]; rewrite !contains_cons; intros H; repeat (destruct H as [H|H]; [first [discriminate|apply starts_zeros in H; lia]|]); revert H; apply contains_nil|]). cbn in L. lia.
Qed.

Lemma no_zeros_right k c t : (k < 4)%nat -> c <> 48 -> ~ contains0 (c :: t) -> ~ contains0 (repeat 48 k ++ c :: t).
Proof.
  intros K Nc N. assert (Z4 : forall j u, (j < 4)%nat -> starts_with zeros (repeat 48 j ++ c :: u) = true -> False).
  { intros j u J H. apply starts_with_spec in H as (x & E). unfold zeros in E. do 4 (destruct j as [|j]; [cbn [repeat app] in E; injection E; intros; congruence|]). lia. }
  induction k as [|k IH]; [exact N|]. cbn [repeat app]. rewrite contains_cons. intros [H|H]; [|revert H; apply IH; lia]. apply (Z4 (Datatypes.S k) t K H).
Qed.

Lemma reference_shift s k r : 0 < s < 65536 -> s = 16 ^ Z.of_nat k * r -> r mod 16 <> 0 -> 0 < r < 65536 /\ (k < 4)%nat.
Proof.
  intros Hs E Hm. assert (P : 0 < 16 ^ Z.of_nat k) by (apply Z.pow_pos_nonneg; lia). assert (0 < r) by nia. split; [nia|]. destruct (Nat.lt_ge_cases k 4) as [L|L]; [assumption|]. exfalso.
  assert (16 ^ 4 <= 16 ^ Z.of_nat k) by (apply Z.pow_le_mono_r; lia). change (16 ^ 4) with 65536 in *. nia.
Qed.

Lemma reference_numbers g k s z r e : (forall t n, parse_nat 16 t = Some n -> g_int16 g t = Some n) -> 0 < s < 65536 -> 0 < e -> s = 16 ^ Z.of_nat z * r -> r mod 16 <> 0 -> ~ contains0 (fmt_x 0 e) ->
  k_name k = fmt_x 0 s ++ S "0000" ++ fmt_x 0 e -> reference_title g k = Ok [EText (S "File: " ++ k_name k ++ S " (" ++ fmt_d e ++ S "-" ++ fmt_d r ++ S ")" ++ [10])].
Proof.
  intros G Hs He Es Hm Nz En. destruct (reference_shift s z r Hs Es Hm) as (Hr & Hz). apply reference_title_iff. right. exists (hex r), (repeat 48 z ++ hex e), e, r.
  rewrite !fmt_x_hex in * by lia. destruct (hex_last r ltac:(lia) Hm) as (p & c & Er & Nc). destruct (hex_head e He) as (c' & t & Ee & Nc').
  assert (Z0 : repeat 48 z ++ S "0000" = S "0000" ++ repeat 48 z) by (do 4 (destruct z as [|z]; [reflexivity|]); lia).
  repeat split.
  - rewrite En, Es, hex_mul by lia. rewrite <- app_assoc. f_equal. rewrite !app_assoc. now rewrite Z0.
  - rewrite Er. apply no_zeros_left; [|assumption]. pose proof (hex_len r ltac:(lia)) as L. rewrite Er, app_length in L. cbn in L. lia.
  - rewrite Ee in *. now apply no_zeros_right.
  - apply G, parse_hex_zeros. lia.
  - apply G, parse_hex. lia.
Qed.

(** A second 0000 in the name. *)
Lemma reference_twice g k s z r e : 0 < s < 65536 -> 0 < e -> s = 16 ^ Z.of_nat z * r -> r mod 16 <> 0 -> contains0 (fmt_x 0 e) ->
  k_name k = fmt_x 0 s ++ S "0000" ++ fmt_x 0 e -> reference_title g k = Err ValueError.
Proof.
  intros Hs He Es Hm Z4 En. destruct (reference_shift s z r Hs Es Hm) as (Hr & Hz). rewrite !fmt_x_hex in * by lia. destruct (hex_last r ltac:(lia) Hm) as (p & c & Er & Nc).
  assert (Z0 : repeat 48 z ++ S "0000" = S "0000" ++ repeat 48 z) by (do 4 (destruct z as [|z]; [reflexivity|]); lia).
  assert (C : cut (k_name k) = Some (hex r, repeat 48 z ++ hex e)).
  { apply cut_some. split.
    - rewrite En, Es, hex_mul by lia. rewrite <- app_assoc. f_equal. rewrite !app_assoc. now rewrite Z0.
    - rewrite Er. apply no_zeros_left; [|assumption]. pose proof (hex_len r ltac:(lia)) as L. rewrite Er, app_length in L. cbn in L. lia. }
  unfold reference_title. rewrite C. destruct (cut (repeat 48 z ++ hex e)) as [p'|] eqn:E; [reflexivity|]. exfalso. apply cut_none in E. apply E. destruct Z4 as (a & b & ->). exists (repeat 48 z ++ a), b. now rewrite app_assoc.
Qed.

(** ** Files that can be read *)

Section Good.
Variable g : regf.

Lemma forall2_exists {A B} (P : A -> Prop) (Q : A -> B -> Prop) l : (forall x, P x -> exists y, Q x y) -> Forall P l -> exists m, Forall2 Q l m.
Proof. intros H. induction 1 as [|x l Hx _ (m & IH)]; [exists []; constructor|]. destruct (H x Hx) as (y & Hy). exists (y :: m). now constructor. Qed.

Lemma shown_exists t v : exists s, shown_name t v s.
Proof. eexists. apply describe_ok. Qed.

Lemma block_exists (titled : key -> list ev -> Prop) (shown : value -> data -> list ev -> Prop) (ok : value -> data -> Prop) (k : key) : (exists t, titled k t) -> (forall v d, ok v d -> exists e, shown v d e) -> good_values g ok k -> exists l, block g titled shown k l.
Proof.
  intros (t & Ht) H Gv. unfold good_values in Gv.
  destruct (forall2_exists (fun v => exists d, has_data g v d /\ ok v d) (fun v e => exists d, has_data g v d /\ shown v d e) (k_values k)) with (2 := Gv) as (vs & F).
  - intros v (d & Hd & Ho). destruct (H v d Ho) as (e & He). eauto.
  - eexists. exists t, vs. eauto.
Qed.

Lemma all_exists (shown : key -> list ev -> Prop) (good : key -> Prop) k : (forall k, good k -> exists l, shown k l) -> Forall good (k_subs k) -> exists l, all_subs shown k l.
Proof. intros H F. destruct (forall2_exists good shown _ H F) as (ls & L). eexists. exists ls. eauto. Qed.

Lemma section_exists root name (shown : key -> list ev -> Prop) (good : key -> Prop) : (forall k, good k -> exists l, shown k l) -> good_section g root name good -> exists l, section_shown g root name shown l.
Proof.
  intros H Gs. pose proof (proj1 (sub_key_iff g root name _) eq_refl) as F. destruct (sub_key g root name) as [k|].
  - destruct (H k (Gs k F)) as (l & Hl). exists l, (Some k). auto.
  - exists [], None. auto.
Qed.

Lemma value_exists t v d : exists l, value_shown t v d l.
Proof. destruct (shown_exists t v) as (s & Hs). eexists. exists s. eauto. Qed.

Lemma reference_exists v d : (is_named v ["d"]%string -> exists n, d = DInt n) -> exists l, reference_shown v d l.
Proof.
  intros H. destruct (shown_exists reference_table v) as (s & Hs). destruct (named v ["d"]%string) eqn:Nd; [apply named_iff in Nd; destruct (H Nd) as (n & ->); eexists; exists s; split; [exact Hs|]; left; eauto|]. apply named_false in Nd.
  destruct (named v ["f"]%string) eqn:Nf; [apply named_iff in Nf; eexists; exists s; split; [exact Hs|]; right; left; eauto|]. apply named_false in Nf.
  destruct (named v ["11"; "12"; "17"]%string) eqn:Nt; [apply named_iff in Nt; eexists; exists s; split; [exact Hs|]; right; right; left; eauto|]. apply named_false in Nt.
  eexists. exists s. split; [exact Hs|]. right. right. right. split; [|reflexivity]. rewrite !is_named_cons in *. tauto.
Qed.

Lemma program_exists v d : (is_named v ["7"; "d"; "Files"]%string -> forall n, d <> DInt n) -> exists l, program_shown v d l.
Proof.
  intros H. destruct (shown_exists program_table v) as (s & Hs). destruct (named v ["7"; "d"; "Files"]%string) eqn:Nd.
  { apply named_iff in Nd. assert (P : exists ds, data_parts d ds) by (destruct d as [x|n|x|x]; [eexists; reflexivity|destruct (H Nd n); reflexivity|eexists; reflexivity|eexists; reflexivity]). destruct P as (ds & P).
    exists (part_events s ds), s. split; [exact Hs|]. left. split; [assumption|]. exists ds. split; [assumption|now apply lines_iff]. }
  apply named_false in Nd. destruct (named v ["a"; "b"]%string) eqn:Nt; [apply named_iff in Nt; eexists; exists s; split; [exact Hs|]; right; left; eauto|]. apply named_false in Nt.
  eexists. exists s. split; [exact Hs|]. right. right. split; [|reflexivity]. rewrite !is_named_cons in *. tauto.
Qed.

Lemma good_shown top : good_amcache g top -> exists l, amcache_shown g top l.
Proof.
  intros Ga. unfold amcache_shown. assert (K : known_root g top \/ ~ known_root g top).
  { unfold known_root. destruct (list_eqb (g_lower g (k_name top)) (S "{11517b7c-e79d-4e20-961b-75a811715add}")) eqn:E1; [apply list_eqb_eq in E1; auto|].
    destruct (list_eqb (g_lower g (k_name top)) (S "{356c48f6-2fee-e7ef-2a64-39f59ec3be22}")) eqn:E2; [apply list_eqb_eq in E2; auto|]. right. intros [H|H]; rewrite H, list_eqb_refl in *; discriminate. }
  destruct K as [K|K]; [|exists []; auto]. pose proof (proj1 (sub_key_iff g top "Root" _) eq_refl) as F. destruct (sub_key g top "Root") as [root|]; [|exists []; right; split; [assumption|]; exists None; auto].
  destruct (Ga K root F) as (G1 & G2 & G3 & G4).
  destruct (section_exists root "File" (all_subs (all_subs (block g (file_title g) reference_shown))) _ (fun k (Hk : Forall _ (k_subs k)) => all_exists _ _ k (fun volume Hv => all_exists _ (good_file g) volume
    (fun f (Hf : good_file g f) => block_exists (file_title g) reference_shown _ f (proj1 Hf) reference_exists (proj2 Hf)) Hv) Hk) G1) as (l1 & H1).
  destruct (section_exists root "Programs" (all_subs (block g (simple_title "Program: ") program_shown)) _ (fun k (Hk : Forall _ (k_subs k)) => all_exists _ (good_program g) k
    (fun f Hf => block_exists _ _ _ f (ex_intro _ _ eq_refl) program_exists Hf) Hk) G2) as (l2 & H2).
  destruct (section_exists root "InventoryApplication" (all_subs (block g (simple_title "Application: ") (value_shown application_table))) _ (fun k (Hk : Forall _ (k_subs k)) => all_exists _ _ k
    (fun f Hf => block_exists _ _ _ f (ex_intro _ _ eq_refl) (fun v d _ => value_exists _ v d) Hf) Hk) G3) as (l3 & H3).
  destruct (section_exists root "InventoryApplicationFile" (all_subs (block g (simple_title "Application File: ") (value_shown []))) _ (fun k (Hk : Forall _ (k_subs k)) => all_exists _ _ k
    (fun f Hf => block_exists _ _ _ f (ex_intro _ _ eq_refl) (fun v d _ => value_exists _ v d) Hf) Hk) G4) as (l4 & H4).
  eexists. right. split; [assumption|]. exists (Some root). split; [assumption|]. exists l1, l2, l3, l4. auto.
Qed.
End Good.

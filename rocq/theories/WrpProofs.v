(** Proofs about the object records of a WMI repository. *)

From Coq Require Import String.
From Verif Require Import Base BaseFacts SeqSpec CoreModel StrModel StrFacts DictModel Utf16Model RdModel TvModel TvSpec FhSpec WmiModel WmiNameProofs
  WcdModel WcdSpec WcdProofs WcmModel WcmSpec WcmProofs WciModel WciSpec WciProofs WchModel WchProofs WrpModel WrpSpec.
Local Open Scope list_scope.
Local Open Scope Z_scope.

(** ** Keys *)

Lemma last_segment_iff key seg : last (split_on 92 key) [] = seg <-> last_segment key seg.
Proof.
  assert (X : exists s, last_segment key s).
  { induction key as [|x key [s [N [->|[path ->]]]]]; [exists []; split; [auto|left; reflexivity]| |].
    - destruct (Z.eq_dec x 92) as [->|D].
      + exists s. split; [exact N|]. right. exists []. reflexivity.
      + exists (x :: s). split; [|left; reflexivity]. intros [E|I]; [congruence|contradiction].
    - exists s. split; [exact N|]. right. exists (x :: path). reflexivity. }
  assert (G : forall s, last_segment key s -> last (split_on 92 key) [] = s).
  { intros s [N [->|[path ->]]]; [rewrite split_on_no by assumption; reflexivity|]. apply split_last. exact N. }
  split; [|apply G]. intros <-. destruct X as [s X]. rewrite (G _ X). exact X.
Qed.

Lemma split_four c s a b d f : split_on c s = [a; b; d; f] <-> s = a ++ c :: b ++ c :: d ++ c :: f /\ ~ In c a /\ ~ In c b /\ ~ In c d /\ ~ In c f.
Proof.
  split.
  - intros H. pose proof (split_on_no_sep c s) as F. pose proof (join_split c s) as J. rewrite H in F, J. cbn [join] in J.
    inversion F as [|? ? F1 F']; subst. inversion F' as [|? ? F2 F'']; subst. inversion F'' as [|? ? F3 F3']; subst. inversion F3' as [|? ? F4 _]; subst.
    split; [|auto]. cbn [app]. reflexivity.
  - intros (-> & A & B & D & F). rewrite split_on_app by assumption. rewrite split_on_app by assumption. rewrite split_on_app by assumption. rewrite split_on_no by assumption. reflexivity.
Qed.

Lemma has_char_in c s : has_char c s = true <-> In c s.
Proof.
  unfold has_char. rewrite existsb_exists. split; [intros (x & I & E); apply Z.eqb_eq in E; subst; exact I|]. intros I. exists c. split; [exact I|apply Z.eqb_refl].
Qed.

Lemma in_split_first (c : Z) a : In c a -> exists t r, a = t ++ c :: r /\ ~ In c t.
Proof.
  induction a as [|x a IH]; [intros []|]. intros I. destruct (Z.eq_dec x c) as [->|D]; [exists [], a; auto|]. destruct I as [->|I]; [contradiction|]. destruct (IH I) as (t & r & -> & N).
  exists (x :: t), r. split; [reflexivity|]. intros [E|I']; [congruence|contradiction].
Qed.

(** Before and behind the first character [c]. *)
Lemma split_first c a : exists t r, split_on c a = t :: r /\ ~ In c t /\ forall type h,
  (t = type /\ (match split_on c a with [] => [] | _ :: r => join [c] r end) = h <-> ~ In c type /\ (a = type ++ c :: h \/ a = type /\ h = [])).
Proof.
  destruct (In_dec Z.eq_dec c a) as [I|N].
  - apply in_split_first in I. destruct I as (t & r & -> & N). exists t, (split_on c r). rewrite split_on_app by assumption. split; [reflexivity|]. split; [exact N|]. intros type h.
    rewrite join_split. split.
    + intros [<- <-]. auto.
    + intros [Nt [E|[E _]]].
      * assert (X : t :: split_on c r = type :: split_on c h) by (rewrite <- !split_on_app by assumption; congruence). injection X as -> X. split; [reflexivity|].
        rewrite <- (join_split c r), X. apply join_split.
      * exfalso. apply Nt. rewrite <- E. apply in_elt.
  - exists a, []. rewrite split_on_no by assumption. split; [reflexivity|]. split; [exact N|]. intros type h. cbn [join]. split.
    + intros [<- <-]. auto.
    + intros [Nt [E|[E ->]]]; [|auto]. exfalso. apply N. rewrite E. apply in_elt.
Qed.

Lemma key_values_iff e key type hash n id size : key_values e key = Some (type, hash, n, id, size) <-> says e key type hash n id size.
Proof.
  unfold key_values, key_record. pose proof (proj1 (last_segment_iff key _) eq_refl) as L. set (seg := last (split_on 92 key) []) in *. split.
  - destruct (negb (has_char 46 seg)); [discriminate|]. destruct (split_on 46 seg) as [|a [|b [|c [|d [|? ?]]]]] eqn:E; try discriminate. apply split_four in E as (E & Na & Nb & Nc & Nd).
    destruct (re_int e b) as [n'|] eqn:E1; [|discriminate]. destruct (re_int e c) as [id'|] eqn:E2; [|discriminate]. destruct (re_int e d) as [size'|] eqn:E3; [|discriminate].
    destruct (split_first 95 a) as (t & r & S & Nt & H). rewrite S. intros X. injection X as <- <- <- <- <-. rewrite S in H.
    destruct (proj1 (H t (join [95] r)) (conj eq_refl eq_refl)) as [_ H']. exists seg, a, b, c, d, (join [95] r). auto 20.
  - intros (seg' & a & b & c & d & h & L' & E & Na & Nb & Nc & Nd & E1 & E2 & E3 & Nt & H & ->).
    assert (seg = seg') as -> by (apply last_segment_iff in L'; exact L').
    assert (Hc : has_char 46 seg' = true) by (apply has_char_in; rewrite E; apply in_elt). rewrite Hc. cbn [negb].
    assert (S : split_on 46 seg' = [a; b; c; d]) by (apply split_four; auto). rewrite S, E1, E2, E3.
    destruct (split_first 95 a) as (t & r & S2 & Nt2 & H2). destruct (proj2 (H2 type h) (conj Nt H)) as [<- <-]. rewrite S2. reflexivity.
Qed.

Lemma no_values e key : key_values e key = None -> forall type hash n id size, ~ says e key type hash n id size.
Proof. intros H type hash n id size X. apply key_values_iff in X. congruence. Qed.

Lemma list_eqb_in s l : existsb (list_eqb s) l = true <-> In s l.
Proof. rewrite existsb_exists. split; [intros (x & I & E); apply list_eqb_eq in E; subst; exact I|]. intros I. exists s. split; [exact I|now apply list_eqb_eq]. Qed.

Lemma is_class_iff type : list_eqb type (s2z "CD") = true <-> In type class_types.
Proof. rewrite <- list_eqb_in. unfold class_types. cbn [existsb]. rewrite Bool.orb_false_r. reflexivity. Qed.

Lemma is_instance_iff type : is_instance type = true <-> In type instance_types.
Proof. rewrite <- list_eqb_in. unfold is_instance, instance_types. cbn [existsb]. rewrite Bool.orb_false_r. reflexivity. Qed.

Lemma other_some e types key type hash n id size : key_values e key = Some (type, hash, n, id, size) -> (other e types key <-> ~ In type types).
Proof.
  intros H. split.
  - intros O I. apply (O _ hash n id size I). apply key_values_iff. exact H.
  - intros N t h a b c I X. apply key_values_iff in X. rewrite H in X. injection X as <- <- <- <- <-. contradiction.
Qed.

Lemma other_none e types key : key_values e key = None -> other e types key.
Proof. intros H t h a b c _. now apply no_values. Qed.

Lemma record_of_some e types key type hash n id size h d : key_values e key = Some (type, hash, n, id, size) ->
  (record_of e types key h d <-> In type types /\ h = hash /\ re_record e n id size = Done (Ok d)).
Proof.
  intros H. split.
  - intros (t & a & b & c & I & X & R). apply key_values_iff in X. rewrite H in X. injection X as <- <- <- <- <-. auto.
  - intros (I & -> & R). exists type, n, id, size. split; [exact I|]. split; [now apply key_values_iff|exact R].
Qed.

Lemma record_of_none e types key h d : key_values e key = None -> ~ record_of e types key h d.
Proof. intros H (t & a & b & c & I & X & R). eapply no_values; eassumption. Qed.

(** ** Class definitions *)

Lemma class_defs_iff e keys kend : env_bytes e -> forall t u,
  (class_defs e keys kend t = Done (Ok u) <-> exists l, class_keys e keys l /\ kend = Ok tt /\ u = sdict_of l t).
Proof.
  intros B. induction keys as [|key keys IH]; intros t u; cbn [class_defs].
  - destruct kend as [[]|x]; cbn; split.
    + intros H. injection H as <-. exists []. split; [constructor|auto].
    + intros (l & H & _ & ->). inversion H; subst. reflexivity.
    + discriminate.
    + intros (l & _ & X & _). discriminate.
  - assert (S : forall l', other e class_types key -> (class_keys e (key :: keys) l' <-> class_keys e keys l')).
    { intros l' O. split; [|apply ck_other; exact O]. intros H. inversion H as [|? ? ? O' H'|? ? h d c l0 R H0 H']; subst; [exact H'|]. exfalso. destruct R as (ty & a & b & f & I & X & _). exact (O _ _ _ _ _ I X). }
    destruct (key_values e key) as [[[[[type hash] n] id] size]|] eqn:K.
    2:{ rewrite IH. split; intros (l & H & R); exists l; (split; [|exact R]); now apply S; [apply other_none|]. }
    destruct (list_eqb type (s2z "CD")) eqn:T.
    2:{ rewrite IH. assert (O : other e class_types key) by (apply (other_some _ _ _ _ _ _ _ _ K); rewrite <- is_class_iff; congruence).
        split; intros (l & H & R); exists l; (split; [|exact R]); now apply S. }
    apply is_class_iff in T. split.
    + destruct (re_record e n id size) as [[d|x]|] eqn:R; cbn [rbind]; try discriminate. destruct (class_record (re_ansi e) (re_lower e) d) as [c|x] eqn:C; cbn [rbind]; [|discriminate].
      rewrite IH. intros (l & H & Ke & ->). exists ((hash, c) :: l). split; [|auto]. apply class_record_iff in C; [|eapply B; exact R].
      eapply ck_class; [|exact C|exact H]. apply (record_of_some _ _ _ _ _ _ _ _ _ _ K). auto.
    + intros (l & H & Ke & ->). inversion H as [|? ? ? O' H'|? ? h d c l0 R H0 H']; subst.
      * exfalso. apply (other_some _ _ _ _ _ _ _ _ K) in O'. contradiction.
      * apply (record_of_some _ _ _ _ _ _ _ _ _ _ K) in R as (_ & -> & R). rewrite R. cbn [rbind]. apply class_record_iff in H0; [|eapply B; exact R]. rewrite H0. cbn [rbind].
        apply IH. exists l0. auto.
Qed.

(** ** Class value maps that are kept *)

Definition kept_ok (fuel : nat) (e : renv) (defs : sdict cdef) (kept : sdict cmap) : Prop :=
  forall h m, sdict_get (re_lower e h) kept = Some m -> fresh_map fuel (re_lower e) (re_hash e) defs h = Done (Ok m).

Lemma map_kept fuel e defs kept h r kept' : kept_ok fuel e defs kept -> map_by_hash fuel (re_lower e) (re_hash e) defs kept h = (r, kept') ->
  r = fresh_map fuel (re_lower e) (re_hash e) defs h /\ kept_ok fuel e defs kept'.
Proof.
  intros K. unfold map_by_hash. destruct (sdict_get (re_lower e h) kept) as [m|] eqn:S.
  - intros H. injection H as <- <-. rewrite (K _ _ S). auto.
  - destruct (fresh_map fuel (re_lower e) (re_hash e) defs h) as [[m|x]|] eqn:F; intros H; injection H as <- <-; split; auto.
    intros h2 m2. rewrite sdict_get_set. destruct (list_eqb (re_lower e h) (re_lower e h2)) eqn:E; [|apply K].
    intros X. injection X as <-. apply list_eqb_eq in E. rewrite <- F. apply fresh_lower. congruence.
Qed.

Definition of_record (fuel : nat) (e : renv) (defs : sdict cdef) (d : bytes) : run inst := instance_of_record fuel (re_ansi e) (re_lower e) (re_hash e) defs (re_old e) d.

Lemma record_kept fuel e defs kept d r kept' : kept_ok fuel e defs kept -> read_record fuel e defs kept d = (r, kept') -> r = of_record fuel e defs d /\ kept_ok fuel e defs kept'.
Proof.
  intros K. unfold read_record, of_record, instance_of_record. destruct (instance_record (re_old e) d) as [[h data]|x]; cbn [rbind].
  - destruct (map_by_hash fuel (re_lower e) (re_hash e) defs kept h) as [m k] eqn:M. apply map_kept in M as [-> K']; [|exact K]. intros H. injection H as <- <-. split; [reflexivity|exact K'].
  - intros H. injection H as <- <-. auto.
Qed.

Lemma kept_nil fuel e defs : kept_ok fuel e defs [].
Proof. intros h m H. discriminate. Qed.

(** ** Instances *)

Fixpoint plain (fuel : nat) (e : renv) (defs : sdict cdef) (keys : list str) (kend : result unit) : gen inst unit :=
  match keys with
  | [] => gen_of kend
  | key :: keys =>
      match key_values e key with
      | Some (type, hash, n, id, size) =>
          if is_instance type then
            gdo d <- gen_run (re_record e n id size); gdo i <- gen_run (of_record fuel e defs d); gdo _ <- yield i; plain fuel e defs keys kend
          else plain fuel e defs keys kend
      | None => plain fuel e defs keys kend
      end
  end.

Lemma gen_bind_ext {E A B} (g : gen E A) (f f' : A -> gen E B) : (forall a, f a = f' a) -> gen_bind g f = gen_bind g f'.
Proof. intros H. unfold gen_bind. destruct g as [[l [a|x]]|]; try reflexivity. rewrite H. reflexivity. Qed.

Lemma all_plain fuel e defs keys kend : forall kept, kept_ok fuel e defs kept -> all_instances fuel e defs kept keys kend = plain fuel e defs keys kend.
Proof.
  induction keys as [|key keys IH]; intros kept K; [reflexivity|]. cbn [all_instances plain]. destruct (key_values e key) as [[[[[type hash] n] id] size]|]; [|apply IH; exact K].
  destruct (is_instance type); [|apply IH; exact K]. apply gen_bind_ext. intros d. destruct (read_record fuel e defs kept d) as [r kept'] eqn:R. apply record_kept in R as [-> K']; [|exact K].
  apply gen_bind_ext. intros i. apply gen_bind_ext. intros _. apply IH. exact K'.
Qed.

Lemma parents_mono n m lower hash defs c l x : (n <= m)%nat -> parents n lower hash defs c l = Done x -> parents m lower hash defs c l = Done x.
Proof.
  revert m c l. induction n as [|n IH]; intros [|m] c l L; cbn [parents]; try discriminate; try lia. destruct (c_super c) as [[|y s]|]; try auto.
  destruct (class_by_hash lower defs (hash (y :: s))); [|auto]. apply IH. lia.
Qed.

Lemma of_record_mono n m e defs d x : (n <= m)%nat -> of_record n e defs d = Done x -> of_record m e defs d = Done x.
Proof.
  intros L. unfold of_record, instance_of_record. destruct (instance_record (re_old e) d) as [[h data]|y]; cbn [rbind]; [|auto]. unfold fresh_map.
  destruct (class_by_hash (re_lower e) defs h) as [c|]; [|auto]. destruct (parents n (re_lower e) (re_hash e) defs c [c]) as [y|] eqn:P; [|discriminate].
  rewrite (parents_mono _ _ _ _ _ _ _ _ L P). auto.
Qed.

Lemma gen_run_mono {E A} (r r' : run A) : (forall x, r = Done x -> r' = Done x) -> forall y : list E * result A, gen_run r = Some y -> gen_run r' = Some y.
Proof. intros H y. destruct r as [x|]; [|discriminate]. rewrite (H x eq_refl). auto. Qed.

Lemma plain_mono n m e defs keys kend x : (n <= m)%nat -> plain n e defs keys kend = Some x -> plain m e defs keys kend = Some x.
Proof.
  intros L. revert x. induction keys as [|key keys IH]; intros x; cbn [plain]; [auto|]. destruct (key_values e key) as [[[[[type hash] a] b] c]|]; [|apply IH].
  destruct (is_instance type); [|apply IH]. apply gen_bind_mono; [auto|]. intros d y. apply gen_bind_mono; [apply gen_run_mono; intros z; apply of_record_mono; exact L|].
  intros i z. apply gen_bind_mono; [auto|]. intros _ w. apply IH.
Qed.

Lemma gen_run_ok {E A} (r : run A) (l : list E) a : gen_run r = Some (l, Ok a) <-> l = [] /\ r = Done (Ok a).
Proof. unfold gen_run. destruct r as [x|]; split; try discriminate; intros H; [injection H as <- ->; auto|destruct H as [-> H]; injection H as ->; reflexivity|destruct H as [_ H]; discriminate]. Qed.

Lemma plain_sound fuel e defs keys kend l : env_bytes e -> defs_wf defs -> plain fuel e defs keys kend = Some (l, Ok tt) -> kend = Ok tt /\ instance_keys e defs keys l.
Proof.
  intros B W. revert l. induction keys as [|key keys IH]; intros l; cbn [plain].
  - intros H. apply gen_of_ok in H as [-> H]. split; [exact H|constructor].
  - destruct (key_values e key) as [[[[[type hash] n] id] size]|] eqn:K.
    2:{ intros H. apply IH in H as [H1 H2]. split; [exact H1|]. apply ik_other; [apply other_none; exact K|exact H2]. }
    destruct (is_instance type) eqn:T.
    2:{ intros H. apply IH in H as [H1 H2]. split; [exact H1|]. apply ik_other; [|exact H2]. apply (other_some _ _ _ _ _ _ _ _ K). rewrite <- is_instance_iff. congruence. }
    apply is_instance_iff in T. intros H. apply gen_bind_ok in H as (l1 & d & l2 & H1 & H & ->). apply gen_run_ok in H1 as [-> H1].
    apply gen_bind_ok in H as (l3 & i & l4 & H2 & H & ->). apply gen_run_ok in H2 as [-> H2]. apply gen_bind_ok in H as (l5 & [] & l6 & H3 & H & ->). injection H3 as <-.
    apply IH in H as [H4 H5]. split; [exact H4|]. cbn [app]. eapply ik_instance; [apply (record_of_some _ _ _ _ _ _ _ _ _ _ K); eauto| |exact H5].
    destruct i as [m t]. apply (proj1 (record_instance_iff _ _ _ _ _ _ _ _ (B _ _ _ _ H1) W)). exists fuel. exact H2.
Qed.

Lemma plain_complete e defs keys l : env_bytes e -> defs_wf defs -> instance_keys e defs keys l -> exists fuel, plain fuel e defs keys (Ok tt) = Some (l, Ok tt).
Proof.
  intros B W H. induction H as [|key keys l O H [fuel IH]|key keys hash d i l R I H [f1 IH]].
  - exists O. reflexivity.
  - exists fuel. cbn [plain]. destruct (key_values e key) as [[[[[type hash] n] id] size]|] eqn:K; [|exact IH].
    destruct (is_instance type) eqn:T; [|exact IH]. apply is_instance_iff in T. apply (other_some _ _ _ _ _ _ _ _ K) in O. contradiction.
  - destruct (key_values e key) as [[[[[type hash'] n] id] size]|] eqn:K; [|exfalso; eapply record_of_none; eassumption].
    apply (record_of_some _ _ _ _ _ _ _ _ _ _ K) in R as (T & -> & R). destruct i as [m t].
    destruct (proj2 (record_instance_iff _ _ _ _ _ _ m t (B _ _ _ _ R) W) I) as [f2 E]. exists (max f1 f2). cbn [plain]. rewrite K. apply is_instance_iff in T. rewrite T.
    apply gen_bind_ok. exists [], d, ((m, t) :: l). split; [rewrite R; reflexivity|]. split; [|reflexivity].
    apply gen_bind_ok. exists [], (m, t), ((m, t) :: l). split; [apply gen_run_ok; split; [reflexivity|]; eapply of_record_mono; [|exact E]; lia|]. split; [|reflexivity].
    apply gen_bind_ok. exists [(m, t)], tt, l. split; [reflexivity|]. split; [|reflexivity]. eapply plain_mono; [|exact IH]. lia.
Qed.

Lemma all_instances_iff e defs keys kend l : env_bytes e -> defs_wf defs ->
  ((exists fuel, all_instances fuel e defs [] keys kend = Some (l, Ok tt)) <-> kend = Ok tt /\ instance_keys e defs keys l).
Proof.
  intros B W. split.
  - intros [fuel H]. rewrite all_plain in H by apply kept_nil. eapply plain_sound; eassumption.
  - intros [-> H]. destruct (plain_complete _ _ _ _ B W H) as [fuel E]. exists fuel. rewrite all_plain by apply kept_nil. exact E.
Qed.

(** What is yielded before a failure is what belongs to the first keys. *)
Lemma plain_yields fuel e defs keys kend l r : env_bytes e -> defs_wf defs -> plain fuel e defs keys kend = Some (l, r) ->
  exists k1 k2, keys = k1 ++ k2 /\ instance_keys e defs k1 l /\ (r = Ok tt -> k2 = []).
Proof.
  intros B W. revert l. induction keys as [|key keys IH]; intros l; cbn [plain].
  - intros H. apply gen_of_any in H as [-> _]. exists [], []. split; [reflexivity|]. split; [constructor|auto].
  - destruct (key_values e key) as [[[[[type hash] n] id] size]|] eqn:K.
    2:{ intros H. apply IH in H as (k1 & k2 & -> & H & R). exists (key :: k1), k2. split; [reflexivity|]. split; [|exact R]. apply ik_other; [apply other_none; exact K|exact H]. }
    destruct (is_instance type) eqn:T.
    2:{ intros H. apply IH in H as (k1 & k2 & -> & H & R). exists (key :: k1), k2. split; [reflexivity|]. split; [|exact R]. apply ik_other; [|exact H].
        apply (other_some _ _ _ _ _ _ _ _ K). rewrite <- is_instance_iff. congruence. }
    apply is_instance_iff in T. intros H. apply gen_bind_any in H as [(x & H & ->)|(l1 & d & l2 & H1 & H & ->)].
    { assert (l = []) as -> by (destruct (re_record e n id size) as [y|]; cbn in H; [congruence|discriminate]). exists [], (key :: keys). split; [reflexivity|]. split; [constructor|discriminate]. }
    apply gen_run_ok in H1 as [-> H1]. apply gen_bind_any in H as [(x & H & ->)|(l3 & i & l4 & H2 & H & ->)].
    { assert (l2 = []) as -> by (destruct (of_record fuel e defs d) as [y|]; cbn in H; [congruence|discriminate]). exists [], (key :: keys). split; [reflexivity|]. split; [constructor|discriminate]. }
    apply gen_run_ok in H2 as [-> H2]. apply gen_bind_any in H as [(x & H & _)|(l5 & [] & l6 & H3 & H & ->)]; [discriminate|]. injection H3 as <-.
    apply IH in H as (k1 & k2 & -> & H & R). exists (key :: k1), k2. split; [reflexivity|]. split; [|exact R]. cbn [app].
    eapply ik_instance; [apply (record_of_some _ _ _ _ _ _ _ _ _ _ K); eauto| |exact H].
    destruct i as [m t]. apply (proj1 (record_instance_iff _ _ _ _ _ _ _ _ (B _ _ _ _ H1) W)). exists fuel. exact H2.
Qed.

(** The class definitions that are read are in order. *)
Lemma class_keys_wf e keys l t : class_keys e keys l -> assigned l t -> defs_wf t.
Proof.
  intros H A. apply assigned_iff in A. subst t. apply Forall_forall. intros [k c] I. apply sdict_get_in in I; [|apply sdict_of_nodup]. apply sdict_of_get in I. destruct I as (l1 & l2 & E & _). cbn [snd].
  assert (I : In (k, c) l) by (rewrite E; apply in_elt). clear E l1 l2. induction H as [|key keys l O H IH|key keys hash d c' l R C H IH]; [destruct I|auto|].
  destruct I as [I|I]; [|auto]. injection I as _ ->. destruct C as (s & name & data & d0 & rest & _ & _ & _ & C). eapply class_offsets. exact C.
Qed.

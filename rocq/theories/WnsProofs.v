(** Proofs about the namespaces of the object records of a WMI repository. *)

From Coq Require Import String Permutation.
From Verif Require Import Base BaseFacts SeqSpec CoreModel StrModel StrFacts DictModel RdModel TvModel WmiModel
  WcdModel WcdSpec WcdProofs WcmModel WcmSpec WcmProofs WciModel WciSpec WciProofs WchModel WchProofs WrpModel WrpSpec WrpProofs WnsSpec.
Local Open Scope list_scope.
Local Open Scope Z_scope.

(** ** Keys *)

Lemma segment_iff key k seg : nth_error (split_on 92 key) k = Some seg <-> segment key k seg.
Proof.
  split.
  - intros H. exists (split_on 92 key). split; [apply split_on_nonempty|]. split; [apply split_on_no_sep|]. split; [symmetry; apply join_split|exact H].
  - intros (segs & N & F & -> & H). rewrite split_join by assumption. exact H.
Qed.

Lemma segment_unique key k s t : segment key k s -> segment key k t -> s = t.
Proof. rewrite <- !segment_iff. congruence. Qed.

Lemma behind_iff s c : after_under s = c <-> behind s c.
Proof.
  unfold after_under, behind. destruct (in_dec Z.eq_dec 95 s) as [I|N].
  - apply in_split_first in I as (a & b & E & N). subst s. rewrite split_on_app by exact N. rewrite join_split. split.
    + intros <-. left. exists a. auto.
    + intros [(t & N' & E)|[N' _]]; [|exfalso; apply N', in_elt]. pose proof (f_equal (split_on 95) E) as X. rewrite !split_on_app in X by assumption. injection X as _ X. rewrite <- (join_split 95 b), X, join_split. reflexivity.
  - rewrite split_on_no by exact N. cbn [join]. split; [intros <-; auto|]. intros [(t & _ & E)|[_ E]]; [exfalso; apply N; rewrite E; apply in_elt|auto].
Qed.

Lemma of_namespace_iff e seg : list_eqb (re_lower e (after_under seg)) (re_hash e (s2z "__NAMESPACE")) = true <-> of_namespace e seg.
Proof.
  rewrite list_eqb_eq. split.
  - intros H. exists (after_under seg). split; [apply behind_iff; reflexivity|exact H].
  - intros (c & B & H). apply behind_iff in B. rewrite B. exact H.
Qed.

Lemma in_add {A} (eqb : A -> A -> bool) (Q : forall a b, eqb a b = true <-> a = b) a l x : In x (add_to eqb a l) <-> x = a \/ In x l.
Proof.
  unfold add_to. destruct (existsb (eqb a) l) eqn:X.
  - apply existsb_exists in X as (y & I & X). apply Q in X. subst y. split; [auto|]. intros [->|H]; assumption.
  - rewrite in_app_iff. cbn. split; [intros [H|[H|[]]]; auto|intros [H|H]; auto].
Qed.

Lemma nodup_snoc {A} (a : A) l : NoDup l -> ~ In a l -> NoDup (l ++ [a]).
Proof. intros D N. apply (Permutation_NoDup (Permutation_cons_append l a)). constructor; assumption. Qed.

Lemma nodup_add a l : NoDup l -> NoDup (add_to list_eqb a l).
Proof.
  intros D. unfold add_to. destruct (existsb (list_eqb a) l) eqn:X; [exact D|]. apply nodup_snoc; [exact D|]. intros I. apply list_eqb_in in I. congruence.
Qed.

Lemma same_pair_eq a b : same_pair a b = true <-> a = b.
Proof. destruct a as [a1 a2], b as [b1 b2]. unfold same_pair. cbn. rewrite andb_true_iff, !Z.eqb_eq. split; [intros [-> ->]; reflexivity|intros H; injection H; auto]. Qed.

Lemma children_app l l' p : children (l ++ l') p = children l p ++ children l' p.
Proof. induction l as [|[q i] l IH]; [reflexivity|]. cbn [app children]. rewrite IH, app_assoc. reflexivity. Qed.

Lemma in_children l p i : In i (children l p) <-> In (p, i) l.
Proof.
  induction l as [|[q j] l IH]; [reflexivity|]. cbn [children In]. rewrite in_app_iff, IH. destruct (list_eqb q p) eqn:E.
  - apply list_eqb_eq in E. subst q. cbn. split; [intros [[->|[]]|H]; auto|intros [H|H]; [injection H as ->; auto|auto]].
  - cbn. split; [intros [[]|H]; auto|]. intros [H|H]; [|auto]. exfalso. injection H as -> ->. assert (list_eqb p p = true) by (apply list_eqb_eq; reflexivity). congruence.
Qed.

(** ** Collecting *)

Definition kids (insts : sdict (list inst)) (p : str) : list inst := match sdict_get p insts with Some l => l | None => [] end.

(** The state stands for what was found. *)
Definition stands (fuel : nat) (e : renv) (defs : sdict cdef) (s : found_ns) (l : list (str * inst)) (ps : list str) (seen : list (Z * Z)) : Prop :=
  (forall p, kids (fn_insts s) p = children l p) /\ NoDup (fn_parents s) /\ (forall p, In p (fn_parents s) <-> In p ps) /\
  (forall x, In x (fn_seen s) <-> In x seen) /\ kept_ok fuel e defs (fn_kept s).

Lemma collect_key_sound fuel e defs key s s' l ps seen : env_bytes e -> defs_wf defs -> stands fuel e defs s l ps seen -> collect_key fuel e defs key s = Done (Ok s') ->
  exists l1 ps1 seen1, space_key e defs seen key l1 ps1 seen1 /\ stands fuel e defs s' (l ++ l1) (ps ++ ps1) seen1.
Proof.
  intros B W (K & N & P & X & M). unfold collect_key. destruct (nth_error (split_on 92 key) 1) as [seg|] eqn:S1; [|discriminate]. apply segment_iff in S1.
  destruct (starts_with (s2z "NS_") seg) eqn:ST; cbn [negb].
  2:{ intros H. injection H as <-. exists [], [], seen. split; [|rewrite !app_nil_r; repeat (split; [assumption|]); assumption]. eapply sk_outside; [exact S1|]. intros h E. assert (starts_with (s2z "NS_") seg = true) by (apply starts_with_spec; eauto). congruence. }
  apply starts_with_spec in ST as [h ->]. change (skipn 3 (s2z "NS_" ++ h)) with h. destruct (nth_error (split_on 92 key) 2) as [seg2|] eqn:S2; [|discriminate]. apply segment_iff in S2.
  assert (IN : (forall type hash n id size, of_namespace e seg2 -> In type instance_types -> says e key type hash n id size -> In (n, id) seen) ->
     exists l1 ps1 seen1, space_key e defs seen key l1 ps1 seen1 /\
       stands fuel e defs (mkfn (fn_insts s) (add_to list_eqb (re_lower e h) (fn_parents s)) (fn_seen s) (fn_kept s)) (l ++ l1) (ps ++ ps1) seen1).
  { intros H. exists [], [re_lower e h], seen. split; [eapply sk_inside; eassumption|]. rewrite app_nil_r. split; [exact K|]. split; [apply nodup_add; exact N|]. split; [|split; assumption].
    intros p. cbn [fn_parents]. rewrite (in_add _ list_eqb_eq), P, in_app_iff. cbn. split; [intros [->|Q]; auto|intros [Q|[Q|[]]]; auto]. }
  destruct (list_eqb (re_lower e (after_under seg2)) (re_hash e (s2z "__NAMESPACE"))) eqn:C; cbn [negb].
  2:{ intros H. injection H as <-. apply IN. intros ? ? ? ? ? O. apply of_namespace_iff in O. congruence. }
  apply of_namespace_iff in C. destruct (key_values e key) as [[[[[type hash] n] id] size]|] eqn:V.
  2:{ intros H. injection H as <-. apply IN. intros ? ? ? ? ? _ _ Y. apply key_values_iff in Y. congruence. }
  destruct (is_instance type) eqn:T; cbn [negb].
  2:{ intros H. injection H as <-. apply IN. intros ? ? ? ? ? _ I Y. apply key_values_iff in Y. rewrite V in Y. injection Y as <- _ _ _ _. apply is_instance_iff in I. congruence. }
  apply is_instance_iff in T. cbn [fn_seen]. destruct (existsb (same_pair (n, id)) (fn_seen s)) eqn:SN.
  { intros H. injection H as <-. apply IN. intros ? ? ? ? ? _ _ Y. apply key_values_iff in Y. rewrite V in Y. injection Y as _ _ <- <- _.
    apply existsb_exists in SN as (y & I & Q). apply same_pair_eq in Q. subst y. apply X. exact I. }
  assert (NS : ~ In (n, id) seen).
  { intros I. apply X in I. assert (existsb (same_pair (n, id)) (fn_seen s) = true) by (apply existsb_exists; exists (n, id); split; [exact I|apply same_pair_eq; reflexivity]). congruence. }
  destruct (re_record e n id size) as [[d|]|] eqn:R; cbn [rbind]; try discriminate. cbn [fn_kept]. destruct (read_record fuel e defs (fn_kept s) d) as [r kept] eqn:RR.
  apply record_kept in RR as [-> M']; [|exact M]. destruct (of_record fuel e defs d) as [[i|]|] eqn:O; cbn [rbind]; try discriminate. intros H. injection H as <-.
  exists [(re_lower e h, i)], [re_lower e h], ((n, id) :: seen). split.
  - eapply sk_space; try eassumption; [apply key_values_iff; exact V|]. destruct i as [m t]. apply (proj1 (record_instance_iff _ _ _ _ _ _ _ _ (B _ _ _ _ R) W)). exists fuel. exact O.
  - split; [|split; [apply nodup_add; exact N|split; [|split; [|exact M']]]].
    + intros p. cbn [fn_insts]. unfold kids. rewrite sdict_get_set, children_app. cbn [children]. rewrite app_nil_r. rewrite <- (K p). unfold kids. destruct (list_eqb (re_lower e h) p) eqn:E; [|symmetry; apply app_nil_r].
      apply list_eqb_eq in E. subst p. reflexivity.
    + intros p. cbn [fn_parents]. rewrite (in_add _ list_eqb_eq), P, in_app_iff. cbn. split; [intros [->|Q]; auto|intros [Q|[Q|[]]]; auto].
    + intros x. cbn [fn_seen]. rewrite (in_add _ same_pair_eq), X. cbn. split; (intros [->|Q]; auto).
Qed.

Lemma collect_key_complete e defs seen key l1 ps1 seen1 : env_bytes e -> defs_wf defs -> space_key e defs seen key l1 ps1 seen1 ->
  exists F, forall fuel s l ps, (F <= fuel)%nat -> stands fuel e defs s l ps seen ->
    exists s', collect_key fuel e defs key s = Done (Ok s').
Proof.
  intros B W H. destruct H as [seg S1 N|h seg S1 S2 N|h seg type hash n id size d i S1 S2 O T Y NS R I].
  - exists O. intros fuel s l ps _ ST. unfold collect_key. apply segment_iff in S1. rewrite S1. destruct (starts_with (s2z "NS_") seg) eqn:X; cbn [negb]; [|eauto].
    apply starts_with_spec in X as [h X]. exfalso. eapply N. exact X.
  - exists O. intros fuel s l ps _ (K & D & P & X & M). unfold collect_key. apply segment_iff in S1. rewrite S1.
    replace (starts_with (s2z "NS_") (s2z "NS_" ++ h)) with true by (symmetry; apply starts_with_spec; eauto). cbn [negb]. apply segment_iff in S2. rewrite S2.
    destruct (list_eqb _ (re_hash e _)) eqn:C; cbn [negb]; [|eauto]. apply of_namespace_iff in C. destruct (key_values e key) as [[[[[type hash] n] id] size]|] eqn:V; [|eauto].
    destruct (is_instance type) eqn:T; cbn [negb]; [|eauto]. apply is_instance_iff in T. apply key_values_iff in V. pose proof (N _ _ _ _ _ C T V) as I. apply X in I.
    cbn [fn_seen]. replace (existsb (same_pair (n, id)) (fn_seen s)) with true; [eauto|]. symmetry. apply existsb_exists. exists (n, id). split; [exact I|apply same_pair_eq; reflexivity].
  - destruct i as [m t]. destruct (proj2 (record_instance_iff _ _ _ _ _ _ m t (B _ _ _ _ R) W) I) as [F E]. exists F. intros fuel s l ps L (K & D & P & X & M). unfold collect_key. apply segment_iff in S1. rewrite S1.
    replace (starts_with (s2z "NS_") (s2z "NS_" ++ h)) with true by (symmetry; apply starts_with_spec; eauto). cbn [negb]. apply segment_iff in S2. rewrite S2. apply of_namespace_iff in O. rewrite O. cbn [negb].
    apply key_values_iff in Y. rewrite Y. apply is_instance_iff in T. rewrite T. cbn [negb]. cbn [fn_seen]. destruct (existsb (same_pair (n, id)) (fn_seen s)); [eauto|]. rewrite R. cbn [rbind fn_kept].
    destruct (read_record fuel e defs (fn_kept s) d) as [r kept] eqn:RR. apply record_kept in RR as [-> M']; [|exact M].
    assert (of_record fuel e defs d = Done (Ok (m, t))) as -> by (eapply of_record_mono; [exact L|exact E]). cbn [rbind]. eauto.
Qed.

Lemma space_key_unique e defs seen key l ps sn l' ps' sn' : env_bytes e -> defs_wf defs -> space_key e defs seen key l ps sn -> space_key e defs seen key l' ps' sn' -> l = l' /\ ps = ps' /\ sn = sn'.
Proof.
  intros B W H H'. destruct H as [seg S1 N|h seg S1 S2 N|h seg type hash n id size d i S1 S2 O T Y NS R I]; destruct H' as [seg' S1' N'|h' seg' S1' S2' N'|h' seg' type' hash' n' id' size' d' i' S1' S2' O' T' Y' NS' R' I'];
    pose proof (segment_unique _ _ _ _ S1 S1') as E; try (subst; exfalso; (eapply N; reflexivity) || (eapply N'; reflexivity)); [auto| | | |]; apply app_inv_head in E; subst h'; try pose proof (segment_unique _ _ _ _ S2 S2') as <-.
  - auto.
  - exfalso. apply NS'. eapply N; eassumption.
  - exfalso. apply NS. eapply N'; eassumption.
  - apply key_values_iff in Y, Y'. rewrite Y in Y'. injection Y' as <- <- <- <- <-. rewrite R in R'. injection R' as <-. destruct i as [m t], i' as [m' t'].
    destruct (proj2 (record_instance_iff _ _ _ _ _ _ m t (B _ _ _ _ R) W) I) as [F E]. destruct (proj2 (record_instance_iff _ _ _ _ _ _ m' t' (B _ _ _ _ R) W) I') as [F' E'].
    apply (of_record_mono _ (max F F')) in E; [|lia]. apply (of_record_mono _ (max F F')) in E'; [|lia]. assert (X : (m, t) = (m', t')) by congruence. rewrite X. auto.
Qed.

Lemma collect_sound fuel e defs keys kend : env_bytes e -> defs_wf defs -> forall s s' l ps seen, stands fuel e defs s l ps seen -> collect fuel e defs keys kend s = Done (Ok s') ->
  kend = Ok tt /\ exists l1 ps1 seen1, space_keys e defs seen keys l1 ps1 /\ stands fuel e defs s' (l ++ l1) (ps ++ ps1) seen1.
Proof.
  intros B W. induction keys as [|key keys IH]; intros s s' l ps seen ST; cbn [collect].
  - destruct kend as [[]|]; cbn [rbind]; [|discriminate]. intros H. injection H as <-. split; [reflexivity|]. exists [], [], seen. split; [constructor|]. rewrite !app_nil_r. exact ST.
  - destruct (collect_key fuel e defs key s) as [[s1|]|] eqn:C; cbn [rbind]; try discriminate. intros H. destruct (collect_key_sound _ _ _ _ _ _ _ _ _ B W ST C) as (l1 & ps1 & seen1 & K & ST1).
    destruct (IH _ _ _ _ _ ST1 H) as (E & l2 & ps2 & seen2 & Ks & ST2). split; [exact E|]. exists (l1 ++ l2), (ps1 ++ ps2), seen2. split; [econstructor; eassumption|]. rewrite !app_assoc. exact ST2.
Qed.

Lemma collect_complete e defs seen keys l1 ps1 : env_bytes e -> defs_wf defs -> space_keys e defs seen keys l1 ps1 ->
  exists F, forall fuel s l ps, (F <= fuel)%nat -> stands fuel e defs s l ps seen -> exists s', collect fuel e defs keys (Ok tt) s = Done (Ok s').
Proof.
  intros B W H. induction H as [seen|seen key keys l1 ps1 seen1 l2 ps2 K H [F2 IH]].
  - exists O. intros fuel s l ps _ _. eexists. reflexivity.
  - destruct (collect_key_complete _ _ _ _ _ _ _ B W K) as [F1 C]. exists (max F1 F2). intros fuel s l ps L ST. destruct (C fuel s l ps ltac:(lia) ST) as [s1 E].
    cbn [collect]. rewrite E. cbn [rbind]. destruct (collect_key_sound _ _ _ _ _ _ _ _ _ B W ST E) as (l1' & ps1' & seen1' & K' & ST'). destruct (space_key_unique _ _ _ _ _ _ _ _ _ _ B W K K') as (<- & <- & <-).
    apply (IH fuel s1 _ _ ltac:(lia) ST').
Qed.

Lemma space_keys_unique e defs seen keys l ps l' ps' : env_bytes e -> defs_wf defs -> space_keys e defs seen keys l ps -> space_keys e defs seen keys l' ps' -> l = l' /\ ps = ps'.
Proof.
  intros B W H. revert l' ps'. induction H as [seen|seen key keys l1 ps1 seen1 l2 ps2 K H IH]; intros l' ps' H'; inversion H'; subst; [auto|].
  match goal with K' : space_key _ _ _ _ _ _ _ |- _ => destruct (space_key_unique _ _ _ _ _ _ _ _ _ _ B W K K') as (<- & <- & <-) end.
  match goal with H2 : space_keys _ _ _ keys _ _ |- _ => destruct (IH _ _ H2) as [<- <-] end. auto.
Qed.

Lemma space_parents e defs seen keys l ps : space_keys e defs seen keys l ps -> forall p i, In (p, i) l -> In p ps.
Proof.
  intros H. induction H as [|seen key keys l1 ps1 seen1 l2 ps2 K H IH]; intros p i I; [destruct I|]. apply in_app_iff in I as [I|I]; apply in_app_iff; [left|right; eauto].
  destruct K; [destruct I|destruct I|]. destruct I as [I|[]]. injection I as <- _. left. reflexivity.
Qed.

Lemma stands_nil fuel e defs : stands fuel e defs (mkfn [] [] [] []) [] [] [].
Proof. split; [reflexivity|]. split; [constructor|]. split; [reflexivity|]. split; [reflexivity|apply kept_nil]. Qed.

(** ** Names *)

Definition has (byhash : sdict str) (p : str) : Prop := sdict_get p byhash <> None.

(** The names that are known are names of namespaces. *)
Definition fair (hash : str -> str) (common : list str) (l : list (str * inst)) (byhash : sdict str) : Prop :=
  forall p s, sdict_get p byhash = Some s -> hash s = p /\ s <> [] /\ exists k, named hash common l k s.

Lemma has_set byhash p s q : has (sdict_set p s byhash) q <-> p = q \/ has byhash q.
Proof.
  unfold has. rewrite sdict_get_set. destruct (list_eqb p q) eqn:E.
  - apply list_eqb_eq in E. split; [auto|discriminate].
  - split; [auto|]. intros [->|H]; [|exact H]. assert (list_eqb q q = true) by (apply list_eqb_eq; reflexivity). congruence.
Qed.

Lemma name_instances_ok hash parent is : forall byhash out byhash' out', name_instances hash parent is byhash out = (byhash', out', Ok tt) ->
  (exists seg, out' = out ++ seg /\ Forall2 (fun i x => exists n, name_is i n /\ x = (i, parent ++ 92 :: n)) is seg) /\
  (forall p, has byhash p -> has byhash' p) /\ (forall i n, In i is -> name_is i n -> has byhash' (hash (parent ++ 92 :: n))) /\
  (forall common l k, fair hash common l byhash -> named hash common l k parent -> (forall i, In i is -> In (hash parent, i) l) -> fair hash common l byhash').
Proof.
  induction is as [|i is IH]; intros byhash out byhash' out'; cbn [name_instances].
  - intros H. injection H as <- <-. split; [exists []; split; [symmetry; apply app_nil_r|constructor]|]. split; [auto|]. split; [intros i n []|auto].
  - destruct (sdict_get (s2z "Name") (snd i)) as [[| | |n|]|] eqn:N; try discriminate. change (join [92] [parent; n]) with (parent ++ 92 :: n).
    intros H. apply IH in H as ((seg & -> & F) & H1 & H2 & H3). split; [|split; [|split]].
    + exists ((i, parent ++ 92 :: n) :: seg). split; [rewrite <- app_assoc; reflexivity|]. constructor; [|exact F]. exists n. auto.
    + intros p X. apply H1, has_set. auto.
    + intros j m [<-|I] Nm; [|eauto]. unfold name_is in Nm. assert (m = n) as -> by congruence. apply H1, has_set. auto.
    + intros common l k Fr Nd I. apply (H3 common l k); [|exact Nd|intros j J; apply I; right; exact J].
      intros p s. rewrite sdict_get_set. destruct (list_eqb (hash (parent ++ 92 :: n)) p) eqn:E; [|apply Fr]. intros X. injection X as <-. apply list_eqb_eq in E.
      split; [exact E|]. split; [destruct parent; discriminate|]. exists (S k). eapply nm_child; [exact Nd|apply I; left; reflexivity|exact N].
Qed.

Lemma name_instances_err hash parent is : forall byhash out byhash' out' x, name_instances hash parent is byhash out = (byhash', out', Err x) ->
  x = TypeError /\ exists i, In i is /\ forall n, ~ name_is i n.
Proof.
  induction is as [|i is IH]; intros byhash out byhash' out' x; cbn [name_instances]; [discriminate|]. unfold name_is.
  destruct (sdict_get (s2z "Name") (snd i)) as [[| | |n|]|] eqn:N;
    try (intros H; injection H as _ _ <-; split; [reflexivity|]; exists i; split; [left; reflexivity|]; intros n; rewrite N; discriminate).
  intros H. apply IH in H as (-> & j & J & H). split; [reflexivity|]. exists j. split; [right; exact J|exact H].
Qed.

(** ** One pass *)

Lemma pass_ok hash common l insts ps : (forall p, kids insts p = children l p) -> forall byhash un out byhash' un' out',
  NoDup (un ++ ps) -> fair hash common l byhash -> one_pass hash insts ps byhash un out = (byhash', un', out', Ok tt) ->
  exists done rest segs, out' = out ++ concat segs /\ Forall2 (names_of l) done segs /\ un' = un ++ rest /\ Permutation ps (map fst done ++ rest) /\
    Forall (fun x => hash (snd x) = fst x /\ exists k, named hash common l k (snd x)) done /\
    (forall p, has byhash p -> has byhash' p) /\ (forall p, In p rest -> ~ has byhash p) /\ fair hash common l byhash' /\
    (forall p s i n, In (p, s) done -> In (p, i) l -> name_is i n -> has byhash' (hash (s ++ 92 :: n))).
Proof.
  intros K. induction ps as [|p ps IH]; intros byhash un out byhash' un' out' D Fr; cbn [one_pass].
  { intros H. injection H as <- <- <-. exists [], [], []. cbn. rewrite !app_nil_r. split; [reflexivity|]. split; [constructor|]. split; [reflexivity|]. split; [reflexivity|]. split; [constructor|]. split; [auto|]. split; [intros q []|]. split; [exact Fr|]. intros q s i n []. }
  assert (U : ~ has byhash p -> one_pass hash insts ps byhash (add_to list_eqb p un) out = (byhash', un', out', Ok tt) ->
    exists done rest segs, out' = out ++ concat segs /\ Forall2 (names_of l) done segs /\ un' = un ++ rest /\ Permutation (p :: ps) (map fst done ++ rest) /\
    Forall (fun x => hash (snd x) = fst x /\ exists k, named hash common l k (snd x)) done /\
    (forall p, has byhash p -> has byhash' p) /\ (forall p, In p rest -> ~ has byhash p) /\ fair hash common l byhash' /\
    (forall p s i n, In (p, s) done -> In (p, i) l -> name_is i n -> has byhash' (hash (s ++ 92 :: n)))).
  { intros N H. assert (E : add_to list_eqb p un = un ++ [p]).
    { unfold add_to. destruct (existsb (list_eqb p) un) eqn:X; [|reflexivity]. apply list_eqb_in in X. apply NoDup_remove_2 in D. exfalso. apply D, in_app_iff. auto. }
    rewrite E in H. apply IH in H as (done & rest & segs & -> & F & -> & P & Q & H1 & H2 & H3 & H4); [|rewrite <- app_assoc; exact D|exact Fr].
    exists done, (p :: rest), segs. split; [reflexivity|]. split; [exact F|]. split; [rewrite <- app_assoc; reflexivity|]. split; [rewrite P; apply Permutation_middle|].
    split; [exact Q|]. split; [exact H1|]. split; [intros q [<-|I]; auto|]. split; assumption. }
  destruct (sdict_get p byhash) as [[|c parent]|] eqn:G; [apply Fr in G as (_ & G & _); congruence| |apply U; unfold has; congruence]. clear U.
  destruct (Fr _ _ G) as (Hh & _ & k & Nd). fold (kids insts p). rewrite K.
  destruct (name_instances hash (c :: parent) (children l p) byhash out) as [[b o] [[]|x]] eqn:NI; [|discriminate].
  apply name_instances_ok in NI as ((seg & -> & F) & M1 & M2 & M3). intros H.
  assert (Fr' : fair hash common l b) by (apply (M3 common l k Fr Nd); intros i I; rewrite Hh; apply in_children; exact I).
  apply IH in H as (done & rest & segs & -> & F' & -> & P & Q & H1 & H2 & H3 & H4); [|apply NoDup_remove_1 in D; exact D|exact Fr'].
  exists ((p, c :: parent) :: done), rest, (seg :: segs). cbn [concat map fst app]. split; [rewrite app_assoc; reflexivity|]. split; [constructor; [exact F|exact F']|]. split; [reflexivity|].
  split; [rewrite P; reflexivity|]. split; [constructor; [|exact Q]; cbn; eauto|]. split; [auto|]. split; [intros q I X; apply (H2 q I), M1; exact X|]. split; [exact H3|].
  intros q s i n [I|I] J Nm; [|eauto]. injection I as <- <-. apply H1. eapply M2; [apply in_children; exact J|exact Nm].
Qed.

Lemma pass_err hash common l insts ps : (forall p, kids insts p = children l p) -> forall byhash un out byhash' un' out' x,
  fair hash common l byhash -> one_pass hash insts ps byhash un out = (byhash', un', out', Err x) ->
  x = TypeError /\ exists p i k, In (p, i) l /\ found hash common l k p /\ forall n, ~ name_is i n.
Proof.
  intros K. induction ps as [|p ps IH]; intros byhash un out byhash' un' out' x Fr; cbn [one_pass]; [discriminate|].
  destruct (sdict_get p byhash) as [[|c parent]|] eqn:G; [apply IH; exact Fr| |apply IH; exact Fr]. destruct (Fr _ _ G) as (Hh & _ & k & Nd). fold (kids insts p). rewrite K.
  destruct (name_instances hash (c :: parent) (children l p) byhash out) as [[b o] [[]|y]] eqn:NI.
  - apply name_instances_ok in NI as (_ & _ & _ & M3). apply IH. apply (M3 common l k Fr Nd). intros i I. rewrite Hh. apply in_children. exact I.
  - apply name_instances_err in NI as (-> & i & I & N). intros H. injection H as _ _ _ <-. split; [reflexivity|]. exists p, i, k. split; [apply in_children; exact I|]. split; [|exact N]. exists (c :: parent). auto.
Qed.

(** ** All passes *)

Lemma passes_ok hash common l insts order : (forall p, kids insts p = children l p) -> (forall n x, Permutation (order n x) x) -> forall n ps byhash out out',
  NoDup ps -> fair hash common l byhash -> passes n hash order insts ps byhash out = (out', Ok tt) ->
  exists done rest segs, out' = out ++ concat segs /\ Forall2 (names_of l) done segs /\ Permutation ps (map fst done ++ rest) /\
    Forall (fun x => hash (snd x) = fst x /\ exists k, named hash common l k (snd x)) done /\
    (no_clash hash common l -> forall j, (forall m p, (m <= j)%nat -> found hash common l m p -> has byhash p) ->
      (forall p i, In (p, i) l -> ~ In p ps -> forall k s m, named hash common l k s -> hash s = p -> name_is i m -> has byhash (hash (s ++ 92 :: m))) ->
      forall p m, In p rest -> (m < j + n)%nat -> n <> O -> ~ found hash common l m p).
Proof.
  intros K O. induction n as [|n IH]; intros ps byhash out out' D Fr; cbn [passes].
  { intros H. injection H as <-. exists [], ps, []. cbn. rewrite app_nil_r. repeat split; auto. }
  destruct (one_pass hash insts (order n ps) byhash [] out) as [[[b un] o] [[]|x]] eqn:P1; [|discriminate].
  apply (pass_ok hash common l) in P1 as (d1 & r1 & s1 & -> & F1 & E & P & Q & H1 & H2 & H3 & H4);
    [|exact K|apply (Permutation_NoDup (Permutation_sym (O n ps))); exact D|exact Fr]. cbn [app] in E. subst un. rewrite (O n ps) in P.
  assert (D2 : NoDup (map fst d1 ++ r1)) by (apply (Permutation_NoDup P); exact D).
  assert (Dr : NoDup r1) by (clear - D2; induction (map fst d1) as [|y z IHz]; [exact D2|inversion D2; auto]).
  intros H. destruct (IH _ _ _ _ Dr H3 H) as (d2 & r2 & s2 & -> & F2 & P2 & Q2 & H5). exists (d1 ++ d2), r2, (s1 ++ s2).
  split; [rewrite concat_app, app_assoc; reflexivity|]. split; [apply Forall2_app; assumption|]. split; [rewrite P, P2, map_app, app_assoc; reflexivity|]. split; [apply Forall_app; auto|].
  intros NC j J1 J2 p m I L _. destruct n as [|n].
  - assert (In p r1) by (apply (Permutation_in p (Permutation_sym P2)), in_app_iff; auto). intros X. apply (H2 p); [assumption|]. apply (J1 m p); [lia|exact X].
  - apply (H5 NC (S j)); [| |exact I|lia|discriminate].
    + intros m' q L' X. destruct (le_lt_dec m' j) as [L2|L2]; [apply H1; eapply J1; eassumption|]. assert (m' = S j) as -> by lia.
      destruct X as (s & Nd & <-). inversion Nd as [|k s' i nm Nd' I' Nm]; subst. assert (X : has byhash (hash s')) by (apply (J1 j); [lia|exists s'; auto]).
      destruct (in_dec (list_eq_dec Z.eq_dec) (hash s') ps) as [Y|Y]; [|apply H1; eapply J2; eauto].
      apply (Permutation_in _ P), in_app_iff in Y as [Y|Y]; [|exfalso; exact (H2 _ Y X)]. apply in_map_iff in Y as ([q t] & E & Y). cbn in E. subst q.
      rewrite Forall_forall in Q. destruct (Q _ Y) as [E (k2 & Nt)]. cbn [fst snd] in E, Nt. rewrite (NC _ _ s' t nm Nd' Nt) by congruence. eapply H4; eassumption.
    + intros q i I' N k s m' Nd E Nm. destruct (in_dec (list_eq_dec Z.eq_dec) q ps) as [Y|Y]; [|apply H1; eapply J2; eauto].
      apply (Permutation_in _ P), in_app_iff in Y as [Y|Y]; [|contradiction]. apply in_map_iff in Y as ([q' t] & E' & Y). cbn in E'. subst q'.
      rewrite Forall_forall in Q. destruct (Q _ Y) as [E' (k2 & Nt)]. cbn [fst snd] in E', Nt. rewrite (NC _ _ s t m' Nd Nt) by congruence. eapply H4; eassumption.
Qed.

Lemma passes_err hash common l insts order : (forall p, kids insts p = children l p) -> (forall n x, Permutation (order n x) x) -> forall n ps byhash out out' x,
  NoDup ps -> fair hash common l byhash -> passes n hash order insts ps byhash out = (out', Err x) ->
  x = TypeError /\ exists p i k, In (p, i) l /\ found hash common l k p /\ forall n, ~ name_is i n.
Proof.
  intros K O. induction n as [|n IH]; intros ps byhash out out' x D Fr; cbn [passes]; [discriminate|].
  destruct (one_pass hash insts (order n ps) byhash [] out) as [[[b un] o] [[]|y]] eqn:P1.
  - apply (pass_ok hash common l) in P1 as (d1 & r1 & s1 & -> & F1 & E & P & Q & H1 & H2 & H3 & H4);
      [|exact K|apply (Permutation_NoDup (Permutation_sym (O n ps))); exact D|exact Fr]. cbn [app] in E. subst un. rewrite (O n ps) in P.
    assert (D2 : NoDup (map fst d1 ++ r1)) by (apply (Permutation_NoDup P); exact D).
    apply IH; [|exact H3]. clear - D2. induction (map fst d1) as [|y z IHz]; [exact D2|inversion D2; auto].
  - intros H. injection H as _ <-. eapply pass_err; eassumption.
Qed.

Lemma known_fair hash common l c t : (forall s, In s c -> In s common /\ s <> []) -> fair hash common l t -> fair hash common l (known hash c t).
Proof.
  revert t. induction c as [|s c IH]; intros t H Fr; [exact Fr|]. cbn [known]. apply IH; [intros; apply H; right; assumption|].
  intros p u. rewrite sdict_get_set. destruct (list_eqb (hash s) p) eqn:E; [|apply Fr]. intros X. injection X as <-. apply list_eqb_eq in E. destruct (H s (or_introl eq_refl)) as [I N].
  split; [exact E|]. split; [exact N|]. exists O. apply nm_common. exact I.
Qed.

Lemma known_keeps hash c : forall t p, has t p -> has (known hash c t) p.
Proof. induction c as [|s c IH]; intros t p H; [exact H|]. apply IH, has_set. auto. Qed.

Lemma known_has hash c : forall t s, In s c -> has (known hash c t) (hash s).
Proof. induction c as [|s c IH]; intros t u []; cbn [known]; [subst; apply known_keeps, has_set; auto|auto]. Qed.

Lemma fair_start hash common l : ~ In [] common -> fair hash common l (known hash common []).
Proof. intros N. apply known_fair; [intros s I; split; [exact I|intros ->; contradiction]|]. intros p s H. discriminate. Qed.

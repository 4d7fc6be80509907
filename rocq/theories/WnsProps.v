(** C104: the namespaces of the object records of a WMI repository. *)

From Coq Require Import String Permutation.
From Verif Require Import Base BaseFacts SeqSpec CoreModel StrModel DictModel RdModel TvModel WmiModel WcdModel WcdSpec WcdProofs WcmModel WcmSpec WciModel WciSpec WciProofs WchModel WchProofs
  WrpModel WrpSpec WrpProofs WrpProps WnsSpec WnsProofs.
Local Open Scope list_scope.
Local Open Scope Z_scope.

Lemma nodup_left {A} (a b : list A) : NoDup (a ++ b) -> NoDup a.
Proof. induction a as [|x a IH]; intros H; [constructor|]. inversion H as [|? ? N D]; subst. constructor; [intros I; apply N, in_app_iff; auto|auto]. Qed.

(** The namespaces that are yielded are the instances of __NAMESPACE the keys lead to, each record once, with
    names made of the names of the namespaces they are in. *)
Theorem C104_namespaces : forall fuel e order common defs keys kend out, env_bytes e -> defs_wf defs -> (forall n x, Permutation (order n x) x) -> ~ In [] common ->
  object_namespaces fuel e order common defs keys kend = Some (out, Ok tt) ->
  kend = Ok tt /\ exists l ps done, space_keys e defs [] keys l ps /\ resolution (re_hash e) common l ps done out /\
    (no_clash (re_hash e) common l -> forall p k, In p ps -> found (re_hash e) common l k p -> (k <= 4)%nat -> In p (map fst done)).
Proof.
  intros fuel e order common defs keys kend out B W O N. unfold object_namespaces. destruct (collect fuel e defs keys kend (mkfn [] [] [] [])) as [[s|]|] eqn:C; try discriminate.
  destruct (collect_sound _ _ _ _ _ B W _ _ _ _ _ (stands_nil fuel e defs) C) as (E & l & ps & seen & H & (K & D & P & _)). cbn [app] in K, P. intros R. split; [exact E|].
  injection R as R. unfold resolve_all in R. apply (passes_ok (re_hash e) common l) in R as (done & rest & segs & -> & F & Pm & Q & L); [|exact K|exact O|exact D|apply fair_start; exact N].
  exists l, ps, done. split; [exact H|]. assert (D2 : NoDup (map fst done ++ rest)) by (apply (Permutation_NoDup Pm); exact D). split.
  - split; [apply nodup_left in D2; exact D2|]. split; [|exists segs; auto]. intros p u I. rewrite Forall_forall in Q. destruct (Q _ I) as [Q1 Q2]. cbn in Q1, Q2. split; [|auto].
    apply P, (Permutation_in p (Permutation_sym Pm)), in_app_iff. left. apply in_map_iff. exists (p, u). auto.
  - intros NC p k I Fo L4. apply P, (Permutation_in p Pm), in_app_iff in I as [I|I]; [exact I|]. exfalso. revert Fo. apply (L NC 0%nat); [| |exact I|lia|discriminate].
    + intros m q L0 (u & Nd & <-). assert (m = 0%nat) as -> by lia. inversion Nd; subst. apply known_has. assumption.
    + intros q i I' X. exfalso. apply X, P. eapply space_parents; eassumption.
Qed.
Print Assumptions C104_namespaces.

(** What the keys lead to is determined by the keys and the records. *)
Theorem C104_unique : forall e defs seen keys l ps l' ps', env_bytes e -> defs_wf defs -> space_keys e defs seen keys l ps -> space_keys e defs seen keys l' ps' -> l = l' /\ ps = ps'.
Proof. exact space_keys_unique. Qed.
Print Assumptions C104_unique.

(** If the keys can be followed, the namespaces are read; the only failure is a namespace without a name. *)
Theorem C104_reads : forall e order common defs keys l ps, env_bytes e -> defs_wf defs -> (forall n x, Permutation (order n x) x) -> ~ In [] common ->
  space_keys e defs [] keys l ps ->
  exists fuel out r, object_namespaces fuel e order common defs keys (Ok tt) = Some (out, r) /\
    (r = Ok tt \/ r = Err TypeError /\ exists p i k, In (p, i) l /\ found (re_hash e) common l k p /\ forall n, ~ name_is i n).
Proof.
  intros e order common defs keys l ps B W O N H. destruct (collect_complete _ _ _ _ _ _ B W H) as [F C]. destruct (C F _ [] [] (le_n _) (stands_nil F e defs)) as [s E].
  destruct (collect_sound _ _ _ _ _ B W _ _ _ _ _ (stands_nil F e defs) E) as (_ & l' & ps' & seen & H' & (K & D & P & _)). cbn [app] in K, P.
  destruct (space_keys_unique _ _ _ _ _ _ _ _ B W H H') as [<- <-].
  unfold object_namespaces. exists F. rewrite E. destruct (resolve_all (re_hash e) order common (fn_insts s) (fn_parents s)) as [out r] eqn:R. exists out, r. split; [reflexivity|].
  destruct r as [[]|x]; [auto|]. right. unfold resolve_all in R. apply (passes_err (re_hash e) common l) in R as (-> & R); [auto|exact K|exact O|exact D|apply fair_start; exact N].
Qed.
Print Assumptions C104_reads.

(** The order in which the elements of a set come makes no difference, up to the order of the namespaces and
    the names that are the same to the hash, if no namespace is more than 4 steps below a common one. *)
Lemma names_hashes hash l p s t seg seg' : hash s = p -> hash t = p -> (forall n, hash (s ++ 92 :: n) = hash (t ++ 92 :: n)) -> names_of l (p, s) seg -> names_of l (p, t) seg' ->
  map (fun x => (fst x, hash (snd x))) seg = map (fun x => (fst x, hash (snd x))) seg'.
Proof.
  intros Hs Ht Q. unfold names_of. cbn [fst snd]. intros F. revert seg'. induction F as [|i x c seg (n & Nm & ->) F IH]; intros seg' F'; inversion F' as [|? y ? seg2 (m & Nm' & ->) F2]; subst; [reflexivity|].
  cbn [map fst snd]. unfold name_is in *. assert (m = n) as -> by congruence. rewrite Q. f_equal. auto.
Qed.

Lemma pick {A B} (R : A -> B -> Prop) (l : list A) segs a : Forall2 R l segs -> In a l ->
  exists l1 l2 s1 s2 b, l = l1 ++ a :: l2 /\ segs = s1 ++ b :: s2 /\ R a b /\ Forall2 R (l1 ++ l2) (s1 ++ s2).
Proof.
  induction 1 as [|x b l segs H F IH]; intros I; [destruct I|]. destruct I as [->|I].
  - exists [], l, [], segs, b. auto.
  - destruct (IH I) as (l1 & l2 & s1 & s2 & c & -> & -> & Hc & F'). exists (x :: l1), l2, (b :: s1), s2, c. repeat split; auto. cbn. constructor; assumption.
Qed.

Lemma same_names hash common l done : no_clash hash common l -> forall done' segs segs',
  Forall (fun x => hash (snd x) = fst x /\ exists k, named hash common l k (snd x)) done -> Forall (fun x => hash (snd x) = fst x /\ exists k, named hash common l k (snd x)) done' ->
  Permutation (map fst done) (map fst done') -> Forall2 (names_of l) done segs -> Forall2 (names_of l) done' segs' ->
  Permutation (map (fun x => (fst x, hash (snd x))) (concat segs)) (map (fun x => (fst x, hash (snd x))) (concat segs')).
Proof.
  intros NC. induction done as [|[p s] done IH]; intros done' segs segs' Q Q' P F F'.
  - cbn [map] in P. apply Permutation_nil in P. destruct done'; [|discriminate]. inversion F; inversion F'; subst. reflexivity.
  - inversion F as [|? seg ? segs1 F1 F2]; subst. inversion Q as [|? ? [Q1 (k & Q2)] Q3]; subst. cbn [fst snd] in Q1, Q2.
    assert (I : In p (map fst done')) by (apply (Permutation_in p P); left; reflexivity). apply in_map_iff in I as ([p' t] & E & I). cbn in E. subst p'.
    rewrite Forall_forall in Q'. destruct (Q' _ I) as [Q4 (k' & Q5)]. cbn [fst snd] in Q4, Q5.
    destruct (pick _ _ _ _ F' I) as (l1 & l2 & s1 & s2 & b & -> & -> & Fb & F'').
    cbn [concat]. rewrite map_app, concat_app. cbn [concat]. rewrite !map_app.
    assert (X : map (fun x => (fst x, hash (snd x))) seg = map (fun x => (fst x, hash (snd x))) b) by (eapply (names_hashes hash l p s t); eauto; intros n; eapply NC; [exact Q2|exact Q5|congruence]).
    rewrite X. rewrite Permutation_app_swap_app. apply Permutation_app_head. rewrite <- map_app, <- concat_app. apply (IH (l1 ++ l2)); [exact Q3| | |exact F2|exact F''].
    + apply Forall_forall. intros x J. apply Q'. apply in_app_iff in J. apply in_app_iff. cbn. destruct J; auto.
    + rewrite map_app in *. cbn [map fst] in P. apply Permutation_cons_app_inv in P. exact P.
Qed.

Theorem C104_order : forall f f' e order order' common defs keys kend out out' l ps, env_bytes e -> defs_wf defs ->
  (forall n x, Permutation (order n x) x) -> (forall n x, Permutation (order' n x) x) -> ~ In [] common ->
  object_namespaces f e order common defs keys kend = Some (out, Ok tt) -> object_namespaces f' e order' common defs keys kend = Some (out', Ok tt) ->
  space_keys e defs [] keys l ps -> no_clash (re_hash e) common l ->
  (forall p k, In p ps -> found (re_hash e) common l k p -> exists j, (j <= 4)%nat /\ found (re_hash e) common l j p) ->
  Permutation (map (fun x => (fst x, re_hash e (snd x))) out) (map (fun x => (fst x, re_hash e (snd x))) out').
Proof.
  intros f f' e order order' common defs keys kend out out' l ps B W O O' N H H' K NC Dp.
  apply C104_namespaces in H as (_ & l1 & ps1 & d1 & K1 & (N1 & R1 & segs1 & F1 & ->) & L1); [|assumption..].
  apply C104_namespaces in H' as (_ & l2 & ps2 & d2 & K2 & (N2 & R2 & segs2 & F2 & ->) & L2); [|assumption..].
  destruct (space_keys_unique _ _ _ _ _ _ _ _ B W K K1) as [<- <-]. destruct (space_keys_unique _ _ _ _ _ _ _ _ B W K K2) as [<- <-].
  assert (G : forall d d' : list (str * str), (forall p s, In (p, s) d -> In p ps /\ re_hash e s = p /\ exists k, named (re_hash e) common l k s) ->
    (no_clash (re_hash e) common l -> forall p k, In p ps -> found (re_hash e) common l k p -> (k <= 4)%nat -> In p (map fst d')) -> forall p, In p (map fst d) -> In p (map fst d')).
  { intros d d' R L p I. apply in_map_iff in I as ([q s] & E & I). cbn in E. subst q. destruct (R _ _ I) as (Ip & Hs & k & Nd). destruct (Dp p k Ip) as (j & Lj & Fj); [exists s; auto|]. eapply L; eauto. }
  eapply (same_names (re_hash e) common l d1 NC d2); [| | |exact F1|exact F2].
  - apply Forall_forall. intros [p s] I. apply R1 in I. tauto.
  - apply Forall_forall. intros [p s] I. apply R2 in I. tauto.
  - apply NoDup_Permutation; [exact N1|exact N2|]. intros p. split; [apply (G d1 d2 R1 L2)|apply (G d2 d1 R2 L1)].
Qed.
Print Assumptions C104_order.

(** Names do not clash if the hash of the names in upper case has no collision. *)
Theorem C104_hash : forall (digest upper : str -> str) common l, (forall a b, upper (a ++ b) = upper a ++ upper b) ->
  (forall j k s t, named (fun s => digest (upper s)) common l j s -> named (fun s => digest (upper s)) common l k t -> digest (upper s) = digest (upper t) -> upper s = upper t) ->
  no_clash (fun s => digest (upper s)) common l.
Proof. intros digest upper common l U D j k s t n Hs Ht E. cbn beta in *. rewrite !U. f_equal. f_equal. eapply D; eassumption. Qed.
Print Assumptions C104_hash.

(** The namespaces are read once: they are kept for the next time. *)
Theorem C104_again : forall fuel e order common defs keys kend out st, get_namespaces fuel e order common defs keys kend [] = Some (out, Ok tt, st) ->
  object_namespaces fuel e order common defs keys kend = Some (out, Ok tt) /\ st = out /\
  (out <> [] -> forall f o k r, get_namespaces f e o common defs k r st = Some (out, Ok tt, out)).
Proof.
  intros fuel e order common defs keys kend out st. unfold get_namespaces. destruct (object_namespaces fuel e order common defs keys kend) as [[l [[]|x]]|]; try discriminate.
  intros H. injection H as <- <-. split; [reflexivity|]. split; [reflexivity|]. intros N f o k r. destruct l; [congruence|reflexivity].
Qed.
Print Assumptions C104_again.

(** ** A repository with namespaces *)

Definition ex_space (ns : string) (id : Z) (d : bytes) : str :=
  s2z "\NS_" ++ ex_hash (s2z ns) ++ s2z "\CI_" ++ ex_hash (s2z "__NAMESPACE") ++ s2z "\IL_7.0." ++ ex_digit id ++ [46] ++ ex_digit (len d).

Definition ex_classes : list bytes := [ex_class "" ex_bar; ex_class "Bar" (ex_foo "Name")].
Definition ex_class_keys : list str := [ex_key "ROOT" "CD" (ex_hash (s2z "bar")) 1 (ex_class "" ex_bar); ex_key "ROOT" "CD" (ex_hash (s2z "foo")) 2 (ex_class "Bar" (ex_foo "Name"))].

Fixpoint ex_space_keys (id : Z) (l : list (string * bytes)) : list str := match l with [] => [] | (ns, d) :: l => ex_space ns id d :: ex_space_keys (id + 1) l end.

Definition ex_content (l : list (string * bytes)) : bytes := ex_page (ex_classes ++ map snd l).
Definition ex_all_keys (l : list (string * bytes)) : list str := ex_class_keys ++ ex_space_keys 3 l.
Definition ex_ns (order : nat -> list str -> list str) (l : list (string * bytes)) : gen (inst * str) unit :=
  object_namespaces 3 (ex_env (ex_content l)) order [s2z "ROOT"; s2z "ROOT\CIMV2"] (ex_defs (ex_content l) (ex_all_keys l)) (ex_all_keys l) (Ok tt).

Definition ex_id (n : nat) (l : list str) : list str := l.
(** The last one first, in the first pass; the rest stays in that order. *)
Definition ex_rev (n : nat) (l : list str) : list str := if Nat.eqb n 4 then rev l else l.

Lemma ex_id_order n x : Permutation (ex_id n x) x.
Proof. reflexivity. Qed.

Lemma ex_rev_order n x : Permutation (ex_rev n x) x.
Proof. unfold ex_rev. destruct (Nat.eqb n 4); [apply Permutation_sym, Permutation_rev|reflexivity]. Qed.

Definition ex_two : list (string * bytes) := [("ROOT"%string, ex_inst "a"); ("ROOT\a"%string, ex_inst "b"); ("ROOT"%string, ex_inst "c")].

Example C104_case :
  ex_ns ex_rev ex_two = Some ([(ex_yield "Name" "a", s2z "ROOT\a"); (ex_yield "Name" "c", s2z "ROOT\c"); (ex_yield "Name" "b", s2z "ROOT\a\b")], Ok tt) /\
  is_bytes (ex_content ex_two) /\
  exists l ps done, space_keys (ex_env (ex_content ex_two)) (ex_defs (ex_content ex_two) (ex_all_keys ex_two)) [] (ex_all_keys ex_two) l ps /\
    resolution ex_hash [s2z "ROOT"; s2z "ROOT\CIMV2"] l ps done [(ex_yield "Name" "a", s2z "ROOT\a"); (ex_yield "Name" "c", s2z "ROOT\c"); (ex_yield "Name" "b", s2z "ROOT\a\b")].
Proof.
  assert (E : ex_ns ex_rev ex_two = Some ([(ex_yield "Name" "a", s2z "ROOT\a"); (ex_yield "Name" "c", s2z "ROOT\c"); (ex_yield "Name" "b", s2z "ROOT\a\b")], Ok tt)) by (vm_compute; reflexivity).
  assert (B : is_bytes (ex_content ex_two)) by (apply is_bytes_forallb; vm_compute; reflexivity).
  assert (W : defs_wf (ex_defs (ex_content ex_two) (ex_all_keys ex_two))).
  { assert (C : class_defs (ex_env (ex_content ex_two)) (ex_all_keys ex_two) (Ok tt) [] = Done (Ok (ex_defs (ex_content ex_two) (ex_all_keys ex_two)))) by (vm_compute; reflexivity).
    apply C103_classes in C as (_ & cl & C & A); [|apply ex_env_bytes; exact B]. eapply class_keys_wf; eassumption. }
  split; [exact E|]. split; [exact B|]. apply C104_namespaces in E as (_ & l & ps & done & K & R & _); [|apply ex_env_bytes; exact B|exact W|exact ex_rev_order|intros [X|[X|[]]]; discriminate].
  exists l, ps, done. auto.
Qed.

(** ** Findings *)

(** Which namespaces are yielded depends on the order of the elements of a set, which is another one in every
    run: a namespace 6 steps below a common one may be missing. *)
Definition ex_deep : list (string * bytes) :=
  [("ROOT"%string, ex_inst "a"); ("ROOT\a"%string, ex_inst "b"); ("ROOT\a\b"%string, ex_inst "c"); ("ROOT\a\b\c"%string, ex_inst "d"); ("ROOT\a\b\c\d"%string, ex_inst "e"); ("ROOT\a\b\c\d\e"%string, ex_inst "f")].

Definition ex_names (g : gen (inst * str) unit) : option (list str * result unit) := match g with Some (l, r) => Some (map snd l, r) | None => None end.

Theorem C104_depth_refuted :
  ex_names (ex_ns ex_id ex_deep) = Some ([s2z "ROOT\a"; s2z "ROOT\a\b"; s2z "ROOT\a\b\c"; s2z "ROOT\a\b\c\d"; s2z "ROOT\a\b\c\d\e"; s2z "ROOT\a\b\c\d\e\f"], Ok tt) /\
  ex_names (ex_ns ex_rev ex_deep) = Some ([s2z "ROOT\a"; s2z "ROOT\a\b"; s2z "ROOT\a\b\c"; s2z "ROOT\a\b\c\d"; s2z "ROOT\a\b\c\d\e"], Ok tt).
Proof. vm_compute. split; reflexivity. Qed.
Print Assumptions C104_depth_refuted.

(** So does the letter case of the names. *)
Theorem C104_case_refuted :
  ex_names (ex_ns ex_id [("ROOT"%string, ex_inst "cimv2"); ("ROOT\cimv2"%string, ex_inst "x")]) = Some ([s2z "ROOT\cimv2"; s2z "ROOT\cimv2\x"], Ok tt) /\
  ex_names (ex_ns ex_rev [("ROOT"%string, ex_inst "cimv2"); ("ROOT\cimv2"%string, ex_inst "x")]) = Some ([s2z "ROOT\CIMV2\x"; s2z "ROOT\cimv2"], Ok tt).
Proof. vm_compute. split; reflexivity. Qed.
Print Assumptions C104_case_refuted.

(** A namespace in a namespace that is not found is not yielded, without an error. *)
Theorem C104_orphan_refuted : ex_names (ex_ns ex_id [("ROOT"%string, ex_inst "a"); ("ROOT\other"%string, ex_inst "x")]) = Some ([s2z "ROOT\a"], Ok tt).
Proof. vm_compute. reflexivity. Qed.
Print Assumptions C104_orphan_refuted.

(** A namespace without a name is a TypeError; the next call yields the namespaces before it as if they were
    all. *)
Definition ex_unnamed : bytes :=
  let d := le_enc 4 0 ++ [0] ++ [0] ++ le_enc 4 0 ++ le_enc 4 4 ++ [1] ++ le_enc 4 0 ++ ex_cim "Foo" in
  flat_map (fun c => [c; 0]) (ex_hash (s2z "Foo")) ++ le_enc 8 1 ++ le_enc 8 2 ++ le_enc 4 (len d + 4) ++ d.
Definition ex_failing : list (string * bytes) := [("ROOT"%string, ex_inst "a"); ("ROOT"%string, ex_unnamed); ("ROOT"%string, ex_inst "b")].
Definition ex_get (st : list (inst * str)) : option (list (inst * str) * result unit * list (inst * str)) :=
  get_namespaces 3 (ex_env (ex_content ex_failing)) ex_id [s2z "ROOT"] (ex_defs (ex_content ex_failing) (ex_all_keys ex_failing)) (ex_all_keys ex_failing) (Ok tt) st.

Theorem C104_partial_refuted :
  ex_get [] = Some ([], Err TypeError, [(ex_yield "Name" "a", s2z "ROOT\a")]) /\
  ex_get [(ex_yield "Name" "a", s2z "ROOT\a")] = Some ([(ex_yield "Name" "a", s2z "ROOT\a")], Ok tt, [(ex_yield "Name" "a", s2z "ROOT\a")]).
Proof. vm_compute. split; reflexivity. Qed.
Print Assumptions C104_partial_refuted.

(** A key without a second segment is an IndexError, though keys of another spelling are skipped elsewhere. *)
Theorem C104_short_refuted : forall fuel e order common defs keys kend key, ~ In 92 key -> object_namespaces fuel e order common defs (key :: keys) kend = Some ([], Err IndexError).
Proof. intros fuel e order common defs keys kend key N. unfold object_namespaces. cbn [collect]. unfold collect_key. rewrite StrFacts.split_on_no by exact N. reflexivity. Qed.
Print Assumptions C104_short_refuted.

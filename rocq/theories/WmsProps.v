(** Properties of the output of the WMI repository script. *)

From Coq Require Import Permutation Sorted.
From Verif Require Import Base BaseFacts StrModel DictModel TvModel WcmModel WciModel WchModel LdsModel KcsModel KcsProofs WmsModel WmsSpec WmsProofs.
From Coq Require String.
Import String.StringSyntax.

(** *** C118: Instances and namespaces shown by the WMI repository script *)

(** Of an instance ten values and all of its properties are shown, sorted by name, with all colons below each other. *)
Theorem C118_instance strs ns (i : inst) text : NoDup (map fst (snd i)) -> print_instance strs (Some ns) i = (text, Ok tt) -> ns <> [] ->
  exists path pairs, path_of i path /\ pairs_of strs ns i path pairs /\ shown_pairs pairs text.
Proof.
  intros D H N. apply instance_ok in H as (path & R & S). exists path, (instance_pairs strs (Some ns) i path). split; [apply relpath_ok; assumption|].
  split; [|exact S]. pose proof (pairs_ok strs (Some ns) i path) as P. destruct ns; [congruence|exact P].
Qed.
Print Assumptions C118_instance.

(** An instance cannot be shown exactly if the property Name is true, a number other than 0 or a list of strings; nothing of it is
    shown then. *)
Theorem C118_errors strs ns (i : inst) text e : NoDup (map fst (snd i)) -> print_instance strs ns i = (text, Err e) <->
  text = [] /\ exists v, In (s2z "Name", v) (snd i) /\
    (e = ValueError /\ (v = VBool true \/ exists z, z <> 0 /\ v = VNum z) \/ e = TypeError /\ exists s l, v = VStrs (s :: l)).
Proof. intros D. rewrite instance_err, (relpath_err i e D). reflexivity. Qed.
Print Assumptions C118_errors.

(** Two instances of plain names and values are shown alike only if they have the same class, path, property names and texts of the
    values. *)
Theorem C118_lossless strs (i i' : inst) text : NoDup (map fst (snd i)) -> NoDup (map fst (snd i')) -> plain_instance strs i -> plain_instance strs i' ->
  print_instance strs None i = (text, Ok tt) -> print_instance strs None i' = (text, Ok tt) ->
  cm_name (fst i) = cm_name (fst i') /\
  (exists path, path_of i path /\ path_of i' path) /\
  forall name t, (exists v, In (name, v) (snd i) /\ shows strs v t) <-> (exists v, In (name, v) (snd i') /\ shows strs v t).
Proof.
  intros D D' P P' H H'. assert (N : ~ In 10 (ns_text None)) by (cbn; intuition discriminate).
  destruct (lossless strs None None i i' text P P' N N H H') as (C & _ & R & F). destruct (lossless strs None None i' i text P' P N N H' H) as (_ & _ & _ & F').
  split; [exact C|]. split.
  - apply instance_ok in H as (path & E & _). exists path. split; apply relpath_ok; [assumption|assumption|assumption|]. rewrite <- R. exact E.
  - intros name t. split; intros (v & I & S); [exact (F name v t I S)|exact (F' name v t I S)].
Qed.
Print Assumptions C118_lossless.

(** All instances are shown, in the order in which they are read, up to the first that cannot be shown or read. *)
Theorem C118_instances strs (l : list inst) texts r : Forall2 (fun i t => print_instance strs None i = (t, Ok tt)) l texts ->
  instances_mode strs (Some (map Some l, r)) = Some (concat texts, r) /\
  forall i rest e, print_instance strs None i = ([], Err e) -> instances_mode strs (Some (map Some l ++ Some i :: rest, r)) = Some (concat texts, Err e).
Proof.
  intros F.
  assert (G : Forall2 (fun i t => (match i with Some i => print_instance strs None i | None => ([], Err AttributeError) end) = (t, Ok tt)) (map Some l) texts).
  { induction F; cbn [map]; constructor; assumption. }
  split.
  - unfold instances_mode, print_gen. rewrite (proj2 (print_all_ok _ (map Some l) (concat texts))); [|exists texts; split; [exact G|reflexivity]].
    cbn [then_print fst snd]. rewrite app_nil_r. reflexivity.
  - intros i rest e E. unfold instances_mode, print_gen. rewrite (print_all_stop _ _ _ (Some i) rest e [] G E). cbn [then_print]. rewrite app_nil_r. reflexivity.
Qed.
Print Assumptions C118_instances.

(** All namespaces are shown, sorted, one on each line; if one cannot be read none is shown. *)
Theorem C118_namespaces (l : list (inst * str)) :
  (exists names, Permutation names (map snd l) /\ StronglySorted before names /\
    namespaces_mode (Some (l, Ok tt)) = Some (concat (map (fun n => n ++ [10]) names), Ok tt)) /\
  forall e, namespaces_mode (Some (l, Err e)) = Some ([], Err e).
Proof.
  split; [|reflexivity]. exists (map snd (sorted_by snd l)). split; [apply Permutation_map, sorted_by_perm|]. split; [apply sorted_by_sorted|].
  unfold namespaces_mode. f_equal. apply print_all_ok. exists (map (fun n : str => n ++ [10]) (map snd (sorted_by snd l))). split; [|reflexivity].
  induction (sorted_by snd l) as [|p m IH]; cbn [map]; [constructor|]. constructor; [reflexivity|exact IH].
Qed.
Print Assumptions C118_namespaces.

(** All keys of the index are shown, in the order in which they are read, one on each line, up to an error. *)
Theorem C118_index (keys : list str) r : index_mode (Some (keys, r)) = Some (concat (map (fun k => k ++ [10]) keys), r).
Proof.
  unfold index_mode, print_gen. rewrite (proj2 (print_all_ok _ keys (concat (map (fun k => k ++ [10]) keys)))).
  - cbn [then_print fst snd]. rewrite app_nil_r. reflexivity.
  - exists (map (fun k => k ++ [10]) keys). split; [|reflexivity]. induction keys as [|k keys IH]; cbn [map]; [constructor|]. constructor; [reflexivity|exact IH].
Qed.
Print Assumptions C118_index.

(** C118, finding: all instances are shown as those of the namespace ROOT, also those of which GetNamespaces says otherwise. *)
Theorem C118_root_refuted strs (i : inst) text : NoDup (map fst (snd i)) -> instances_mode strs (Some ([Some i], Ok tt)) = Some (text, Ok tt) ->
  (exists path pairs, path_of i path /\ pairs_of strs (s2z "ROOT") i path pairs /\ shown_pairs pairs text) /\
  forall ns, namespaces_mode (Some ([(i, ns)], Ok tt)) = Some (ns ++ [10], Ok tt).
Proof.
  intros D H. split.
  - unfold instances_mode, print_gen in H. cbn [print_all] in H. assert (K : print_instance strs None i = (text, Ok tt)).
    { destruct (print_instance strs None i) as [s [[]|e]]; cbn in H; [|congruence]. rewrite !app_nil_r in H. congruence. }
    apply instance_ok in K as (path & R & S). exists path, (instance_pairs strs None i path). split; [apply relpath_ok; assumption|].
    split; [exact (pairs_ok strs None i path)|exact S].
  - intros ns. unfold namespaces_mode, sorted_by. cbn [fold_right sort_into print_all]. cbn [then_print printed fst snd]. rewrite app_nil_r. reflexivity.
Qed.
Print Assumptions C118_root_refuted.

(** C118, finding: an entry of a repository file that is no instance, which the reader yields as None, ends the output, and no instance
    after it is shown; so does an instance whose Name is a number. *)
Theorem C118_none_refuted strs (l : list inst) texts rest r : Forall2 (fun i t => print_instance strs None i = (t, Ok tt)) l texts ->
  instances_mode strs (Some (map Some l ++ None :: rest, r)) = Some (concat texts, Err AttributeError) /\
  forall m z, z <> 0 -> instances_mode strs (Some (map Some l ++ Some (m, [(s2z "Name", VNum z)]) :: rest, r)) = Some (concat texts, Err ValueError).
Proof.
  intros F. split.
  - assert (G : Forall2 (fun i t => (match i with Some i => print_instance strs None i | None => ([], Err AttributeError) end) = (t, Ok tt)) (map Some l) texts).
    { induction F; cbn [map]; constructor; assumption. }
    unfold instances_mode, print_gen. rewrite (print_all_stop _ _ _ None rest AttributeError [] G eq_refl). cbn [then_print]. rewrite app_nil_r. reflexivity.
  - intros m z Hz. apply (proj2 (C118_instances strs l texts r F)). apply C118_errors; [constructor; [intros []|constructor]|]. split; [reflexivity|].
    exists (VNum z). split; [left; reflexivity|]. left. split; [reflexivity|]. right. exists z. auto.
Qed.
Print Assumptions C118_none_refuted.

Definition C118_map : cmap := mkcm (s2z "Disk") [s2z "Device"; s2z "Element"] (Some (s2z "Element")) (Some (s2z "Device")) [] 0.
Definition C118_disk : inst := (C118_map, [(s2z "Size", VNum 512); (s2z "Name", VStr (s2z "C:")); (s2z "Label", VNone)]).

(** An instance with three properties. *)
Example C118_case : exists text, print_instance (fun _ => []) None C118_disk = (text, Ok tt) /\
  text = concat (map (fun l => s2z l ++ [10]) [
    "__GENUS          : 2"; "__CLASS          : Disk"; "__SUPERCLASS     : Device"; "__DYNASTY        : Element"; "__RELPATH        : Disk.Name=""C:""";
    "__PROPERTY_COUNT : 3"; "__DERIVATION     : {Device, Element}"; "__SERVER         : ."; "__NAMESPACE      : ROOT";
    "__PATH           : \\.\ROOT:Disk.Name=""C:"""; "Label            : "; "Name             : C:"; "Size             : 512"; ""]%string) /\
  NoDup (map fst (snd C118_disk)) /\ plain_instance (fun _ => []) C118_disk.
Proof.
  eexists. split; [reflexivity|]. split; [vm_compute; reflexivity|]. split.
  - repeat constructor; cbn; intuition discriminate.
  - split; [cbn; intuition discriminate|]. split; [intros s H; injection H as <-; cbn; intuition discriminate|].
    split; [intros s H; injection H as <-; cbn; intuition discriminate|]. split; [intros s [<-|[<-|[]]]; cbn; intuition discriminate|].
    intros name v t H S. assert (Q : forall n u, existsb (Z.eqb 10) n = false -> (last n 32 =? 32) = false -> existsb (Z.eqb 10) u = false -> plain (n, u)).
    { intros n u E1 E2 E3. assert (L : forall x, existsb (Z.eqb 10) x = false -> ~ In 10 x).
      { intros x E K. assert (T : existsb (Z.eqb 10) x = true) by (apply existsb_exists; exists 10; split; [exact K|reflexivity]). congruence. }
      split; [apply L, E1|]. split; [apply L, E3|]. intros s K. cbn [fst] in K. subst n. rewrite last_last in E2. discriminate E2. }
    destruct H as [H|[H|[H|[]]]]; injection H as <- <-; inversion S; subst; apply Q; reflexivity.
Qed.

(** The namespaces in order, after being read in another. *)
Example C118_case_namespaces : namespaces_mode (Some ([(C118_disk, s2z "ROOT\b"); (C118_disk, s2z "ROOT"); (C118_disk, s2z "ROOT\a")], Ok tt)) =
  Some (s2z "ROOT" ++ [10] ++ s2z "ROOT\a" ++ [10] ++ s2z "ROOT\b" ++ [10], Ok tt).
Proof. reflexivity. Qed.

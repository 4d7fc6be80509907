(** C101 and C102: the hierarchies of the repository file of a WMI repository. *)

From Coq Require Import String.
From Verif Require Import Base BaseFacts SeqSpec CoreModel StrModel DictModel RdModel TvModel TvSpec FhSpec WcdModel WcdSpec WcmModel WcmSpec WciModel WciSpec WcrModel WcrSpec WchModel WchSpec WchProofs.
Local Open Scope list_scope.
Local Open Scope Z_scope.

(** ** C101: instances and namespaces *)

(** The instances that are yielded are those of the root node and of the nodes below it. *)
Theorem C101_instances : forall ansi lower content root l, is_bytes content ->
  ((exists fuel, read_instances ansi lower content fuel root = Some (l, Ok tt)) <->
   exists off, root = Some off /\ (set off /\ family ansi lower content off l \/ ~ set off /\ l = [])).
Proof. exact read_instances_iff. Qed.
Print Assumptions C101_instances.

(** The namespaces, with their names behind those of the namespaces they are in. *)
Theorem C101_namespaces : forall ansi lower content root l, is_bytes content ->
  ((exists fuel, read_namespaces ansi lower content fuel root = Some (l, Ok tt)) <->
   exists off, root = Some off /\ (set off /\ spaces ansi lower content [] off l \/ ~ set off /\ l = [])).
Proof. exact read_namespaces_iff. Qed.
Print Assumptions C101_namespaces.

(** Whatever is yielded is the instance of a node below the root node, also if reading fails later. *)
Theorem C101_yields : forall ansi lower content fuel root l r i, is_bytes content -> read_instances ansi lower content fuel root = Some (l, r) -> In i l ->
  exists off x tree name branch u list u' v, root = Some off /\ below content off x /\ node_has content x [tree; name; branch; u; list; u'; v] /\
    set branch /\ instance_node ansi lower content branch i.
Proof.
  intros ansi lower content fuel root l r i B H I. unfold read_instances, from_root in H. destruct root as [off|]; [|injection H as <- _; destruct I].
  destruct (set_dec off) as [D|D]; revert H; on_set D; intros H; [|injection H as <- _; destruct I].
  destruct (instances_yields _ _ _ _ _ _ _ _ B D H I) as (x & q1 & q2 & q3 & q4 & q5 & q6 & q7 & Q). exists off, x, q1, q2, q3, q4, q5, q6, q7. auto.
Qed.
Print Assumptions C101_yields.

(** How reading fails; a root node that was not found is a TypeError. *)
Theorem C101_errors : forall ansi lower content fuel root l l' x, is_bytes content ->
  (read_instances ansi lower content fuel root = Some (l, Err x) -> x = ParseError \/ x = ValueError \/ x = AttributeError \/ x = TypeError /\ root = None) /\
  (read_namespaces ansi lower content fuel root = Some (l', Err x) -> x = ParseError \/ x = ValueError \/ x = AttributeError \/ x = TypeError).
Proof.
  intros ansi lower content fuel root l l' x B. unfold read_instances, read_namespaces, from_root. destruct root as [off|]; [|split; intros H; injection H as <- <-; auto].
  destruct (set_dec off) as [D|D]; on_set D; [|split; discriminate]. split; intros H.
  - apply instances_errors in H; [|assumption..]. unfold soft3 in H. tauto.
  - apply namespaces_errors in H; [|assumption..]. unfold soft3 in H. tauto.
Qed.
Print Assumptions C101_errors.

(** What is yielded is determined by the file. *)
Theorem C101_unique : forall ansi lower content off l l', is_bytes content -> set off -> family ansi lower content off l -> family ansi lower content off l' -> l = l'.
Proof.
  intros ansi lower content off l l' B D H H'. destruct (proj1 (instances_complete ansi lower content B) _ _ H D) as [f E]. destruct (proj1 (instances_complete ansi lower content B) _ _ H' D) as [f' E'].
  apply (instances_mono _ _ _ _ (max f f')) in E; [|lia]. apply (instances_mono _ _ _ _ (max f f')) in E'; [|lia]. congruence.
Qed.
Print Assumptions C101_unique.

(** ** A file with two namespaces *)

Definition ex_ansi (d : bytes) : option str := if forallb (fun b => b <? 128) d then Some d else None.
Definition ex_lower (s : str) : str := map (fun c => if (65 <=? c) && (c <=? 90) then c + 32 else c) s.
Definition ex_cim (s : string) : bytes := 0 :: s2z s ++ [0].

(** A class Foo with the super class Bar and a property Name. *)
Definition ex_values : bytes :=
  ex_cim "Foo" ++ ex_cim "Name" ++ ex_cim "string" ++ le_enc 4 8 ++ le_enc 2 0 ++ le_enc 4 0 ++ le_enc 4 0 ++ le_enc 4 17 ++ (le_enc 4 0x8000000a ++ [0] ++ le_enc 4 8 ++ le_enc 4 11).
Definition ex_block : bytes :=
  [0] ++ le_enc 4 0 ++ le_enc 4 1 ++ le_enc 4 9 ++ ex_cim "Bar" ++ le_enc 4 4 ++ le_enc 4 1 ++ (le_enc 4 5 ++ le_enc 4 19) ++ [3] ++ le_enc 4 (len ex_values) ++ ex_values.
Definition ex_instance (name : string) (off : Z) : bytes :=
  le_enc 4 0 ++ [0] ++ [0] ++ le_enc 4 off ++ le_enc 4 4 ++ [1] ++ le_enc 4 0 ++ (ex_cim "Foo" ++ ex_cim name).

Definition ex_words (l : list Z) : bytes := concat (map (le_enc 4) l) ++ repeat 0 12.
Definition ex_cells (l : list bytes) : bytes := repeat 0 40 ++ concat (map (fun d => le_enc 4 (len d + 4) ++ d) l).
Definition ex_sized (d : bytes) : bytes := le_enc 4 (len d + 4) ++ d.
Definition ex_pad (d : bytes) : bytes := d ++ repeat 0 (Z.to_nat ((- len d) mod 4)).

(** The offsets of the nodes: 44 and 260 are instance root nodes, 88 and 304 instance branch nodes, 124 and
    512 class definition root nodes, 172 a class definition branch node, 208 and 484 trees, 236 a value node,
    340 and 560 lists, 376, 420 and 596 their elements, 464 a name, 640, 690 and 741 the leaf nodes. *)
Definition ex_file (depth kind off : Z) : bytes := ex_cells [
  ex_words [208; 0; 88; 0; 0; 0; 0];
  ex_words [0; 124; kind; 640; 0];
  ex_words [0; 172; 0; 9; 340; 484; 0; 0];
  ex_words [0; 0; 0; 741; 0];
  ex_words [depth; 1; 236];
  ex_words [0; 260];
  ex_words [0; 0; 304; 0; 0; 0; 0];
  ex_words [0; 124; 2; 690; 0];
  ex_words [0; 376; 420; 0; 2];
  ex_words [0; 464; 88; 0; 0; 0; 420];
  ex_words [0; 0; 304; 0; 0; 376; 0];
  [97; 0; 0; 0] ++ repeat 0 12;
  ex_words [1; 1; 512];
  ex_words [0; 172; 0; 0; 560; 0; 0; 0];
  ex_words [0; 596; 596; 0; 1];
  ex_words [0; 0; 88; 0; 0; 0; 0];
  ex_sized (ex_instance "ROOT" off) ++ repeat 0 12;
  ex_sized (ex_instance "cimv2" 5) ++ repeat 0 12;
  ex_pad (ex_sized ex_block ++ ex_sized []) ++ repeat 0 12].

Definition ex_map : cmap := mkcm (s2z "Foo") [] None None [(s2z "name", mkpm (s2z "Name") 0x8 0 4 (s2z "string"))] 4.
Definition ex_inst (name : string) : inst := (ex_map, [(s2z "Name", VStr (s2z name))]).

Lemma ex_file_bytes : is_bytes (ex_file 1 2 5).
Proof. apply is_bytes_forallb. vm_compute. reflexivity. Qed.

Example C101_case :
  read_instances ex_ansi ex_lower (ex_file 1 2 5) 2 (Some 44) = Some ([Some (ex_inst "ROOT"); Some (ex_inst "cimv2")], Ok tt) /\
  read_namespaces ex_ansi ex_lower (ex_file 1 2 5) 2 (Some 44) = Some ([(ex_inst "ROOT", s2z "ROOT"); (ex_inst "cimv2", s2z "ROOT\cimv2")], Ok tt) /\
  family ex_ansi ex_lower (ex_file 1 2 5) 44 [Some (ex_inst "ROOT"); Some (ex_inst "cimv2")] /\
  spaces ex_ansi ex_lower (ex_file 1 2 5) [] 44 [(ex_inst "ROOT", s2z "ROOT"); (ex_inst "cimv2", s2z "ROOT\cimv2")].
Proof.
  assert (E1 : read_instances ex_ansi ex_lower (ex_file 1 2 5) 2 (Some 44) = Some ([Some (ex_inst "ROOT"); Some (ex_inst "cimv2")], Ok tt)) by (vm_compute; reflexivity).
  assert (E2 : read_namespaces ex_ansi ex_lower (ex_file 1 2 5) 2 (Some 44) = Some ([(ex_inst "ROOT", s2z "ROOT"); (ex_inst "cimv2", s2z "ROOT\cimv2")], Ok tt)) by (vm_compute; reflexivity).
  split; [exact E1|]. split; [exact E2|]. split.
  - destruct (proj1 (C101_instances _ _ _ _ _ ex_file_bytes) (ex_intro _ _ E1)) as (off & X & [[_ F]|[_ F]]); [|discriminate F]. injection X as <-. exact F.
  - destruct (proj1 (C101_namespaces _ _ _ _ _ ex_file_bytes) (ex_intro _ _ E2)) as (off & X & [[_ F]|[_ F]]); [|discriminate F]. injection X as <-. exact F.
Qed.

(** ** Findings *)

(** The value of a tree of depth 0 is documented, but not read: the second namespace is missing. *)
Theorem C101_depth_refuted : read_instances ex_ansi ex_lower (ex_file 0 2 5) 2 (Some 44) = Some ([Some (ex_inst "ROOT")], Ok tt).
Proof. vm_compute. reflexivity. Qed.
Print Assumptions C101_depth_refuted.

(** The class Foo of the case has a super class, but the instances have none. *)
Theorem C101_super_refuted : exists c, class_at ex_ansi ex_lower (ex_file 1 2 5) 172 = Ok (Some c) /\ c_super c = Some (s2z "Bar") /\
  cm_super (fst (ex_inst "ROOT")) = None /\ cm_derivation (fst (ex_inst "ROOT")) = [].
Proof. eexists. split; [vm_compute; reflexivity|]. repeat split; reflexivity. Qed.
Print Assumptions C101_super_refuted.

(** None is yielded instead of an instance, and the namespaces cannot be read then. *)
Theorem C101_none_refuted :
  read_instances ex_ansi ex_lower (ex_file 1 3 5) 2 (Some 44) = Some ([None; Some (ex_inst "cimv2")], Ok tt) /\
  read_namespaces ex_ansi ex_lower (ex_file 1 3 5) 2 (Some 44) = Some ([], Err AttributeError).
Proof. vm_compute. split; reflexivity. Qed.
Print Assumptions C101_none_refuted.

(** A namespace without a name is a TypeError; so is a root node that was not found. *)
Theorem C101_name_refuted : read_namespaces ex_ansi ex_lower (ex_file 1 2 0) 2 (Some 44) = Some ([], Err TypeError).
Proof. vm_compute. reflexivity. Qed.
Print Assumptions C101_name_refuted.

Theorem C101_root_refuted : forall ansi lower content fuel, read_instances ansi lower content fuel None = Some ([], Err TypeError) /\
  read_namespaces ansi lower content fuel None = Some ([], Err TypeError).
Proof. intros. split; reflexivity. Qed.
Print Assumptions C101_root_refuted.

(** A node that is below itself: reading does not end. *)
Definition ex_cycle : bytes := ex_cells [ex_words [88; 0; 0; 0; 0; 0; 0]; ex_words [1; 1; 116]; ex_words [0; 44]].

Theorem C101_ends_refuted : forall ansi lower fuel, read_instances ansi lower ex_cycle fuel (Some 44) = None.
Proof.
  intros ansi lower fuel. change (instances ansi lower ex_cycle fuel 44 = None). induction fuel as [|fuel IH]; [reflexivity|]. cbn [instances].
  assert (X : node (rd_node 7) ex_cycle 44 = Ok [88; 0; 0; 0; 0; 0; 0]) by (vm_compute; reflexivity). rewrite (gen_go _ _ _ X).
  change (gen_bind (B := unit) (Some ([], Ok tt)) (fun _ => children ex_cycle 88 (instances ansi lower ex_cycle fuel)) = None). unfold children. change (has_tree 88) with true. cbn iota.
  assert (Y : tree ex_cycle 88 = Ok [116]) by (vm_compute; reflexivity).
  assert (Z' : node (rd_node 2) ex_cycle 116 = Ok [0; 44]) by (vm_compute; reflexivity).
  unfold gen_bind at 1. rewrite (gen_go _ _ _ Y). cbn [each]. change (40 <? 116) with true. cbn iota. rewrite (gen_go _ _ _ Z'). change (word [0; 44] 1) with 44. change (40 <? 44) with true. cbn iota.
  rewrite IH. reflexivity.
Qed.
Print Assumptions C101_ends_refuted.

(** ** C102: the class definitions *)

(** The instances that are yielded are those of the lists of the class and of the classes below it. *)
Theorem C102_classes : forall ansi lower content system l, is_bytes content ->
  ((exists fuel, read_classes ansi lower content fuel system = Some (l, Ok tt)) <->
   exists off, system = Some off /\ (set off /\ class_tree ansi lower content off l \/ ~ set off /\ l = [])).
Proof. exact read_classes_iff. Qed.
Print Assumptions C102_classes.

Theorem C102_errors : forall ansi lower content fuel system l x, is_bytes content -> read_classes ansi lower content fuel system = Some (l, Err x) ->
  x = ParseError \/ x = ValueError \/ x = AttributeError \/ x = TypeError /\ system = None.
Proof.
  intros ansi lower content fuel system l x B. unfold read_classes, from_root. destruct system as [off|]; [|intros H; injection H as <- <-; auto].
  destruct (set_dec off) as [D|D]; on_set D; [|discriminate]. intros H. apply classes_errors in H; [|assumption..]. unfold soft3 in H. tauto.
Qed.
Print Assumptions C102_errors.

Theorem C102_unique : forall ansi lower content off l l', is_bytes content -> set off -> class_tree ansi lower content off l -> class_tree ansi lower content off l' -> l = l'.
Proof.
  intros ansi lower content off l l' B D H H'. destruct (proj1 (classes_complete ansi lower content B) _ _ H D) as [f E]. destruct (proj1 (classes_complete ansi lower content B) _ _ H' D) as [f' E'].
  apply (classes_mono _ _ _ _ (max f f')) in E; [|lia]. apply (classes_mono _ _ _ _ (max f f')) in E'; [|lia]. congruence.
Qed.
Print Assumptions C102_unique.

(** The class of the case with two instances and a class below it with one. *)
Example C102_case :
  read_classes ex_ansi ex_lower (ex_file 1 2 5) 3 (Some 124) = Some ([Some (ex_inst "ROOT"); Some (ex_inst "cimv2"); Some (ex_inst "ROOT")], Ok tt) /\
  class_tree ex_ansi ex_lower (ex_file 1 2 5) 124 [Some (ex_inst "ROOT"); Some (ex_inst "cimv2"); Some (ex_inst "ROOT")].
Proof.
  assert (E : read_classes ex_ansi ex_lower (ex_file 1 2 5) 3 (Some 124) = Some ([Some (ex_inst "ROOT"); Some (ex_inst "cimv2"); Some (ex_inst "ROOT")], Ok tt)) by (vm_compute; reflexivity).
  split; [exact E|]. destruct (proj1 (C102_classes _ _ _ _ _ ex_file_bytes) (ex_intro _ _ E)) as (off & X & [[_ F]|[_ F]]); [|discriminate F]. injection X as <-. exact F.
Qed.

(** No class definitions are yielded: a class without a list of objects yields nothing. *)
Theorem C102_nothing_refuted : forall ansi lower content off i branch p type list u tree, is_bytes content -> set off ->
  node_has content off [i; branch; p; type; list; 0; u; tree] -> ~ set list -> (set branch -> exists c, class_node ansi lower content branch c) ->
  exists fuel, read_classes ansi lower content fuel (Some off) = Some ([], Ok tt).
Proof.
  intros ansi lower content off i br p ty li u tr B D H L C. apply C102_classes; [exact B|]. exists off. split; [reflexivity|]. left. split; [exact D|].
  apply (ct_node ansi lower content off i br p ty li 0 u tr [] [] []); auto; [|constructor]. right. split; [|reflexivity]. intros [X _]. unfold set in X. lia.
Qed.
Print Assumptions C102_nothing_refuted.

(** An element of a list that is followed by itself: reading does not end. *)
Definition ex_list_cycle : bytes := ex_cells [ex_words [0; 0; 0; 0; 92; 0; 0; 0]; ex_words [0; 128; 128; 0; 1]; ex_words [0; 0; 0; 0; 0; 0; 128]].

Theorem C102_ends_refuted : forall ansi lower fuel, read_classes ansi lower ex_list_cycle fuel (Some 44) = None.
Proof.
  intros ansi lower fuel. change (classes ansi lower ex_list_cycle fuel 44 = None). destruct fuel as [|fuel]; [reflexivity|]. cbn [classes].
  assert (X : node (rd_node 8) ex_list_cycle 44 = Ok [0; 0; 0; 0; 92; 0; 0; 0]) by (vm_compute; reflexivity). rewrite (gen_go _ _ _ X).
  assert (Y : node (rd_node 5) ex_list_cycle 92 = Ok [0; 128; 128; 0; 1]) by (vm_compute; reflexivity).
  assert (Q : forall n (f : Z -> gen (option inst) unit), f 0 = done -> list_elements ex_list_cycle n 128 f = None).
  { assert (W : node (rd_node 7) ex_list_cycle 128 = Ok [0; 0; 0; 0; 0; 0; 128]) by (vm_compute; reflexivity).
    intros n f F. induction n as [|n IH]; [reflexivity|]. cbn [list_elements]. change (40 <? 128) with true. cbn iota. rewrite (gen_go _ _ _ W).
    change (word [0; 0; 0; 0; 0; 0; 128] 1) with 0. change (word [0; 0; 0; 0; 0; 0; 128] 2) with 0. change (word [0; 0; 0; 0; 0; 0; 128] 6) with 128. change (40 <? 0) with false. cbn iota. rewrite F, IH. reflexivity. }
  change (word [0; 0; 0; 0; 92; 0; 0; 0] 1) with 0. change (word [0; 0; 0; 0; 92; 0; 0; 0] 4) with 92. change (40 <? 0) with false. change (40 <? 92) with true. cbn iota.
  rewrite (gen_go _ _ _ Y). change (word [0; 128; 128; 0; 1] 1) with 128. rewrite Q by reflexivity. reflexivity.
Qed.
Print Assumptions C102_ends_refuted.

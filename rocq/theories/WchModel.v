(** Model of the hierarchies of nodes of the repository file of a WMI repository (cim.rep): namespaces,
    instances and class definitions.

    [ansi] and [lower] as in WcdModel. The file is read without debug output. How deep Python calls can be
    nested is not modelled. *)

From Verif Require Import Base CoreModel SeqModel StrModel DictModel Utf16Model RdModel TvModel WcdModel WcmModel WciModel WcrModel.

(** ** Nodes *)

(** The node cell of a node and the structure its data begins with: [_ReadNodeCell] at [offset - 4], then
    [_ReadStructureFromByteStream] of the data of the cell. *)
Definition node {A} (r : reader A) (content : bytes) (off : Z) : result A :=
  do (cell, p) <- rd_cell content (off - 4);
  rd_stream r (snd cell).

(** A node of [n] 32-bit integers and a footer: cim_rep_child_objects_list_node (5),
    cim_rep_child_objects_list_element_node (7), cim_rep_class_definition_branch_node (5),
    cim_rep_class_definition_root_node (8), cim_rep_child_objects_branch_node (4),
    cim_rep_child_objects_leaf_node (10), cim_rep_instance_branch_node (5),
    cim_rep_instance_leaf_value_node (2) and cim_rep_instance_root_node (7) of wmi_repository.yaml. *)
Definition rd_node (n : nat) : reader (list Z) :=
  rd l <- rd_words n;
  rd footer <- rd_bytes 12;
  rd_ret l.

(** wmi_repository.yaml cim_rep_child_objects_root_node: the depth has one of the values 0, 1 and 2. *)
Definition rd_tree_root : reader (list Z) :=
  rd l <- rd_node 3;
  rd x <- rd_guard (existsb (Z.eqb (word l 0)) [0; 1; 2]);
  rd_ret l.

(** A structure with padding to a multiple of [n] of its own size. *)
Definition rd_padded {A} (n : Z) (r : reader A) : reader A :=
  fun content pos =>
    do (a, p) <- r content pos;
    do (_, q) <- rd_bytes ((- (p - pos)) mod n) content p;
    Ok (a, q).

(** wmi_repository.yaml cim_rep_name_node. *)
Definition rd_name_node : reader str :=
  rd s <- rd_padded 4 rd_wide;
  rd footer <- rd_bytes 12;
  rd_ret s.

(** wmi_repository.yaml cim_rep_class_definition_leaf_node: the class definition block. *)
Definition rd_class_leaf : reader bytes :=
  rd data <- rd_padded 4 (
    rd size <- rd_int (FU LE 4);
    rd data <- rd_bytes (size - 4);
    rd usize <- rd_int (FU LE 4);
    rd unknown <- rd_bytes (usize - 4);
    rd_ret data);
  rd footer <- rd_bytes 12;
  rd_ret data.

(** wmi_repository.yaml cim_rep_instance_leaf_node: the instance block. *)
Definition rd_instance_leaf : reader bytes :=
  rd size <- rd_int (FU LE 4);
  rd data <- rd_bytes (size - 4);
  rd footer <- rd_bytes 12;
  rd_ret data.

(** ** Trees *)

(** wmi_repository.py:1226-1269 [_ReadChildObjectsTree]: all nodes are read before the first offset is
    yielded. *)
Definition tree (content : bytes) (off : Z) : result (list Z) :=
  do l <- node rd_tree_root content off;
  if word l 0 =? 1 then Ok [word l 2]
  else if word l 0 =? 2 then
    if 40 <? word l 2 then
      do b <- node (rd_node 4) content (word l 2);
      if 40 <? word b 3 then node (rd_node 10) content (word b 3) else Ok []
    else Ok []
  else Ok [].

(** ** Class definitions and instances *)

(** wmi_repository.py:1746-1774 [_ReadClassDefinition]. *)
Definition class_at (ansi : bytes -> option str) (lower : str -> str) (content : bytes) (off : Z) : result (option cdef) :=
  do l <- node (rd_node 5) content off;
  if word l 3 <=? 40 then Ok None
  else
    do data <- node rd_class_leaf content (word l 3);
    do c <- class_block ansi lower data;
    Ok (Some c).

(** An instance: the class map with class name, derivation, dynasty and super class name, and the
    properties. *)
Definition inst : Type := cmap * sdict pval.

(** wmi_repository.py:1852-1917 [_ReadInstance]. With no class definition [Build] asks None for its name. *)
Definition instance_at (ansi : bytes -> option str) (lower : str -> str) (content : bytes) (off : Z) : result (option inst) :=
  do l <- node (rd_node 5) content off;
  if word l 1 <=? 40 then Ok None
  else if word l 3 <=? 40 then Ok None
  else if negb (word l 2 =? 2) then Ok None
  else
    do r <- node (rd_node 8) content (word l 1);
    if word r 1 <=? 40 then Ok None
    else
      do o <- class_at ansi lower content (word r 1);
      do data <- node rd_instance_leaf content (word l 3);
      match o with
      | None => Err AttributeError
      | Some c =>
          do m <- build lower [c];
          do (name, t) <- instance ansi m data;
          Ok (Some (m, t))
      end.

(** ** Hierarchies *)

Definition yield {E} (e : E) : gen E unit := Some ([e], Ok tt).
Definition done {E} : gen E unit := Some ([], Ok tt).

(** A loop over values. *)
Fixpoint each {E} (l : list Z) (f : Z -> gen E unit) : gen E unit :=
  match l with [] => done | x :: l => gdo _ <- f x; each l f end.

(** wmi_repository.py:1957-1960 and 2033-2036. *)
Definition has_tree (off : Z) : bool := (40 <? off) && negb (off =? 0xffffffff).

(** wmi_repository.py:1961-1984 and 2037-2052: the children; the value nodes are instance leaf value nodes. *)
Definition children {E} (content : bytes) (off : Z) (f : Z -> gen E unit) : gen E unit :=
  if has_tree off then
    gdo kids <- gen_of (tree content off);
    each kids (fun v =>
      if 40 <? v then
        gdo w <- gen_of (node (rd_node 2) content v);
        if 40 <? word w 1 then f (word w 1) else done
      else done)
  else done.

(** wmi_repository.py:1919-2002 [_ReadInstanceHierarchy]. *)
Fixpoint instances (ansi : bytes -> option str) (lower : str -> str) (content : bytes) (fuel : nat) (off : Z) : gen (option inst) unit :=
  match fuel with
  | O => None
  | S fuel =>
      gdo l <- gen_of (node (rd_node 7) content off);
      gdo _ <- (if 40 <? word l 2 then gdo i <- gen_of (instance_at ansi lower content (word l 2)); yield i else done);
      children content (word l 0) (instances ansi lower content fuel)
  end.

(** wmi_repository.py:2025-2029: [join] needs a string. *)
Definition namespace_of (segments : list str) (i : option inst) : result (inst * list str) :=
  match i with
  | None => Err AttributeError
  | Some (m, t) =>
      match sdict_get (s2z "Name"%string) t with
      | Some (VStr s) => Ok ((m, t), segments ++ [s])
      | _ => Err TypeError
      end
  end.

(** wmi_repository.py:2004-2052 [_ReadNamespaceInstanceHierarchy]: the instances with the names of the
    namespaces. *)
Fixpoint namespaces (ansi : bytes -> option str) (lower : str -> str) (content : bytes) (fuel : nat) (segments : list str) (off : Z)
  : gen (inst * str) unit :=
  match fuel with
  | O => None
  | S fuel =>
      gdo l <- gen_of (node (rd_node 7) content off);
      if 40 <? word l 2 then
        gdo i <- gen_of (instance_at ansi lower content (word l 2));
        gdo (i, segments) <- gen_of (namespace_of segments i);
        gdo _ <- yield (i, join [92] segments);
        children content (word l 0) (namespaces ansi lower content fuel segments)
      else done
  end.

(** wmi_repository.py:1120-1159: the loop of [_ReadChildObjectsList] and what 1824-1829 does with an element. *)
Fixpoint list_elements {E} (content : bytes) (fuel : nat) (off : Z) (f : Z -> gen E unit) : gen E unit :=
  if 40 <? off then
    match fuel with
    | O => None
    | S fuel =>
        gdo l <- gen_of (node (rd_node 7) content off);
        gdo _ <- (if 40 <? word l 1 then gdo s <- gen_of (node rd_name_node content (word l 1)); done else done);
        gdo _ <- f (word l 2);
        list_elements content fuel (word l 6) f
    end
  else done.

(** wmi_repository.py:1788-1850 [_ReadClassDefinitionHierarchy]. The class definition itself is read and not
    used. *)
Fixpoint classes (ansi : bytes -> option str) (lower : str -> str) (content : bytes) (fuel : nat) (off : Z) : gen (option inst) unit :=
  match fuel with
  | O => None
  | S fuel =>
      gdo l <- gen_of (node (rd_node 8) content off);
      gdo _ <- (if 40 <? word l 1 then gdo c <- gen_of (class_at ansi lower content (word l 1)); done else done);
      gdo _ <- (if 40 <? word l 4 then
          gdo h <- gen_of (node (rd_node 5) content (word l 4));
          list_elements content fuel (word h 1) (fun v =>
            if 40 <? v then gdo i <- gen_of (instance_at ansi lower content v); yield i else done)
        else done);
      if (40 <? word l 5) && ((word l 3 =? 9) || (word l 3 =? 10)) then
        gdo kids <- gen_of (tree content (word l 5));
        each kids (fun v => if 40 <? v then classes ansi lower content fuel v else done)
      else done
  end.

(** ** The file *)

(** wmi_repository.py:2054-2085 [ReadClassDefinitions], [ReadInstances] and [ReadNamespaces]: an offset that
    was not found is None, which has no order. *)
Definition from_root {E} (o : option Z) (f : Z -> gen E unit) : gen E unit :=
  match o with
  | None => gen_of (Err TypeError)
  | Some off => if 40 <? off then f off else done
  end.

Definition read_instances (ansi : bytes -> option str) (lower : str -> str) (content : bytes) (fuel : nat) (root : option Z) :=
  from_root root (instances ansi lower content fuel).
Definition read_namespaces (ansi : bytes -> option str) (lower : str -> str) (content : bytes) (fuel : nat) (root : option Z) :=
  from_root root (namespaces ansi lower content fuel []).
Definition read_classes (ansi : bytes -> option str) (lower : str -> str) (content : bytes) (fuel : nat) (system : option Z) :=
  from_root system (classes ansi lower content fuel).

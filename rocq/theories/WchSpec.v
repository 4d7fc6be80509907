(** The hierarchies of nodes of a repository file.

    Source: /repo/documentation/WMI repository file format.asciidoc, sections "Child objects list", "Child
    objects tree", "Class definition hierarchy" and "Instance hierarchy". *)

From Coq Require Import String.
From Verif Require Import Base BaseFacts SeqSpec CoreModel StrModel DictModel TvSpec Utf16Spec FhSpec WcdModel WcdSpec WcmModel WcmSpec WciModel WciSpec WcrSpec WchModel.
Local Open Scope list_scope.
Local Open Scope Z_scope.

(** ** Nodes *)

(** Offsets are those of the data of cells. *)
Definition node_at (content : bytes) (off : Z) (data : bytes) : Prop :=
  exists size d, stored_at content (off - 4) d /\ cell_bytes size data d.

Definition footer (d : bytes) : Prop := len d = 12.

(** A node with integers and a footer; what follows in the cell does not matter. *)
Definition node_has (content : bytes) (off : Z) (words : list Z) : Prop :=
  exists data rest, node_at content off data /\ fields (map i32 words ++ [footer; eq rest]) data.

(** Padding to a multiple of 4. *)
Definition padded4 (P : bytes -> Prop) (d : bytes) : Prop :=
  exists b pad, P b /\ d = b ++ pad /\ len b <= len d < len b + 4 /\ exists k, len d = 4 * k.

Definition name_node (content : bytes) (off : Z) : Prop :=
  exists data rest, node_at content off data /\ fields [padded4 (fun d => exists s, utf16_z s d); footer; eq rest] data.

(** The blocks with their sizes, which include the 4 bytes of the size. *)
Definition block_bytes (data d : bytes) : Prop := fields [i32 (len data + 4); eq data] d.

Definition class_leaf (content : bytes) (off : Z) (block : bytes) : Prop :=
  exists data rest, node_at content off data /\
    fields [padded4 (fields [block_bytes block; fun d => exists unknown, block_bytes unknown d]); footer; eq rest] data.

Definition instance_leaf (content : bytes) (off : Z) (block : bytes) : Prop :=
  exists data rest, node_at content off data /\ fields [block_bytes block; footer; eq rest] data.

(** An offset that is set: those of the file header are not. *)
Definition set (off : Z) : Prop := 40 < off.

(** ** Trees and lists *)

(** The value nodes of a tree. Those of depth 0 are not read, see C101_depth_refuted. *)
Inductive tree_of (content : bytes) : Z -> list Z -> Prop :=
| to_0 off n v : node_has content off [0; n; v] -> tree_of content off []
| to_1 off n v : node_has content off [1; n; v] -> tree_of content off [v]
| to_2 off n b k m u leaf vs : node_has content off [2; n; b] -> set b -> node_has content b [k; m; u; leaf] -> set leaf ->
    node_has content leaf vs -> Datatypes.length vs = 10%nat -> tree_of content off vs
| to_2_branch off n b : node_has content off [2; n; b] -> ~ set b -> tree_of content off []
| to_2_leaf off n b k m u leaf : node_has content off [2; n; b] -> set b -> node_has content b [k; m; u; leaf] -> ~ set leaf -> tree_of content off [].

(** The value nodes of the elements from one on. *)
Inductive elements_of (content : bytes) : Z -> list Z -> Prop :=
| eo_end off : ~ set off -> elements_of content off []
| eo_next off u name v a b prev next vs : set off -> node_has content off [u; name; v; a; b; prev; next] -> (set name -> name_node content name) ->
    elements_of content next vs -> elements_of content off (v :: vs).

(** ** Classes and instances *)

(** The class definition of a class definition branch node. *)
Inductive class_node (ansi : bytes -> option str) (lower : str -> str) (content : bytes) : Z -> option cdef -> Prop :=
| cn_none off i r u leaf v : node_has content off [i; r; u; leaf; v] -> ~ set leaf -> class_node ansi lower content off None
| cn_some off i r u leaf v block c : node_has content off [i; r; u; leaf; v] -> set leaf -> class_leaf content leaf block -> class_of ansi lower block c ->
    class_node ansi lower content off (Some c).

(** The instance of an instance branch node. *)
Inductive instance_node (ansi : bytes -> option str) (lower : str -> str) (content : bytes) : Z -> option inst -> Prop :=
| in_none off i croot u leaf v : node_has content off [i; croot; u; leaf; v] -> ~ set croot \/ ~ set leaf \/ u <> 2 -> instance_node ansi lower content off None
| in_class off i croot leaf v i' branch p type list sub u' tree : node_has content off [i; croot; 2; leaf; v] -> set croot -> set leaf ->
    node_has content croot [i'; branch; p; type; list; sub; u'; tree] -> ~ set branch -> instance_node ansi lower content off None
| in_some off i croot leaf v i' branch p type list sub u' tree c block m name t : node_has content off [i; croot; 2; leaf; v] -> set croot -> set leaf ->
    node_has content croot [i'; branch; p; type; list; sub; u'; tree] -> set branch -> class_node ansi lower content branch (Some c) ->
    instance_leaf content leaf block -> map_of lower [c] m -> instance_has ansi m block name t -> instance_node ansi lower content off (Some (m, t)).

(** ** Hierarchies *)

(** The instance root nodes of the children. *)
Inductive root_of (content : bytes) : Z -> option Z -> Prop :=
| ro_unset v : ~ set v -> root_of content v None
| ro_no_root v name r : set v -> node_has content v [name; r] -> ~ set r -> root_of content v None
| ro_root v name r : set v -> node_has content v [name; r] -> set r -> root_of content v (Some r).

Definition kids_of (content : bytes) (off : Z) (kids : list Z) : Prop :=
  (~ set off \/ off = 0xffffffff) /\ kids = [] \/
  set off /\ off <> 0xffffffff /\ exists vs os, tree_of content off vs /\ Forall2 (root_of content) vs os /\
    kids = concat (map (fun o => match o with Some r => [r] | None => [] end) os).

(** The instances of an instance root node and of the nodes below it, in this order. *)
Inductive family (ansi : bytes -> option str) (lower : str -> str) (content : bytes) : Z -> list (option inst) -> Prop :=
| fa_node off tree name branch u list u' v own kids rest :
    node_has content off [tree; name; branch; u; list; u'; v] ->
    (set branch /\ (exists i, own = [i] /\ instance_node ansi lower content branch i) \/ ~ set branch /\ own = []) ->
    kids_of content tree kids -> families ansi lower content kids rest -> family ansi lower content off (own ++ rest)
with families (ansi : bytes -> option str) (lower : str -> str) (content : bytes) : list Z -> list (option inst) -> Prop :=
| fs_nil : families ansi lower content [] []
| fs_cons off kids l rest : family ansi lower content off l -> families ansi lower content kids rest -> families ansi lower content (off :: kids) (l ++ rest).

(** The namespaces: a namespace instance has a name, which follows those of the namespaces above it. *)
Inductive spaces (ansi : bytes -> option str) (lower : str -> str) (content : bytes) : list str -> Z -> list (inst * str) -> Prop :=
| sp_none path off tree name branch u list u' v :
    node_has content off [tree; name; branch; u; list; u'; v] -> ~ set branch -> spaces ansi lower content path off []
| sp_node path off tree name branch u list u' v m t s kids rest :
    node_has content off [tree; name; branch; u; list; u'; v] -> set branch -> instance_node ansi lower content branch (Some (m, t)) ->
    sdict_get (s2z "Name"%string) t = Some (VStr s) -> kids_of content tree kids -> spaces_list ansi lower content (path ++ [s]) kids rest ->
    spaces ansi lower content path off (((m, t), join [92] (path ++ [s])) :: rest)
with spaces_list (ansi : bytes -> option str) (lower : str -> str) (content : bytes) : list str -> list Z -> list (inst * str) -> Prop :=
| sl_nil path : spaces_list ansi lower content path [] []
| sl_cons path off kids l rest : spaces ansi lower content path off l -> spaces_list ansi lower content path kids rest ->
    spaces_list ansi lower content path (off :: kids) (l ++ rest).

(** The instances of the value nodes of a list. *)
Inductive listed (ansi : bytes -> option str) (lower : str -> str) (content : bytes) : list Z -> list (option inst) -> Prop :=
| li_nil : listed ansi lower content [] []
| li_unset v vs l : ~ set v -> listed ansi lower content vs l -> listed ansi lower content (v :: vs) l
| li_set v vs i l : set v -> instance_node ansi lower content v i -> listed ansi lower content vs l -> listed ansi lower content (v :: vs) (i :: l).

(** The instances of the lists of a class and of the classes below it. *)
Inductive class_tree (ansi : bytes -> option str) (lower : str -> str) (content : bytes) : Z -> list (option inst) -> Prop :=
| ct_node off i branch p type list sub u tree own kids rest :
    node_has content off [i; branch; p; type; list; sub; u; tree] ->
    (set branch -> exists c, class_node ansi lower content branch c) ->
    (set list /\ (exists a first last b n vs, node_has content list [a; first; last; b; n] /\ elements_of content first vs /\ listed ansi lower content vs own) \/
     ~ set list /\ own = []) ->
    (set sub /\ (type = 9 \/ type = 10) /\ tree_of content sub kids \/ ~ (set sub /\ (type = 9 \/ type = 10)) /\ kids = []) ->
    class_trees ansi lower content kids rest -> class_tree ansi lower content off (own ++ rest)
with class_trees (ansi : bytes -> option str) (lower : str -> str) (content : bytes) : list Z -> list (option inst) -> Prop :=
| cs_nil : class_trees ansi lower content [] []
| cs_unset off kids rest : ~ set off -> class_trees ansi lower content kids rest -> class_trees ansi lower content (off :: kids) rest
| cs_set off kids l rest : set off -> class_tree ansi lower content off l -> class_trees ansi lower content kids rest ->
    class_trees ansi lower content (off :: kids) (l ++ rest).

(** ** What is below a node *)

Inductive below (content : bytes) : Z -> Z -> Prop :=
| be_here off : below content off off
| be_down off tree name branch u list u' v vs w r x :
    node_has content off [tree; name; branch; u; list; u'; v] -> set tree -> tree <> 0xffffffff -> tree_of content tree vs -> In w vs ->
    root_of content w (Some r) -> below content r x -> below content off x.

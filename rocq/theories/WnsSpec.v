(** The namespaces of the object records of a WMI repository.

    Source: /repo/documentation/WMI repository file format.asciidoc, sections "Index key" and "Namespaces", and
    the documentation of GetNamespaces. *)

From Coq Require Import String.
From Verif Require Import Base CoreModel StrModel DictModel WmiModel WcdModel WcmModel WciModel WchModel WrpModel WrpSpec.
Local Open Scope list_scope.
Local Open Scope Z_scope.

(** ** Keys *)

(** Segments are what is between separators. *)
Definition segment (key : str) (k : nat) (seg : str) : Prop :=
  exists segs, segs <> [] /\ Forall (fun s => ~ In 92 s) segs /\ key = join [92] segs /\ nth_error segs k = Some seg.

(** What is behind the first underscore. *)
Definition behind (s c : str) : Prop := (exists t, ~ In 95 t /\ s = t ++ 95 :: c) \/ ~ In 95 s /\ c = [].

(** The class of a key of a namespace is __NAMESPACE. *)
Definition of_namespace (e : renv) (seg : str) : Prop := exists c, behind seg c /\ re_lower e c = re_hash e (s2z "__NAMESPACE").

(** What a key adds, if the records of [seen] have been read: the instance of a namespace with the hash of the
    namespace it is in, and the hash of the namespace the key is in. *)
Inductive space_key (e : renv) (defs : sdict cdef) (seen : list (Z * Z)) (key : str) : list (str * inst) -> list str -> list (Z * Z) -> Prop :=
| sk_outside seg : segment key 1 seg -> (forall h, seg <> s2z "NS_" ++ h) -> space_key e defs seen key [] [] seen
| sk_inside h seg : segment key 1 (s2z "NS_" ++ h) -> segment key 2 seg ->
    (forall type hash n id size, of_namespace e seg -> In type instance_types -> says e key type hash n id size -> In (n, id) seen) ->
    space_key e defs seen key [] [re_lower e h] seen
| sk_space h seg type hash n id size d i : segment key 1 (s2z "NS_" ++ h) -> segment key 2 seg -> of_namespace e seg ->
    In type instance_types -> says e key type hash n id size -> ~ In (n, id) seen -> re_record e n id size = Done (Ok d) -> instance_from e defs d i ->
    space_key e defs seen key [(re_lower e h, i)] [re_lower e h] ((n, id) :: seen).

Inductive space_keys (e : renv) (defs : sdict cdef) : list (Z * Z) -> list str -> list (str * inst) -> list str -> Prop :=
| sks_end seen : space_keys e defs seen [] [] []
| sks_key seen key keys l1 ps1 seen1 l ps : space_key e defs seen key l1 ps1 seen1 -> space_keys e defs seen1 keys l ps ->
    space_keys e defs seen (key :: keys) (l1 ++ l) (ps1 ++ ps).

(** ** Names *)

Definition name_is (i : inst) (n : str) : Prop := sdict_get (s2z "Name") (snd i) = Some (VStr n).

(** The name of a namespace that is [k] steps below one of the common namespaces. *)
Inductive named (hash : str -> str) (common : list str) (l : list (str * inst)) : nat -> str -> Prop :=
| nm_common s : In s common -> named hash common l 0 s
| nm_child k s i n : named hash common l k s -> In (hash s, i) l -> name_is i n -> named hash common l (S k) (s ++ 92 :: n).

(** The hash of a namespace that is found. *)
Definition found (hash : str -> str) (common : list str) (l : list (str * inst)) (k : nat) (p : str) : Prop :=
  exists s, named hash common l k s /\ hash s = p.

(** The instances in the namespace with a hash, in order. *)
Fixpoint children (l : list (str * inst)) (p : str) : list inst :=
  match l with [] => [] | (q, i) :: l => (if list_eqb q p then [i] else []) ++ children l p end.

(** The instances in a namespace with their names. *)
Definition names_of (l : list (str * inst)) (ps : str * str) (out : list (inst * str)) : Prop :=
  Forall2 (fun i x => exists n, name_is i n /\ x = (i, snd ps ++ 92 :: n)) (children l (fst ps)) out.

(** Names with the same hash stand for the same namespace. *)
Definition no_clash (hash : str -> str) (common : list str) (l : list (str * inst)) : Prop :=
  forall j k s t n, named hash common l j s -> named hash common l k t -> hash s = hash t -> hash (s ++ 92 :: n) = hash (t ++ 92 :: n).

(** The namespaces that are found: [done] are the namespaces with their names, each of them once. *)
Definition resolution (hash : str -> str) (common : list str) (l : list (str * inst)) (ps : list str) (done : list (str * str)) (out : list (inst * str)) : Prop :=
  NoDup (map fst done) /\ (forall p s, In (p, s) done -> In p ps /\ hash s = p /\ exists k, named hash common l k s) /\
  exists segs, Forall2 (names_of l) done segs /\ out = concat segs.

(** Class definitions, instances and namespaces of the object records of a WMI repository.

    Source: /repo/documentation/WMI repository file format.asciidoc, sections "Index key", "Namespaces" and
    "Object record", and the documentation of GetInstances and GetNamespaces. *)

From Coq Require Import String Permutation.
From Verif Require Import Base BaseFacts SeqSpec CoreModel StrModel DictModel WmiModel WcdModel WcdSpec WcmModel WcmSpec WciModel WciSpec WchModel WrpModel.
Local Open Scope list_scope.
Local Open Scope Z_scope.

(** ** Keys *)

(** The last segment of a key: what is behind its last separator. *)
Definition last_segment (key seg : str) : Prop := ~ In 92 seg /\ (key = seg \/ exists path, key = path ++ 92 :: seg).

(** A key ends with TYPE_HASH.PAGE.IDENTIFIER.SIZE; the hash is in lower case. *)
Definition says (e : renv) (key type hash : str) (n id size : Z) : Prop :=
  exists seg a b c d h, last_segment key seg /\ seg = a ++ 46 :: b ++ 46 :: c ++ 46 :: d /\
    ~ In 46 a /\ ~ In 46 b /\ ~ In 46 c /\ ~ In 46 d /\
    re_int e b = Some n /\ re_int e c = Some id /\ re_int e d = Some size /\
    ~ In 95 type /\ (a = type ++ 95 :: h \/ a = type /\ h = []) /\ hash = re_lower e h.

(** The record of a key of one of the types. *)
Definition record_of (e : renv) (types : list str) (key hash : str) (d : bytes) : Prop :=
  exists type n id size, In type types /\ says e key type hash n id size /\ re_record e n id size = Done (Ok d).

(** A key of another type, or none. *)
Definition other (e : renv) (types : list str) (key : str) : Prop :=
  forall type hash n id size, In type types -> ~ says e key type hash n id size.

(** ** Class definitions *)

Definition class_types : list str := [s2z "CD"].
Definition instance_types : list str := [s2z "I"; s2z "IL"].

(** The class definitions of the keys, in order, with their hashes. *)
Inductive class_keys (e : renv) : list str -> list (str * cdef) -> Prop :=
| ck_end : class_keys e [] []
| ck_other key keys l : other e class_types key -> class_keys e keys l -> class_keys e (key :: keys) l
| ck_class key keys hash d c l : record_of e class_types key hash d -> class_record_of (re_ansi e) (re_lower e) d c -> class_keys e keys l ->
    class_keys e (key :: keys) ((hash, c) :: l).

(** ** Instances *)

(** The instance of an object record. *)
Definition instance_from (e : renv) (defs : sdict cdef) (d : bytes) (i : inst) : Prop :=
  exists h data c l name, record_has (re_old e) d h data /\ sdict_get (re_lower e h) defs = Some c /\ lineage (re_lower e) (re_hash e) defs c l /\
    map_of (re_lower e) l (fst i) /\ instance_has (re_ansi e) (fst i) data name (snd i).

Inductive instance_keys (e : renv) (defs : sdict cdef) : list str -> list inst -> Prop :=
| ik_end : instance_keys e defs [] []
| ik_other key keys l : other e instance_types key -> instance_keys e defs keys l -> instance_keys e defs (key :: keys) l
| ik_instance key keys hash d i l : record_of e instance_types key hash d -> instance_from e defs d i -> instance_keys e defs keys l ->
    instance_keys e defs (key :: keys) (i :: l).

(** Object records are bytes. *)
Definition env_bytes (e : renv) : Prop := forall n id size d, re_record e n id size = Done (Ok d) -> is_bytes d.

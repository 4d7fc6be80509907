(** Model of what is made of the object records of a WMI repository (index.btr and objects.data): class
    definitions, instances and namespaces.

    Opening a repository fails (C53), so this is what a repository with its tables and files set does. *)

From Coq Require Import String.
From Verif Require Import Base CoreModel SeqModel StrModel DictModel Utf16Model RdModel TvModel WmiModel WcdModel WcmModel WciModel WchModel.
Local Open Scope list_scope.
Local Open Scope Z_scope.

(** What the repository works with: [int(s, 10)] without the error, [str.lower], the decoder of strings of
    WcdModel, wmi_repository.py:3616-3631 [_GetHashFromString], whether the format version is 2.1 and
    [_GetObjectRecord] (WmiModel.object_record). *)
Record renv := mkre {
  re_int : str -> option Z; re_lower : str -> str; re_ansi : bytes -> option str; re_hash : str -> str; re_old : bool;
  re_record : Z -> Z -> Z -> run bytes }.

(** wmi_repository.py:3983-3988: [_GetObjectRecordValuesFromKey] of the last segment. *)
Definition key_values (e : renv) (key : str) : option (str * str * Z * Z * Z) :=
  key_record (re_int e) (re_lower e) (last (split_on 92 key) []).

(** ** Class definitions *)

(** wmi_repository.py:3974-4010 [_ReadClassDefinitionObjectRecords] and
    [_ReadClassDefinitionsFromObjectRecords]: the keys come from a generator that ends with [kend]. *)
Fixpoint class_defs (e : renv) (keys : list str) (kend : result unit) (t : sdict cdef) : run (sdict cdef) :=
  match keys with
  | [] => rdo _ <- Done kend; Done (Ok t)
  | key :: keys =>
      match key_values e key with
      | Some (type, hash, n, id, size) =>
          if list_eqb type (s2z "CD") then
            rdo d <- re_record e n id size;
            rdo c <- Done (class_record (re_ansi e) (re_lower e) d);
            class_defs e keys kend (sdict_set hash c t)
          else class_defs e keys kend t
      | None => class_defs e keys kend t
      end
  end.

(** ** Instances *)

Definition gen_run {E A} (r : run A) : gen E A := match r with OutOfFuel => None | Done r => Some ([], r) end.

Definition is_instance (type : str) : bool := list_eqb type (s2z "I") || list_eqb type (s2z "IL").

(** wmi_repository.py:4017-4049 [_ReadInstance] and 4051-4084 [_ReadInstanceFromObjectRecord] with 2900-2932
    [ReadObjectRecord]: the hash of a record has 32 or 64 characters. [kept] are the class value maps. *)
Definition read_record (fuel : nat) (e : renv) (defs : sdict cdef) (kept : sdict cmap) (d : bytes) : run inst * sdict cmap :=
  match instance_record (re_old e) d with
  | Err x => (Done (Err x), kept)
  | Ok (h, data) =>
      let (m, kept) := map_by_hash fuel (re_lower e) (re_hash e) defs kept h in
      (rdo cm <- m; rdo (name, t) <- Done (instance (re_ansi e) cm data); Done (Ok (cm, t)), kept)
  end.

(** wmi_repository.py:4086-4105 [_ReadInstanceObjectRecords] and 4199-4217 [GetInstances]. *)
Fixpoint all_instances (fuel : nat) (e : renv) (defs : sdict cdef) (kept : sdict cmap) (keys : list str) (kend : result unit) : gen inst unit :=
  match keys with
  | [] => gen_of kend
  | key :: keys =>
      match key_values e key with
      | Some (type, hash, n, id, size) =>
          if is_instance type then
            gdo d <- gen_run (re_record e n id size);
            let (r, kept) := read_record fuel e defs kept d in
            gdo i <- gen_run r;
            gdo _ <- yield i;
            all_instances fuel e defs kept keys kend
          else all_instances fuel e defs kept keys kend
      | None => all_instances fuel e defs kept keys kend
      end
  end.

(** ** Namespaces *)

(** What wmi_repository.py:4107-4150 collects: the instances of namespaces by the hash of the namespace they
    are in, and the hashes. A set is a list without duplicates. *)
Record found_ns := mkfn { fn_insts : sdict (list inst); fn_parents : list str; fn_seen : list (Z * Z); fn_kept : sdict cmap }.

Definition add_to {A} (eqb : A -> A -> bool) (a : A) (l : list A) : list A := if existsb (eqb a) l then l else l ++ [a].

(** [s.partition("_")[2]] *)
Definition after_under (s : str) : str := match split_on 95 s with [] => [] | _ :: r => join [95] r end.

Definition same_pair (a b : Z * Z) : bool := (fst a =? fst b) && (snd a =? snd b).

(** wmi_repository.py:4116-4148: what is done with a key. *)
Definition collect_key (fuel : nat) (e : renv) (defs : sdict cdef) (key : str) (s : found_ns) : run found_ns :=
  let segments := split_on 92 key in
  match nth_error segments 1 with
  | None => Done (Err IndexError)
  | Some seg =>
      if negb (starts_with (s2z "NS_") seg) then Done (Ok s)
      else
        let ns := re_lower e (skipn 3 seg) in
        let s := mkfn (fn_insts s) (add_to list_eqb ns (fn_parents s)) (fn_seen s) (fn_kept s) in
        match nth_error segments 2 with
        | None => Done (Err IndexError)
        | Some seg2 =>
            if negb (list_eqb (re_lower e (after_under seg2)) (re_hash e (s2z "__NAMESPACE"))) then Done (Ok s)
            else
              match key_values e key with
              | Some (type, hash, n, id, size) =>
                  if negb (is_instance type) then Done (Ok s)
                  else if existsb (same_pair (n, id)) (fn_seen s) then Done (Ok s)
                  else
                    rdo d <- re_record e n id size;
                    let (r, kept) := read_record fuel e defs (fn_kept s) d in
                    rdo i <- r;
                    let old := match sdict_get ns (fn_insts s) with Some l => l | None => [] end in
                    Done (Ok (mkfn (sdict_set ns (old ++ [i]) (fn_insts s)) (fn_parents s) (add_to same_pair (n, id) (fn_seen s)) kept))
              | None => Done (Ok s)
              end
        end
  end.

Fixpoint collect (fuel : nat) (e : renv) (defs : sdict cdef) (keys : list str) (kend : result unit) (s : found_ns) : run found_ns :=
  match keys with
  | [] => rdo _ <- Done kend; Done (Ok s)
  | key :: keys => rdo s <- collect_key fuel e defs key s; collect fuel e defs keys kend s
  end.

(** wmi_repository.py:4168-4177: the instances of one parent namespace; [join] needs a string. *)
Fixpoint name_instances (hash : str -> str) (parent : str) (l : list inst) (byhash : sdict str) (out : list (inst * str))
  : sdict str * list (inst * str) * result unit :=
  match l with
  | [] => (byhash, out, Ok tt)
  | i :: l =>
      match sdict_get (s2z "Name") (snd i) with
      | Some (VStr s) =>
          let ns := join [92] [parent; s] in
          name_instances hash parent l (sdict_set (hash ns) ns byhash) (out ++ [(i, ns)])
      | _ => (byhash, out, Err TypeError)
      end
  end.

(** wmi_repository.py:4158-4177: one pass over the parent namespaces in the order [l]; an error leaves what
    was appended before. *)
Fixpoint one_pass (hash : str -> str) (insts : sdict (list inst)) (l : list str) (byhash : sdict str) (unresolved : list str) (out : list (inst * str))
  : sdict str * list str * list (inst * str) * result unit :=
  match l with
  | [] => (byhash, unresolved, out, Ok tt)
  | p :: l =>
      match sdict_get p byhash with
      | None | Some [] => one_pass hash insts l byhash (add_to list_eqb p unresolved) out
      | Some parent =>
          let '(byhash, out, r) := name_instances hash parent (match sdict_get p insts with Some l => l | None => [] end) byhash out in
          match r with
          | Err x => (byhash, unresolved, out, Err x)
          | Ok _ => one_pass hash insts l byhash unresolved out
          end
      end
  end.

(** wmi_repository.py:4155-4179: [order] is the order in which the elements of a set come, in each pass. *)
Fixpoint passes (n : nat) (hash : str -> str) (order : nat -> list str -> list str) (insts : sdict (list inst)) (parents : list str)
  (byhash : sdict str) (out : list (inst * str)) : list (inst * str) * result unit :=
  match n with
  | O => (out, Ok tt)
  | S n =>
      let '(byhash, unresolved, out, r) := one_pass hash insts (order n parents) byhash [] out in
      match r with
      | Err x => (out, Err x)
      | Ok _ => passes n hash order insts unresolved byhash out
      end
  end.

(** wmi_repository.py:4150-4153: the names that are known; [common] stands for [_COMMON_NAMESPACES]. *)
Fixpoint known (hash : str -> str) (common : list str) (t : sdict str) : sdict str :=
  match common with [] => t | s :: common => known hash common (sdict_set (hash s) s t) end.

(** wmi_repository.py:4150-4179. *)
Definition resolve_all (hash : str -> str) (order : nat -> list str -> list str) (common : list str) (insts : sdict (list inst)) (parents : list str)
  : list (inst * str) * result unit :=
  passes 5 hash order insts parents (known hash common []) [].

(** wmi_repository.py:4107-4179 [_ReadNamespacesFromObjectRecords]: what is appended to
    [_namespace_instances], and how it ends. *)
Definition object_namespaces (fuel : nat) (e : renv) (order : nat -> list str -> list str) (common : list str) (defs : sdict cdef) (keys : list str)
  (kend : result unit) : gen (inst * str) unit :=
  match collect fuel e defs keys kend (mkfn [] [] [] []) with
  | OutOfFuel => None
  | Done (Err x) => Some ([], Err x)
  | Done (Ok s) => Some (resolve_all (re_hash e) order common (fn_insts s) (fn_parents s))
  end.

(** wmi_repository.py:4219-4232 [GetNamespaces]: [_namespace_instances] before the call; what is yielded, and
    [_namespace_instances] after the call. *)
Definition get_namespaces (fuel : nat) (e : renv) (order : nat -> list str -> list str) (common : list str) (defs : sdict cdef) (keys : list str)
  (kend : result unit) (st : list (inst * str)) : option (list (inst * str) * result unit * list (inst * str)) :=
  match st with
  | _ :: _ => Some (st, Ok tt, st)
  | [] =>
      match object_namespaces fuel e order common defs keys kend with
      | None => None
      | Some (l, Ok tt) => Some (l, Ok tt, l)
      | Some (l, Err x) => Some ([], Err x, l)
      end
  end.

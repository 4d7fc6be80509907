(** Model of the class value data maps of a WMI repository: where the values of the properties of a class
    and of its parent classes are in the value data of an instance.

    [lower] is [str.lower], [hash] is [_GetHashFromString] (the hexadecimal MD5 or SHA-256 of the upper-case
    name). Debug output is not modelled. *)

From Verif Require Import Base CoreModel StrModel DictModel WcdModel.

(** wmi_repository.py:273-298 [PropertyValueDataMap]. *)
Record pmap := mkpm { pm_name : str; pm_type : Z; pm_offset : Z; pm_size : Z; pm_qual : str }.

(** wmi_repository.py:38-73 [ClassValueDataMap]. *)
Record cmap := mkcm { cm_name : str; cm_derivation : list str; cm_dynasty : option str; cm_super : option str; cm_props : sdict pmap; cm_size : Z }.

(** wmi_repository.py:52-64 [_PROPERTY_TYPE_VALUE_DATA_SIZE] and its use in 113-115. *)
Definition type_sizes : list (Z * Z) :=
  [(0x2, 2); (0x3, 4); (0x4, 4); (0x5, 8); (0xb, 2); (0x10, 1); (0x11, 1); (0x12, 2); (0x13, 4); (0x14, 8); (0x15, 8)].

Definition type_size (type : Z) : Z := match dict_get type type_sizes with Some n => n | None => 4 end.

(** The truth value of a qualifier; a floating-point number is false if it is 0 or -0, that is if all its
    bytes but the last are 0 and the last is 0 but for its sign bit. *)
Definition float_zero (d : bytes) : bool :=
  match rev d with
  | [] => false
  | b :: r => forallb (Z.eqb 0) r && ((b =? 0) || (b =? 128))
  end.

Definition truthy (q : option qval) : bool :=
  match q with
  | None | Some QNone => false
  | Some (QBool b) => b
  | Some (QInt z) => negb (z =? 0)
  | Some (QFloat d) => negb (float_zero d)
  | Some (QStr s) => negb (len s =? 0)
  end.

(** [str.partition(":")]: the part before the first colon, or all. *)
Fixpoint before_colon (s : str) : str :=
  match s with [] => [] | c :: r => if c =? 58 then [] else c :: before_colon r end.

(** wmi_repository.py:101-137, the inner loop of [Build]; [big] is largest_property_map, whose offset is
    largest_offset. *)
Fixpoint build_props (lower : str -> str) (l : list (str * prop)) (t : sdict pmap) (big : option pmap)
  : result (sdict pmap * option pmap) :=
  match l with
  | [] => Ok (t, big)
  | (key, p) :: l =>
      let q := sdict_get (s2z "type"%string) (p_quals p) in
      if negb (truthy q) then
        match sdict_get (lower (p_name p)) t with Some _ => build_props lower l t big | None => Err ParseError end
      else
        match q with
        | Some (QStr s) =>
            let low := lower s in
            let m := mkpm (p_name p) (p_type p) (p_offset p) (type_size (p_type p))
              (if existsb (Z.eqb 58) low then before_colon low else low) in
            let big := match big with
              | Some b => if pm_offset b <? p_offset p then Some m else Some b
              | None => Some m
              end in
            build_props lower l (sdict_set (lower key) m t) big
        | _ => Err AttributeError
        end
  end.

(** wmi_repository.py:100-137, the outer loop of [Build]. *)
Fixpoint build_classes (lower : str -> str) (l : list cdef) (t : sdict pmap) (big : option pmap)
  : result (sdict pmap * option pmap) :=
  match l with
  | [] => Ok (t, big)
  | c :: l => do (t, big) <- build_props lower (c_props c) t big; build_classes lower l t big
  end.

(** wmi_repository.py:75-142 [Build]. *)
Definition build (lower : str -> str) (l : list cdef) : result cmap :=
  match rev l with
  | [] => Err IndexError
  | c :: parents =>
      let derivation := map c_name parents in
      do (t, big) <- build_classes lower l [] None;
      Ok (mkcm (c_name c) derivation (nth_error derivation 1) (nth_error derivation 0) t
        (match big with Some m => pm_offset m + pm_size m | None => 0 end))
  end.

(** ** Lookup *)

(** wmi_repository.py:3546-3559 [_GetClassDefinitionByHash] of [_class_definitions_by_hash]. *)
Definition class_by_hash (lower : str -> str) (defs : sdict cdef) (h : str) : option cdef := sdict_get (lower h) defs.

(** wmi_repository.py:3585-3599: the class definitions from [c] on to the base class, in reverse. With no
    definition of a parent class the message of the RuntimeError asks None for its super class. *)
Fixpoint parents (fuel : nat) (lower hash : str -> str) (defs : sdict cdef) (c : cdef) (l : list cdef) : run (list cdef) :=
  match fuel with
  | O => OutOfFuel
  | S fuel =>
      match c_super c with
      | Some (x :: s) =>
          match class_by_hash lower defs (hash (x :: s)) with
          | Some p => parents fuel lower hash defs p (p :: l)
          | None => Done (Err AttributeError)
          end
      | _ => Done (Ok l)
      end
  end.

(** wmi_repository.py:3576-3610, [_GetClassValueMapByHash] with no class value map that is kept. *)
Definition fresh_map (fuel : nat) (lower hash : str -> str) (defs : sdict cdef) (h : str) : run cmap :=
  match class_by_hash lower defs h with
  | None => Done (Err RuntimeError)
  | Some c => rdo l <- parents fuel lower hash defs c [c]; Done (build lower l)
  end.

(** wmi_repository.py:3561-3614 [_GetClassValueMapByHash]; [kept] is [_class_value_data_map_by_hash]. *)
Definition map_by_hash (fuel : nat) (lower hash : str -> str) (defs : sdict cdef) (kept : sdict cmap) (h : str) : run cmap * sdict cmap :=
  match sdict_get (lower h) kept with
  | Some m => (Done (Ok m), kept)
  | None =>
      match fresh_map fuel lower hash defs h with
      | Done (Ok m) => (Done (Ok m), sdict_set (lower h) m kept)
      | r => (r, kept)
      end
  end.

(** Lookups one after the other. *)
Fixpoint lookups (fuel : nat) (lower hash : str -> str) (defs : sdict cdef) (kept : sdict cmap) (l : list str) : list (run cmap) :=
  match l with
  | [] => []
  | h :: l => let (r, kept) := map_by_hash fuel lower hash defs kept h in r :: lookups fuel lower hash defs kept l
  end.

(** The class value data maps of a WMI repository.

    Source: the documentation of ClassValueDataMap and /repo/documentation/WMI repository file
    format.asciidoc, sections "CIM data types" and "Instance block". *)

From Verif Require Import Base BaseFacts CoreModel StrModel DictModel WcdModel WcdSpec WcmModel.

(** The number of bytes of a value in the value data: that of an offset if the value is elsewhere. *)
Inductive value_size : Z -> Z -> Prop :=
| vs_1 t : In t [0x10; 0x11] -> value_size t 1
| vs_2 t : In t [0x2; 0x12; 0xb] -> value_size t 2
| vs_4 t : In t [0x3; 0x13; 0x4] -> value_size t 4
| vs_8 t : In t [0x14; 0x15; 0x5] -> value_size t 8
| vs_offset t : ~ In t [0x10; 0x11; 0x2; 0x12; 0xb; 0x3; 0x13; 0x4; 0x14; 0x15; 0x5] -> value_size t 4.

(** The type qualifier of a property is a text that is not empty. *)
Definition typed (p : prop) (s : str) : Prop := s <> [] /\ sdict_get (s2z "type") (p_quals p) = Some (QStr s).

(** The type qualifier of a property is not there, or has no value, or has an empty or zero value. *)
Definition untyped (p : prop) : Prop :=
  match sdict_get (s2z "type") (p_quals p) with
  | None | Some QNone | Some (QBool false) | Some (QInt 0) | Some (QStr []) => True
  | Some (QFloat d) => exists n b, d = repeat 0 n ++ [b] /\ (b = 0 \/ b = 128)
  | _ => False
  end.

(** The type: what is before a colon. *)
Definition type_name (low t : str) : Prop := ~ In 58 t /\ (low = t \/ exists r, low = t ++ 58 :: r).

Definition mapped (lower : str -> str) (p : prop) (m : pmap) : Prop :=
  pm_name m = p_name p /\ pm_type m = p_type p /\ pm_offset m = p_offset p /\ value_size (p_type p) (pm_size m) /\
  exists s, typed p s /\ type_name (lower s) (pm_qual m).

(** What a sequence of properties assigns: a property without type must be one that is there [before]. *)
Inductive declares (lower : str -> str) : list str -> list (str * prop) -> list (str * pmap) -> Prop :=
| dc_end before : declares lower before [] []
| dc_typed before k p m l out : mapped lower p m -> declares lower (lower k :: before) l out ->
    declares lower before ((k, p) :: l) ((lower k, m) :: out)
| dc_untyped before k p l out : untyped p -> In (lower (p_name p)) before -> declares lower before l out ->
    declares lower before ((k, p) :: l) out.

(** The end of the first property with the largest offset. *)
Inductive ends_at (l : list pmap) : Z -> Prop :=
| ea_none : l = [] -> ends_at l 0
| ea_last before m after : l = before ++ m :: after -> Forall (fun x => pm_offset x < pm_offset m) before ->
    Forall (fun x => pm_offset x <= pm_offset m) after -> ends_at l (pm_offset m + pm_size m).

(** The class map of a class with its parent classes, the base class first. *)
Definition map_of (lower : str -> str) (classes : list cdef) (m : cmap) : Prop :=
  exists ancestors c out, classes = ancestors ++ [c] /\
    cm_name m = c_name c /\ cm_derivation m = rev (map c_name ancestors) /\
    match cm_derivation m with
    | [] => cm_super m = None /\ cm_dynasty m = None
    | [a] => cm_super m = Some a /\ cm_dynasty m = None
    | a :: b :: _ => cm_super m = Some a /\ cm_dynasty m = Some b
    end /\
    declares lower [] (concat (map c_props classes)) out /\ assigned out (cm_props m) /\ ends_at (map snd out) (cm_size m).

(** A class with all its parent classes, the base class first. *)
Inductive lineage (lower hash : str -> str) (defs : sdict cdef) : cdef -> list cdef -> Prop :=
| ln_base c : c_super c = None \/ c_super c = Some [] -> lineage lower hash defs c [c]
| ln_child c s p l : c_super c = Some s -> s <> [] -> sdict_get (lower (hash s)) defs = Some p -> lineage lower hash defs p l ->
    lineage lower hash defs c (l ++ [c]).

(** A class one of whose parent classes is not there. *)
Inductive orphan (lower hash : str -> str) (defs : sdict cdef) : cdef -> Prop :=
| or_here c s : c_super c = Some s -> s <> [] -> sdict_get (lower (hash s)) defs = None -> orphan lower hash defs c
| or_up c s p : c_super c = Some s -> s <> [] -> sdict_get (lower (hash s)) defs = Some p -> orphan lower hash defs p -> orphan lower hash defs c.

(** Model of the output of the WMI repository script.

    Source: /repo/scripts/wmi_repository.py. What the repository yields is the input, a generator as in TvModel; the readers are those
    of WmiModel, WchModel and WrpModel. [str] of a list of strings is a parameter. Simplified: the output mode debug, which prints
    nothing of its own, is not part of the model. *)

From Verif Require Import Base StrModel DictModel TvModel WcmModel WciModel WchModel LdsModel KcsModel.
From Coq Require String.
Import String.StringSyntax.

(** [a <= b] of strings: by their code points. *)
Fixpoint str_le (a b : str) : bool :=
  match a, b with
  | [], _ => true
  | _ :: _, [] => false
  | x :: a, y :: b => (x <? y) || ((x =? y) && str_le a b)
  end.

(** [sorted] by the strings [key], which keeps the order of elements with the same string. *)
Fixpoint sort_into {A} (key : A -> str) (x : A) (l : list A) : list A :=
  match l with
  | [] => [x]
  | y :: r => if str_le (key x) (key y) then x :: l else y :: sort_into key x r
  end.
Definition sorted_by {A} (key : A -> str) (l : list A) : list A := fold_right (sort_into key) [] l.

(** [if value]. *)
Definition value_true (v : pval) : bool :=
  match v with VNone => false | VBool b => b | VNum z => negb (z =? 0) | VStr s => negb (len s =? 0) | VStrs l => negb (len l =? 0) end.

(** [f"{value!s}"]. *)
Definition value_shown (strs : list str -> str) (v : pval) : str :=
  match v with
  | VNone => s2z "None"
  | VBool b => if b then s2z "True" else s2z "False"
  | VNum z => fmt_d z
  | VStr s => s
  | VStrs l => strs l
  end.

(** [f"{value:s}"]: for numbers this is an unknown format code, a ValueError; lists and None have no formats, a TypeError. *)
Definition value_format (v : pval) : result str :=
  match v with VStr s => Ok s | VBool _ | VNum _ => Err ValueError | VNone | VStrs _ => Err TypeError end.

(** scripts/wmi_repository.py:19-28. *)
Definition relpath (i : inst) : result str :=
  match sdict_get (s2z "Name") (snd i) with
  | Some v => if value_true v then do s <- value_format v; Ok (cm_name (fst i) ++ s2z ".Name=""" ++ s ++ [34]) else Ok (cm_name (fst i) ++ s2z "=@")
  | None => Ok (cm_name (fst i) ++ s2z "=@")
  end.

Definition or_empty (s : option str) : str := match s with Some s => s | None => [] end.

(** scripts/wmi_repository.py:35-54. [sorted] compares names only, since they are different. *)
Definition instance_pairs (strs : list str -> str) (namespace : option str) (i : inst) (path : str) : list (str * str) :=
  let m := fst i in
  let namespace := match namespace with Some (x :: s) => x :: s | _ => s2z "ROOT" end in
  [(s2z "__GENUS", s2z "2"); (s2z "__CLASS", cm_name m); (s2z "__SUPERCLASS", or_empty (cm_super m)); (s2z "__DYNASTY", or_empty (cm_dynasty m));
   (s2z "__RELPATH", path); (s2z "__PROPERTY_COUNT", fmt_d (len (snd i)));
   (s2z "__DERIVATION", s2z "{" ++ join (s2z ", ") (cm_derivation m) ++ s2z "}"); (s2z "__SERVER", s2z ".");
   (s2z "__NAMESPACE", namespace); (s2z "__PATH", s2z "\\.\" ++ namespace ++ s2z ":" ++ path)] ++
  map (fun p => (fst p, match snd p with VNone => [] | v => value_shown strs v end)) (sorted_by fst (snd i)).

(** scripts/wmi_repository.py:56. *)
Definition largest (l : list (str * str)) : Z := fold_right (fun p n => Z.max (len (fst p)) n) 0 l.

(** scripts/wmi_repository.py:58-60. *)
Definition pair_line (width : Z) (p : str * str) : str :=
  fst p ++ repeat 32 (Z.to_nat (width - len (fst p))) ++ s2z " : " ++ snd p ++ [10].

(** scripts/wmi_repository.py:13-62 [PrintInstance]. *)
Definition print_instance (strs : list str -> str) (namespace : option str) (i : inst) : output :=
  match relpath i with
  | Err e => ([], Err e)
  | Ok path => let l := instance_pairs strs namespace i path in printed (concat (map (pair_line (largest l)) l) ++ [10])
  end.

(** A loop over what a generator yields. *)
Definition print_gen {A} (f : A -> output) (g : gen A unit) : option output :=
  match g with
  | None => None
  | Some (l, r) => Some (then_print (print_all f l) ([], r))
  end.

(** scripts/wmi_repository.py:152-154: instances of a repository file may be None, which has no properties; the namespace of an
    instance is not set by [GetInstances]. *)
Definition instances_mode (strs : list str -> str) (g : gen (option inst) unit) : option output :=
  print_gen (fun i => match i with Some i => print_instance strs None i | None => ([], Err AttributeError) end) g.

(** scripts/wmi_repository.py:148-150. *)
Definition index_mode (g : gen str unit) : option output := print_gen (fun key => printed (key ++ [10])) g.

(** scripts/wmi_repository.py:65-71 and 156-160: [sorted] reads all namespaces first. *)
Definition namespaces_mode (g : gen (inst * str) unit) : option output :=
  match g with
  | None => None
  | Some (l, Err e) => Some ([], Err e)
  | Some (l, Ok _) => Some (print_all (fun p => printed (snd p ++ [10])) (sorted_by snd l))
  end.

(** What the WMI repository script is to show. *)

From Coq Require Import Permutation Sorted.
From Verif Require Import Base StrModel DictModel WcmModel WciModel WchModel.
From Coq Require String.
Import String.StringSyntax.

(** The order of strings: [a] is the start of [b], or at the first difference the character of [a] is less. *)
Definition before (a b : str) : Prop :=
  (exists s, b = a ++ s) \/ exists p x y s t, a = p ++ x :: s /\ b = p ++ y :: t /\ x < y.

(** A line of a name and a value, with the colon at column [w + 1]. *)
Definition in_column (w : Z) (p : str * str) (line : str) : Prop :=
  exists k, len (fst p) + Z.of_nat k = w /\ line = fst p ++ repeat 32 k ++ s2z " : " ++ snd p ++ [10].

(** Values that count as no name. *)
Definition no_name (v : pval) : Prop := v = VNone \/ v = VBool false \/ v = VNum 0 \/ v = VStr [] \/ v = VStrs [].

(** The relative path of an instance: of its class, with its name if it has one. *)
Inductive path_of (i : inst) : str -> Prop :=
| path_named : forall s, s <> [] -> In (s2z "Name", VStr s) (snd i) -> path_of i (cm_name (fst i) ++ s2z ".Name=" ++ [34] ++ s ++ [34])
| path_single : (forall v, In (s2z "Name", v) (snd i) -> no_name v) -> path_of i (cm_name (fst i) ++ s2z "=@").

(** The text of a value; [strs] is that of a list. *)
Inductive shows (strs : list str -> str) : pval -> str -> Prop :=
| shows_none : shows strs VNone []
| shows_true : shows strs (VBool true) (s2z "True")
| shows_false : shows strs (VBool false) (s2z "False")
| shows_num : forall z, shows strs (VNum z) (fmt_d z)
| shows_str : forall s, shows strs (VStr s) s
| shows_strs : forall l, shows strs (VStrs l) (strs l).

Definition text_of (s : option str) (t : str) : Prop := s = Some t \/ s = None /\ t = [].

(** The names and values that are shown of an instance of the namespace [ns] with the path [path]: ten about the instance, and its
    properties. *)
Definition pairs_of (strs : list str -> str) (ns : str) (i : inst) (path : str) (pairs : list (str * str)) : Prop :=
  exists super dynasty props texts,
    text_of (cm_super (fst i)) super /\ text_of (cm_dynasty (fst i)) dynasty /\
    Permutation props (snd i) /\ StronglySorted before (map fst props) /\ Forall2 (shows strs) (map snd props) texts /\
    pairs = combine (map s2z ["__GENUS"; "__CLASS"; "__SUPERCLASS"; "__DYNASTY"; "__RELPATH"; "__PROPERTY_COUNT"; "__DERIVATION"; "__SERVER";
                              "__NAMESPACE"; "__PATH"]%string ++ map fst props)
              ([s2z "2"; cm_name (fst i); super; dynasty; path; fmt_d (len (snd i)); s2z "{" ++ join (s2z ", ") (cm_derivation (fst i)) ++ s2z "}";
                s2z "."; ns; s2z "\\.\" ++ ns ++ s2z ":" ++ path] ++ texts).

(** A text of lines of these pairs, as wide as the longest name, and an empty line. *)
Definition shown_pairs (pairs : list (str * str)) (text : str) : Prop :=
  exists w lines, (forall p, In p pairs -> len (fst p) <= w) /\ (exists p, In p pairs /\ len (fst p) = w) /\
    Forall2 (in_column w) pairs lines /\ text = concat lines ++ [10].

(** Names that do not end with a space, and texts of one line. *)
Definition plain (p : str * str) : Prop := ~ In 10 (fst p) /\ ~ In 10 (snd p) /\ forall s, fst p <> s ++ [32].

(** An instance all of whose names and values are texts of one line, and whose properties have names that do not end with a space. *)
Definition plain_instance (strs : list str -> str) (i : inst) : Prop :=
  ~ In 10 (cm_name (fst i)) /\ (forall s, cm_super (fst i) = Some s -> ~ In 10 s) /\ (forall s, cm_dynasty (fst i) = Some s -> ~ In 10 s) /\
  (forall s, In s (cm_derivation (fst i)) -> ~ In 10 s) /\
  forall name v t, In (name, v) (snd i) -> shows strs v t -> plain (name, t).

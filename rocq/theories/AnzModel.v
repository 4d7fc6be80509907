(** Model of the text of the script that analyzes a data format.

    Source: /repo/scripts/analyzer.py; the text of attributes is that of TextModel. The data type definitions and the values that dtFabric
    makes of the file are the input; [capitalize] is [str.capitalize]. Simplified: a value is of the type of its member, so that a format
    callback fails only where it is chosen by the name of the member; other mismatches are OtherError. *)

From Verif Require Import Base CoreModel StrModel DictModel TextModel LdsModel KcsModel.
From Coq Require String.
Import String.StringSyntax.

(** The kinds of data type definitions; [IOther] are structures, groups of structures, characters, booleans and others. *)
Inductive indicator := IFloat | IInt | ISeq | IStream | IString | IUuid | IOther.
Record member := mkmember { m_name : str; m_type : indicator }.

(** A value; floating-point numbers and UUIDs are given by their texts, an object by the name of its class and its attributes. *)
Inductive value := VFloat (s : str) | VInt (z : Z) | VSeq (l : list value) | VData (b : bytes) | VText (s : str) | VUuid (s : str)
  | VObject (class : str) (l : list (str * value)).

Inductive callback := CbFloat | CbDecimal | CbHex8 | CbSequence | CbData | CbString | CbUuid.

(** scripts/analyzer.py:16-23 [_VALUE_FORMAT_CALLBACKS]. *)
Definition callback_of (t : indicator) : option callback :=
  match t with
  | IFloat => Some CbFloat
  | IInt => Some CbDecimal
  | ISeq => Some CbSequence
  | IStream => Some CbData
  | IString => Some CbString
  | IUuid => Some CbUuid
  | IOther => None
  end.

(** [s.endswith(suffix)]. *)
Definition has_suffix (suffix s : str) : bool := starts_with (rev suffix) (rev s).

(** [s.replace("_", " ")]. *)
Definition spaced (s : str) : str := map (fun c => if c =? 95 then 32 else c) s.

(** [value.__class__.__name__]. *)
Definition class_name (v : value) : str :=
  match v with
  | VFloat _ => s2z "float"
  | VInt _ => s2z "int"
  | VSeq _ => s2z "tuple"
  | VData _ => s2z "bytes"
  | VText _ => s2z "str"
  | VUuid _ => s2z "UUID"
  | VObject c _ => c
  end.

(** [getattr(structure_object, name, None)]. *)
Definition attribute (name : str) (v : value) : option value := match v with VObject _ l => sdict_get name l | _ => None end.

Section analyzer.
Context (capitalize : str -> str) (members : str -> list member).

Definition info : Type := list (str * str * callback).

(** scripts/analyzer.py:70-96 [_DetermineDebugInfo]. *)
Definition debug_info (l : list member) : info :=
  flat_map (fun m =>
    match (if has_suffix (s2z "checksum") (m_name m) || has_suffix (s2z "offset") (m_name m) then Some CbHex8 else callback_of (m_type m)) with
    | Some c => [(m_name m, capitalize (spaced (m_name m)), c)]
    | None => []
    end) l.

(** data_format.py:160-227, 295-317, 366-376, 478-487 and 540-549 on a value. *)
Definition format_simple (c : callback) (v : value) : result cres :=
  match c, v with
  | CbFloat, VFloat s => Ok (CTuple (DStr s) false)
  | CbDecimal, VInt z => Ok (CTuple (DStr (fmt_d z)) false)
  | CbHex8, VInt z => Ok (CTuple (DStr ([48; 120] ++ fmt_x 8 z)) false)
  | CbHex8, (VFloat _ | VText _) => Err ValueError
  | CbHex8, _ => Err TypeError
  | CbData, VData b => let (s, n) := format_hexdump b in Ok (CTuple (DStr s) n)
  | CbString, VText s => Ok (CPlain (DStr (format_string s)))
  | CbUuid, VUuid s => Ok (CPlain (DStr s))
  | _, _ => Err OtherError
  end.

(** [_debug_info_per_data_type]. *)
Definition cache : Type := sdict info.

(** scripts/analyzer.py:98-120 [_FormatSequence]: the elements of a sequence from the number [i] on; [f] formats an element. *)
Fixpoint elements (f : cache -> value -> run (str * cache)) (i : Z) (l : list value) (k : cache) : run (str * cache) :=
  match l with
  | [] => Done (Ok ([], k))
  | v :: l =>
      rdo (t, k) <- f k v;
      rdo (s, k) <- elements f (i + 1) l k;
      Done (Ok (s2z "Entry: " ++ fmt_d i ++ [10] ++ t ++ s, k))
  end.

(** A format callback on a value. *)
Definition format_with (f : cache -> value -> run (str * cache)) (c : callback) (v : value) (k : cache) : run (cres * cache) :=
  match c, v with
  | CbSequence, VSeq l => rdo (s, k) <- elements f 0 l k; Done (Ok (CPlain (DStr ([10] ++ s)), k))
  | c, v => rdo r <- Done (format_simple c v); Done (Ok (r, k))
  end.

(** data_format.py:501-533. *)
Fixpoint attributes (f : cache -> value -> run (str * cache)) (v : value) (l : info) (k : cache) : run (list str * cache) :=
  match l with
  | [] => Done (Ok ([], k))
  | (name, description, c) :: l =>
      match attribute name v with
      | None => attributes f v l k
      | Some x =>
          rdo (r, k) <- format_with f c x k;
          rdo t <- Done (format_attribute (Some description) (Some (fun _ => r)) (DObj []));
          rdo (ts, k) <- attributes f v l k;
          Done (Ok (t :: ts, k))
      end
  end.

(** data_format.py:535-538. *)
Definition closed (lines : list str) : str :=
  concat (if match rev lines with [] => true | t :: _ => match t with [] => true | _ => negb (ends_blank t) end end then lines ++ [[10]] else lines).

(** scripts/analyzer.py:134-137: an empty list is determined again. *)
Definition known_info (name : str) (k : cache) : info * cache :=
  match sdict_get name k with
  | Some (x :: l) => (x :: l, k)
  | _ => (debug_info (members name), sdict_set name (debug_info (members name)) k)
  end.

(** scripts/analyzer.py:122-139 [_FormatDataTypeMap]; [fuel] bounds the depth. *)
Fixpoint format_map (fuel : nat) (k : cache) (name : str) (v : value) : run (str * cache) :=
  match fuel with
  | O => OutOfFuel
  | S fuel =>
      let (l, k) := known_info name k in
      rdo (lines, k) <- attributes (fun k x => format_map fuel k (class_name x) x) v l k;
      Done (Ok (closed lines, k))
  end.

(** scripts/analyzer.py:35-68 [_AnalyzeDataTypeMap] of structures with these names; each comes with the text that reading it writes
    (data_format.py:671-743) and the structure or the error. *)
Fixpoint analyze (fuel : nat) (k : cache) (l : list (str * (str * result value))) : option output :=
  match l with
  | [] => Some (printed [])
  | (name, (d, Err e)) :: _ => Some (d, Err e)
  | (name, (d, Ok v)) :: l =>
      match format_map fuel k name v with
      | OutOfFuel => None
      | Done (Err e) => Some (d, Err e)
      | Done (Ok (t, k)) => match analyze fuel k l with Some o => Some (then_print (printed (d ++ t)) o) | None => None end
      end
  end.

(** scripts/analyzer.py:149-163 [ReadFileObject]. *)
Definition analyzer_script (fuel : nat) (read : Z -> str -> str * result value) : option output :=
  analyze fuel [] (map (fun p => (snd p, read (fst p) (snd p)))
    [(0, s2z "file_information"); (65536, s2z "header"); (131072, s2z "header"); (196608, s2z "region_table"); (262144, s2z "region_table")]).

End analyzer.

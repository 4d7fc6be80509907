(** Model of the reading of Windows AMCache files with debug output: dtformats/amcache.py.

    The Windows Registry file is what pyregf makes of it: a tree of keys. Simplified: [get_sub_key_by_path]
    finds the first sub key whose name is the same in lower case; names of keys and values are strings, not
    None; how a value is printed (data_format.py:90-158) is not modelled, only which. *)

From Verif Require Import Base CoreModel StrModel DictModel.
From Coq Require String.
Import String.StringSyntax.

Record value := mkvalue { v_name : str; v_type : Z; v_data : bytes }.
Inductive key := Key (name : str) (values : list value) (subs : list key).
Definition k_name (k : key) : str := let (n, _, _) := k in n.
Definition k_values (k : key) : list value := let (_, v, _) := k in v.
Definition k_subs (k : key) : list key := let (_, _, s) := k in s.

(** The data of a value in Python. *)
Inductive data := DStr (s : str) | DInt (n : Z) | DList (l : list str) | DBytes (d : bytes).

(** What pyregf does, [str.lower], and [int(s, 16)]. *)
Record regf := mkregf {
  g_string : value -> result str; g_integer : value -> result Z; g_multi : value -> result (list str); g_bytes : value -> result bytes; g_lower : str -> str; g_int16 : str -> option Z }.

(** What is printed: a text, a value, or a value that is a time. *)
Inductive ev := EText (s : str) | EValue (description : str) (d : data) | EPosix (description : str) (d : data) | EFiletime (description : str) (d : data).

(** What is printed until an exception, if there is one. *)
Definition out : Type := list ev * result unit.
Definition emit (l : list ev) : out := (l, Ok tt).
Definition fail (e : exn) : out := ([], Err e).
Definition andthen (a b : out) : out :=
  match a with (l, Ok _) => let (l', r) := b in (l ++ l', r) | (l, Err e) => (l, Err e) end.
Definition each {A} (f : A -> out) (l : list A) : out := fold_right (fun x r => andthen (f x) r) (emit []) l.

Section Read.
Variable g : regf.

(** amcache.py:57-90 [_GetValueDataAsObject]. *)
Definition get_data (v : value) : result data :=
  let r := if existsb (Z.eqb (v_type v)) [1; 2; 6] then do s <- g_string g v; Ok (DStr s)
           else if existsb (Z.eqb (v_type v)) [4; 5; 11] then do n <- g_integer g v; Ok (DInt n)
           else if v_type v =? 7 then do l <- g_multi g v; Ok (DList l)
           else do b <- g_bytes g v; Ok (DBytes b) in
  match r with Err OSError | Err OverflowError => Err ParseError | r => r end.

Definition with_data (v : value) (f : data -> out) : out :=
  match get_data v with Ok d => f d | Err e => fail e end.

(** [descriptions.get(name, name)]. *)
Definition describe (t : sdict str) (v : value) : str := match sdict_get (v_name v) t with Some s => s | None => v_name v end.

Definition S2 (p : String.string * String.string) : str * str := (s2z (fst p), s2z (snd p)).

(** amcache.py:12-47. *)
Definition application_names : sdict str := map S2 [("ProgramId", "Program identifier"); ("ProgramInstanceId", "Program instance identifier")]%string.
Definition reference_names : sdict str := map S2
  [("0", "Product name"); ("1", "Company name"); ("3", "Language code"); ("5", "File version"); ("6", "File size"); ("7", "PE/COFF image size"); ("9", "PE/COFF checksum"); ("c", "File description");
   ("d", "PE/COFF image version"); ("f", "PE/COFF compilation time"); ("11", "File modification time"); ("12", "File creation time"); ("15", "Path"); ("100", "Program identifier"); ("101", "SHA-1")]%string.
Definition program_names : sdict str := map S2
  [("0", "Name"); ("1", "Version"); ("2", "Publisher"); ("3", "Language code"); ("6", "Installation method"); ("7", "Uninstallation key paths"); ("a", "Installation time"); ("b", "Uninstallation time");
   ("d", "Installation directories"); ("Files", "File reference key identifiers")]%string.

Definition named (v : value) (l : list String.string) : bool := existsb (fun s => list_eqb (v_name v) (s2z s)) l.

Definition title (s : String.string) (k : key) : list ev := [EText (s2z s ++ k_name k ++ [10])].

(** amcache.py:92-111 [_ReadApplicationFileKey], 113-130 [_ReadApplicationKey]. *)
Definition plain_key (s : String.string) (t : sdict str) (k : key) : out :=
  andthen (emit (title s k)) (andthen (each (fun v => with_data v (fun d => emit [EValue (describe t v) d])) (k_values k)) (emit [EText [10]])).
Definition application_file_key : key -> out := plain_key "Application File: " [].
Definition application_key : key -> out := plain_key "Application: " application_names.

(** The part of a name before and behind the first 0000. *)
Fixpoint cut (s : str) : option (str * str) :=
  if starts_with [48; 48; 48; 48] s then Some ([], skipn 4 s)
  else match s with [] => None | c :: r => match cut r with Some (a, b) => Some (c :: a, b) | None => None end end.

(** amcache.py:148-162: the text of the file reference. [split] with one or more than two parts is an error
    of the assignment. *)
Definition reference_title (k : key) : result (list ev) :=
  match cut (k_name k) with
  | None => Ok (title "File: " k)
  | Some (a, b) =>
      match cut b with
      | Some _ => Err ValueError
      | None =>
          match g_int16 g b, g_int16 g a with
          | Some entry, Some sequence => Ok [EText (s2z "File: "%string ++ k_name k ++ s2z " ("%string ++ fmt_d entry ++ [45] ++ fmt_d sequence ++ [41; 10])]
          | _, _ => Err ValueError
          end
      end
  end.

(** amcache.py:164-180: a value of a file reference key. *)
Definition reference_value (v : value) (d : data) : out :=
  let text := describe reference_names v in
  let shown d :=
    if named v ["f"]%string then emit [EPosix text d]
    else if named v ["11"; "12"; "17"]%string then emit [EFiletime text d]
    else emit [EValue text d] in
  if named v ["d"]%string then
    match d with
    | DInt n => shown (DStr (fmt_d (Z.shiftr n 16) ++ [46] ++ fmt_d (Z.land n 0xffff)))
    | _ => fail TypeError
    end
  else shown d.

(** amcache.py:142-182 [_ReadFileReferenceKey]. *)
Definition reference_key (k : key) : out :=
  match reference_title k with
  | Err e => fail e
  | Ok l => andthen (emit l) (andthen (each (fun v => with_data v (reference_value v)) (k_values k)) (emit [EText [10]]))
  end.

(** amcache.py:132-140 [_ReadFileKey]. *)
Definition file_key (k : key) : out := each (fun volume => each reference_key (k_subs volume)) (k_subs k).

(** [for x in d]. *)
Definition parts (d : data) : result (list data) :=
  match d with
  | DList l => Ok (map DStr l)
  | DStr s => Ok (map (fun c => DStr [c]) s)
  | DBytes b => Ok (map DInt b)
  | DInt _ => Err TypeError
  end.

(** amcache.py:215-220: the description is shown with the first part only. *)
Definition part_events (text : str) (l : list data) : list ev :=
  match l with [] => [] | d :: l => EValue text d :: map (EValue []) l end.

(** amcache.py:211-223: a value of a program key. *)
Definition program_value (v : value) (d : data) : out :=
  let text := describe program_names v in
  if named v ["7"; "d"; "Files"]%string then match parts d with Ok l => emit (part_events text l) | Err e => fail e end
  else if named v ["a"; "b"]%string then emit [EPosix text d]
  else emit [EValue text d].

(** amcache.py:202-226 [_ReadProgramKey]. *)
Definition program_key (k : key) : out :=
  andthen (emit (title "Program: " k)) (andthen (each (fun v => with_data v (program_value v)) (k_values k)) (emit [EText [10]])).

(** pyregf [get_sub_key_by_path] of one name. *)
Definition sub_key (k : key) (name : String.string) : option key := find (fun s => list_eqb (g_lower g (k_name s)) (g_lower g (s2z name))) (k_subs k).

(** amcache.py:184-200, 228-235: all sub keys of one of the keys. *)
Definition section (root : key) (name : String.string) (f : key -> out) : out :=
  match sub_key root name with Some k => f k | None => emit [] end.

(** amcache.py:49-54. *)
Definition root_names : list str := map s2z ["{11517b7c-e79d-4e20-961b-75a811715add}"; "{356c48f6-2fee-e7ef-2a64-39f59ec3be22}"]%string.

(** amcache.py:237-274 [ReadFileObject], behind [open_file_object]. *)
Definition read_amcache (top : key) : out :=
  if existsb (list_eqb (g_lower g (k_name top))) root_names then
    match sub_key top "Root" with
    | None => emit []
    | Some root =>
        andthen (section root "File" file_key)
          (andthen (section root "Programs" (fun k => each program_key (k_subs k)))
            (andthen (section root "InventoryApplication" (fun k => each application_key (k_subs k)))
              (section root "InventoryApplicationFile" (fun k => each application_file_key (k_subs k)))))
    end
  else emit [].
End Read.

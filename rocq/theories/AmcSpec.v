(** What an AMCache file shows: the values of the keys below Root. *)

From Verif Require Import Base CoreModel StrModel AmcModel.
From Coq Require String.
Import String.StringSyntax.

Definition S (s : String.string) : str := s2z s.

(** The data of a value: strings, integers, lists of strings, or bytes. *)
Definition has_data (g : regf) (v : value) (d : data) : Prop :=
  match d with
  | DStr s => In (v_type v) [1; 2; 6] /\ g_string g v = Ok s
  | DInt n => In (v_type v) [4; 5; 11] /\ g_integer g v = Ok n
  | DList l => v_type v = 7 /\ g_multi g v = Ok l
  | DBytes b => ~ In (v_type v) [1; 2; 4; 5; 6; 7; 11] /\ g_bytes g v = Ok b
  end.

(** Names of values and what they are shown as. *)
Definition application_table : list (String.string * String.string) := [("ProgramId", "Program identifier"); ("ProgramInstanceId", "Program instance identifier")]%string.
Definition reference_table : list (String.string * String.string) :=
  [("0", "Product name"); ("1", "Company name"); ("3", "Language code"); ("5", "File version"); ("6", "File size"); ("7", "PE/COFF image size"); ("9", "PE/COFF checksum"); ("c", "File description");
   ("d", "PE/COFF image version"); ("f", "PE/COFF compilation time"); ("11", "File modification time"); ("12", "File creation time"); ("15", "Path"); ("100", "Program identifier"); ("101", "SHA-1")]%string.
Definition program_table : list (String.string * String.string) :=
  [("0", "Name"); ("1", "Version"); ("2", "Publisher"); ("3", "Language code"); ("6", "Installation method"); ("7", "Uninstallation key paths"); ("a", "Installation time"); ("b", "Uninstallation time");
   ("d", "Installation directories"); ("Files", "File reference key identifiers")]%string.
Definition shown_name (t : list (String.string * String.string)) (v : value) (s : str) : Prop :=
  (exists n d, In (n, d) t /\ v_name v = S n /\ s = S d) \/ ((forall n d, In (n, d) t -> v_name v <> S n) /\ s = v_name v).

Definition is_named (v : value) (l : list String.string) : Prop := In (v_name v) (map S l).

(** The values of applications are shown as they are. *)
Definition value_shown (t : list (String.string * String.string)) (v : value) (d : data) (l : list ev) : Prop := exists s, shown_name t v s /\ l = [EValue s d].

(** The values of files: a version of two numbers of 16 bits, times, and others. *)
Definition reference_shown (v : value) (d : data) (l : list ev) : Prop :=
  exists s, shown_name reference_table v s /\
    ((is_named v ["d"]%string /\ exists n, d = DInt n /\ l = [EValue s (DStr (fmt_d (n / 65536) ++ S "." ++ fmt_d (n mod 65536)))]) \/
     (is_named v ["f"]%string /\ l = [EPosix s d]) \/
     (is_named v ["11"; "12"; "17"]%string /\ l = [EFiletime s d]) \/
     (~ is_named v ["d"; "f"; "11"; "12"; "17"]%string /\ l = [EValue s d])).

(** The parts of the data: one line for each, the description is with the first. *)
Definition data_parts (d : data) (l : list data) : Prop :=
  match d with
  | DList t => l = map DStr t
  | DStr s => l = map (fun c => DStr [c]) s
  | DBytes b => l = map DInt b
  | DInt _ => False
  end.
Inductive lines_shown : str -> list data -> list ev -> Prop :=
| ls_nil s : lines_shown s [] []
| ls_cons s d ds l : lines_shown [] ds l -> lines_shown s (d :: ds) (EValue s d :: l).

(** The values of programs. *)
Definition program_shown (v : value) (d : data) (l : list ev) : Prop :=
  exists s, shown_name program_table v s /\
    ((is_named v ["7"; "d"; "Files"]%string /\ exists ds, data_parts d ds /\ lines_shown s ds l) \/
     (is_named v ["a"; "b"]%string /\ l = [EPosix s d]) \/
     (~ is_named v ["7"; "d"; "Files"; "a"; "b"]%string /\ l = [EValue s d])).

(** A key: its title, all its values in their order, and an empty line. *)
Definition block (g : regf) (titled : key -> list ev -> Prop) (shown : value -> data -> list ev -> Prop) (k : key) (l : list ev) : Prop :=
  exists t vs, titled k t /\ Forall2 (fun v e => exists d, has_data g v d /\ shown v d e) (k_values k) vs /\ l = t ++ concat vs ++ [EText [10]].

Definition simple_title (s : String.string) (k : key) (l : list ev) : Prop := l = [EText (S s ++ k_name k ++ [10])].

(** The title of a file: with the numbers before and behind 0000 in its name, if there is one. *)
Definition contains0 (s : str) : Prop := exists a b, s = a ++ S "0000" ++ b.
Definition file_title (g : regf) (k : key) (l : list ev) : Prop :=
  (~ contains0 (k_name k) /\ simple_title "File: " k l) \/
  (exists a b entry sequence, k_name k = a ++ S "0000" ++ b /\ ~ contains0 (a ++ S "000") /\ ~ contains0 b /\ g_int16 g b = Some entry /\ g_int16 g a = Some sequence /\
    l = [EText (S "File: " ++ k_name k ++ S " (" ++ fmt_d entry ++ S "-" ++ fmt_d sequence ++ S ")" ++ [10])]).

(** All sub keys of a key, in their order. *)
Definition all_subs (shown : key -> list ev -> Prop) (k : key) (l : list ev) : Prop := exists ls, Forall2 shown (k_subs k) ls /\ l = concat ls.

(** The first sub key with a name, in upper or lower case. *)
Definition same_name (g : regf) (name : String.string) (k : key) : Prop := g_lower g (k_name k) = g_lower g (S name).
Definition first_sub (g : regf) (k : key) (name : String.string) (o : option key) : Prop :=
  match o with
  | Some s => exists pre post, k_subs k = pre ++ s :: post /\ same_name g name s /\ Forall (fun s => ~ same_name g name s) pre
  | None => Forall (fun s => ~ same_name g name s) (k_subs k)
  end.
Definition section_shown (g : regf) (root : key) (name : String.string) (shown : key -> list ev -> Prop) (l : list ev) : Prop :=
  exists o, first_sub g root name o /\ match o with Some k => shown k l | None => l = [] end.

(** The whole file. *)
Definition known_root (g : regf) (top : key) : Prop :=
  g_lower g (k_name top) = S "{11517b7c-e79d-4e20-961b-75a811715add}" \/ g_lower g (k_name top) = S "{356c48f6-2fee-e7ef-2a64-39f59ec3be22}".
Definition amcache_shown (g : regf) (top : key) (l : list ev) : Prop :=
  (~ known_root g top /\ l = []) \/
  (known_root g top /\ exists o, first_sub g top "Root" o /\
    match o with
    | None => l = []
    | Some root => exists l1 l2 l3 l4, l = l1 ++ l2 ++ l3 ++ l4 /\
        section_shown g root "File" (all_subs (all_subs (block g (file_title g) reference_shown))) l1 /\
        section_shown g root "Programs" (all_subs (block g (simple_title "Program: ") program_shown)) l2 /\
        section_shown g root "InventoryApplication" (all_subs (block g (simple_title "Application: ") (value_shown application_table))) l3 /\
        section_shown g root "InventoryApplicationFile" (all_subs (block g (simple_title "Application File: ") (value_shown []))) l4
    end).

(** A file whose values can be read, whose versions are integers, whose lists are not, and whose file names are as they should be. *)
Definition good_values (g : regf) (ok : value -> data -> Prop) (k : key) : Prop := Forall (fun v => exists d, has_data g v d /\ ok v d) (k_values k).
Definition good_file (g : regf) (k : key) : Prop := (exists l, file_title g k l) /\ good_values g (fun v d => is_named v ["d"]%string -> exists n, d = DInt n) k.
Definition good_program (g : regf) (k : key) : Prop := good_values g (fun v d => is_named v ["7"; "d"; "Files"]%string -> forall n, d <> DInt n) k.
Definition good_section (g : regf) (root : key) (name : String.string) (good : key -> Prop) : Prop := forall k, first_sub g root name (Some k) -> good k.
Definition good_amcache (g : regf) (top : key) : Prop :=
  known_root g top -> forall root, first_sub g top "Root" (Some root) ->
    good_section g root "File" (fun k => Forall (fun volume => Forall (good_file g) (k_subs volume)) (k_subs k)) /\
    good_section g root "Programs" (fun k => Forall (good_program g) (k_subs k)) /\
    good_section g root "InventoryApplication" (fun k => Forall (good_values g (fun _ _ => True)) (k_subs k)) /\
    good_section g root "InventoryApplicationFile" (fun k => Forall (good_values g (fun _ _ => True)) (k_subs k)).

(** Model of the output of the MacOS keychain script.

    Source: /repo/scripts/keychain.py; the reader is that of KcModel. Simplified: a file is its content. Without debug
    output. *)

From Verif Require Import Base CoreModel StrModel CpioModel DictModel LdbModel KcModel LdsModel.
From Coq Require String.
Import String.StringSyntax.

(** scripts/keychain.py:11-21 [ATTRIBUTE_DATA_TYPES]. *)
Definition data_types : dict str :=
  [(0, s2z "String with size"); (1, s2z "Integer 32-bit signed"); (2, s2z "Integer 32-bit unsigned");
   (3, s2z "CSSM_DB_ATTRIBUTE_FORMAT_BIG_NUM"); (4, s2z "Floating-point 64-bit"); (5, s2z "Date and time");
   (6, s2z "Binary data"); (7, s2z "CSSM_DB_ATTRIBUTE_FORMAT_MULTI_UINT32"); (8, s2z "CSSM_DB_ATTRIBUTE_FORMAT_COMPLEX")].

(** Print, then carry on; nothing is printed after an exception. *)
Definition then_print (a b : output) : output :=
  match a with
  | (s, Ok _) => (s ++ fst b, snd b)
  | (s, Err e) => (s, Err e)
  end.

Definition printed (s : str) : output := (s, Ok tt).

Fixpoint print_all {A} (f : A -> output) (l : list A) : output :=
  match l with [] => printed [] | x :: r => then_print (f x) (print_all f r) end.

(** scripts/keychain.py:91-96 and 126-131. *)
Definition table_title (t : ktable) : str :=
  s2z "Table: " ++ kt_name t ++ s2z " (0x" ++ fmt_x 8 (kt_id t) ++ s2z ")" ++ [10].

(** scripts/keychain.py:102-118. Comparing None with an integer is a TypeError, and so is formatting it: the default of
    [get] is formatted for types that have a name, too. *)
Definition column_line (n i : Z) (c : kcol) : output :=
  match kc_id c, kc_type c with
  | KInt id, KInt t =>
      let identifier := if n <=? id then [] else fmt_d id in
      let type := match dict_get t data_types with Some s => s | None => s2z "0x" ++ fmt_x 8 t end in
      let name := match kc_name c with Some (x :: s) => x :: s | _ => s2z "NULL" end in
      printed ([9] ++ fmt_d i ++ [9] ++ identifier ++ [9] ++ name ++ [9] ++ type ++ [10])
  | _, _ => ([], Err TypeError)
  end.

Fixpoint column_lines (n i : Z) (l : list kcol) : output :=
  match l with [] => printed [] | c :: r => then_print (column_line n i c) (column_lines n (i + 1) r) end.

(** scripts/keychain.py:90-120. *)
Definition schema_table (t : ktable) : output :=
  then_print (printed (table_title t ++ [9] ++ s2z "Number of columns:" ++ [9] ++ fmt_d (len (kt_columns t)) ++ [10] ++
                       [9] ++ s2z "Column" ++ [9] ++ s2z "Identifier" ++ [9] ++ s2z "Name" ++ [9] ++ s2z "Type" ++ [10]))
    (then_print (column_lines (len (kt_columns t)) 0 (kt_columns t)) (printed [10])).

(** scripts/keychain.py:137-141. *)
Definition value_text (v : kval) : str :=
  match v with
  | KNone => s2z "NULL"
  | KInt z => fmt_d z
  | KStr s => s
  | KBlob b => [98] ++ bytes_repr b
  end.

(** scripts/keychain.py:135-143. *)
Definition record_line (r : krow) : str := join [9] (map (fun p => value_text (snd p)) r) ++ [10].

(** scripts/keychain.py:133: joining None is a TypeError. *)
Fixpoint all_names (l : list kcol) : option (list str) :=
  match l with
  | [] => Some []
  | c :: r => match kc_name c, all_names r with Some n, Some ns => Some (n :: ns) | _, _ => None end
  end.

(** scripts/keychain.py:125-145. *)
Definition content_table (t : ktable) : output :=
  then_print (printed (table_title t))
    (match all_names (kt_columns t) with
     | None => ([], Err TypeError)
     | Some names => printed (join [9] names ++ [10] ++ concat (map record_line (kt_records t)) ++ [10])
     end).

(** scripts/keychain.py:81-147; [show] is the option --content. *)
Definition keychain_script (show : bool) (content : bytes) : output :=
  match read_keychain content with
  | Err e => ([], Err e)
  | Ok tables =>
      if show then print_all (fun p => content_table (snd p)) tables
      else then_print (printed (s2z "Keychain database file schema:" ++ [10]))
             (then_print (print_all (fun p => schema_table (snd p)) tables) (printed [10]))
  end.

(** Model of the output of the Jump List script.

    Source: /repo/scripts/jump_list.py and /repo/dtformats/output_writers.py. What pylnk, pyfwsi and pyfwps give of a shortcut is
    the input; [filetime] and [fat] are the texts that dfdatetime gives for FILETIME and FAT times, if any, and [keys] is the table
    of property keys. Simplified: the number of extension blocks is that of the list of extension blocks. *)

From Verif Require Import Base StrModel DictModel LdsModel KcsModel.
From Coq Require String.
Import String.StringSyntax.

(** [value.replace("\t", " " * 8)], the length of it. *)
Definition untabbed_len (s : str) : Z := len s + 7 * len (filter (Z.eqb 9) s).

(** output_writers.py:62-72 [WriteValue]; a string times a negative number is empty. *)
Definition write_value (description value : str) : str :=
  description ++ repeat 9 (Z.to_nat (8 - untabbed_len description / 8 + 1)) ++ s2z ": " ++ value ++ [10].

Definition tabs3 : str := [9; 9; 9].
Definition tabs2 : str := [9; 9].

(** [f"{value!s}"] of a string or None. *)
Definition str_or_none (v : option str) : str := match v with Some s => s | None => s2z "None" end.
(** [value or ""]. *)
Definition str_or_empty (v : option str) : str := match v with Some s => s | None => [] end.

(** A line of a value that is shown if it is neither None nor empty. *)
Definition optional_value (description : str) (v : option str) : str :=
  match v with Some (x :: s) => write_value description (x :: s) | _ => [] end.

Section jump_list.
Context (filetime fat : Z -> option str) (keys : sdict str).

(** scripts/jump_list.py:46-63 [_FormatFATDateTimeValue]. *)
Definition fat_text (v : Z) : str :=
  if v =? 0 then s2z "Not set (0)"
  else match fat v with Some (x :: s) => x :: s | _ => s2z "0x" ++ fmt_x 4 v end.

(** scripts/jump_list.py:65-86 [_FormatFiletimeValue]. *)
Definition filetime_text (v : Z) : str :=
  if v =? 0 then s2z "Not set (0)"
  else if v =? 0x7fffffffffffffff then s2z "Never (0x7fffffffffffffff)"
  else match filetime v with Some (x :: s) => (x :: s) ++ s2z " UTC" | _ => s2z "0x" ++ fmt_x 8 v end.

(** A record of a property set. *)
Record prop := mkprop { p_type : Z; p_int : Z; p_str : option str; p_bool : bool; p_guid : str; p_name : option str; p_entry : Z }.

Definition is_in (x : Z) (l : list Z) : bool := existsb (Z.eqb x) l.

(** scripts/jump_list.py:96-119. *)
Definition prop_value (p : prop) : result str :=
  if p_type p =? 0x0001 then Ok (s2z "<VT_NULL>")
  else if is_in (p_type p) [0x0003; 0x0013; 0x0014; 0x0015] then Ok (fmt_d (p_int p))
  else if is_in (p_type p) [0x0008; 0x001e; 0x001f] then Ok (str_or_none (p_str p))
  else if p_type p =? 0x000b then Ok (if p_bool p then s2z "True" else s2z "False")
  else if p_type p =? 0x0040 then Ok (filetime_text (p_int p))
  else if p_type p =? 0x0042 then Ok (s2z "<VT_STREAM>")
  else if p_type p =? 0x0048 then Ok (p_guid p)
  else if Z.land (p_type p) 0xf000 =? 0x1000 then Ok (s2z "<VT_VECTOR>")
  else Err RuntimeError.

(** scripts/jump_list.py:95-135: a record of the set with this identifier. *)
Definition write_prop (identifier : str) (p : prop) : output :=
  match prop_value p with
  | Err e => ([], Err e)
  | Ok v =>
      let entry := match p_name p with Some (x :: s) => x :: s | _ => fmt_d (p_entry p) end in
      let key := s2z "{" ++ identifier ++ s2z "}/" ++ entry in
      let name := match sdict_get key keys with Some s => s | None => s2z "Unknown" end in
      printed (tabs2 ++ s2z "Property: " ++ key ++ s2z " (" ++ name ++ s2z ")" ++ [10] ++
               write_value (tabs3 ++ s2z "Value (0x" ++ fmt_x 4 (p_type p) ++ s2z ")") v)
  end.

(** scripts/jump_list.py:88-135 [_WritePropertyStore]. *)
Definition store := list (str * list prop).
Definition write_store (s : store) : output := print_all (fun t => print_all (write_prop (fst t)) (snd t)) s.

Inductive item_data :=
| ICategory (identifier : Z)
| IPanel (identifier : option str)
| IFile (size time flags : Z) (name : option str)
| INetwork (location description comments : option str)
| IRoot (identifier : option str)
| IUsers (s : store)
| IVolume (name identifier folder : option str)
| IUnknown (class_type : Z).

Inductive extension :=
| EFile (signature creation access : Z) (long_name localized : option str) (reference : option Z)
| EOther (signature : Z).

Record item := mkitem { i_data : item_data; i_delegate : option str; i_extensions : list extension }.

(** scripts/jump_list.py:143-158. *)
Definition item_type (d : item_data) : str :=
  match d with
  | ICategory _ => s2z "Control Panel Category"
  | IPanel _ => s2z "Control Panel Item"
  | IFile _ _ _ _ => s2z "File Entry"
  | INetwork _ _ _ => s2z "Network Location"
  | IRoot _ => s2z "Root Folder"
  | IUsers _ => s2z "Users Property View"
  | IVolume _ _ _ => s2z "Volume"
  | IUnknown c => s2z "Unknown (0x" ++ fmt_x 2 c ++ s2z ")"
  end.

(** scripts/jump_list.py:259-261: the flags are written after 0x08. *)
Definition flags_text (flags : Z) : str := s2z "0x08" ++ fmt_x 8 flags.

(** scripts/jump_list.py:168-187 and 229-307. *)
Definition write_data (d : item_data) : output :=
  match d with
  | ICategory i => printed (write_value (tabs3 ++ s2z "Control panel category identifier") (fmt_d i))
  | IPanel i => printed (write_value (tabs3 ++ s2z "Control panel item identifier") (str_or_none i))
  | IFile size time flags name =>
      printed (write_value (tabs3 ++ s2z "File size") (fmt_d size) ++ write_value (tabs3 ++ s2z "Modification time") (fat_text time) ++
               write_value (tabs3 ++ s2z "File attribute flags") (flags_text flags) ++ write_value (tabs3 ++ s2z "Name") (str_or_none name))
  | INetwork location description comments =>
      printed (write_value (tabs3 ++ s2z "Network location") (str_or_none location) ++
               optional_value (tabs3 ++ s2z "Description") description ++ optional_value (tabs3 ++ s2z "Comments") comments)
  | IRoot i => printed (write_value (tabs3 ++ s2z "Root shell folder identifier") (str_or_none i))
  | IUsers s => write_store s
  | IVolume name identifier folder =>
      printed (optional_value (tabs3 ++ s2z "Volume name") name ++ optional_value (tabs3 ++ s2z "Volume identifier") identifier ++
               optional_value (tabs3 ++ s2z "Volume shell folder identifier") folder)
  | IUnknown _ => printed []
  end.

(** scripts/jump_list.py:216-221. *)
Definition reference_text (r : Z) : str :=
  if 0x1000000000000 <? r then fmt_d (Z.land r 0xffffffffffff) ++ s2z "-" ++ fmt_d (Z.shiftr r 48)
  else s2z "0x" ++ fmt_x 4 r.

(** scripts/jump_list.py:195-223. *)
Definition extension_text (e : extension) : str :=
  match e with
  | EOther signature => write_value (tabs3 ++ s2z "Signature") (s2z "0x" ++ fmt_x 4 signature)
  | EFile signature creation access long_name localized reference =>
      write_value (tabs3 ++ s2z "Signature") (s2z "0x" ++ fmt_x 4 signature) ++
      write_value (tabs3 ++ s2z "Creation time") (fat_text creation) ++ write_value (tabs3 ++ s2z "Access time") (fat_text access) ++
      write_value (tabs3 ++ s2z "Long name") (str_or_none long_name) ++ optional_value (tabs3 ++ s2z "Localized name") localized ++
      match reference with None => [] | Some r => write_value (tabs3 ++ s2z "File reference") (reference_text r) end
  end.

(** Elements with their numbers, from [i] on. *)
Fixpoint numbered {A} (title : str) (f : A -> output) (i : Z) (l : list A) : output :=
  match l with
  | [] => printed []
  | x :: r => then_print (printed (title ++ fmt_d i ++ [10])) (then_print (f x) (numbered title f (i + 1) r))
  end.

(** scripts/jump_list.py:137-227 [_WriteShellItem]. *)
Definition write_item (i : item) : output :=
  then_print (printed (write_value (tabs3 ++ s2z "Item type") (item_type (i_data i)) ++ optional_value (tabs3 ++ s2z "Delegate folder") (i_delegate i)))
    (then_print (write_data (i_data i))
      (then_print (numbered (tabs2 ++ s2z "Extension block: ") (fun e => printed (extension_text e)) 1 (i_extensions i)) (printed [10]))).

(** A data block; [b_string] is the path string or the string, [b_store] the property store of its data, if there is any. *)
Record block := mkblock { b_signature : Z; b_string : option str; b_store : store }.

(** scripts/jump_list.py:32-44 [_LNK_DATA_BLOCK_DESCRIPTIONS]. *)
Definition block_names : dict str :=
  [(0xa0000001, s2z "Environment variables location"); (0xa0000002, s2z "Console properties");
   (0xa0000003, s2z "Distributed link tracker properties"); (0xa0000004, s2z "Console codepage");
   (0xa0000005, s2z "Special folder location"); (0xa0000006, s2z "Darwin properties"); (0xa0000007, s2z "Icon location");
   (0xa0000008, s2z "Shim layer properties"); (0xa0000009, s2z "Metadata property store");
   (0xa000000b, s2z "Known folder location"); (0xa000000c, s2z "Shell item identifiers list")].

(** scripts/jump_list.py:309-337 [_WriteShortcutDataBlock], 427-437 [_WriteShortcutMetadataPropertyStore]. *)
Definition write_block (b : block) : output :=
  let s := b_signature b in
  then_print (printed (write_value (tabs2 ++ s2z "Signature")
      (s2z "0x" ++ fmt_x 8 s ++ match dict_get s block_names with Some d => s2z " (" ++ d ++ s2z ")" | None => [] end)))
    (then_print (if is_in s [0xa0000001; 0xa0000007; 0xa0000006] then printed (write_value (tabs2 ++ s2z "String") (str_or_none (b_string b)))
                 else if s =? 0xa0000009 then write_store (b_store b) else printed [])
      (printed [10])).

(** scripts/jump_list.py:339-366 [_WriteShortcutDataFlags]. *)
Definition flag_lines : list (Z * str) :=
  [(0x00000001, s2z "Contains a link target identifier"); (0x00000004, s2z "Contains a description string");
   (0x00000008, s2z "Contains a relative path string"); (0x00000010, s2z "Contains a working directory string");
   (0x00000020, s2z "Contains a command line arguments string"); (0x00000040, s2z "Contains an icon location string");
   (0x00000200, s2z "Contains an environment variables block"); (0x00004000, s2z "Contains an icon location block");
   (0x00040000, s2z "Contains no distributed link tracking data block")].

Definition flags_lines (flags : Z) : str :=
  concat (map (fun l => if Z.land flags (fst l) =? 0 then [] else tabs2 ++ snd l ++ [10]) flag_lines).

Record lnk := mklnk { l_flags : Z; l_number : Z; l_creation : Z; l_modification : Z; l_access : Z; l_size : Z; l_icon : Z; l_show : Z;
  l_key : Z; l_attributes : Z; l_description : option str; l_path : option str; l_directory : option str; l_location : option str;
  l_items : option (list item); l_blocks : list block }.

(** scripts/jump_list.py:368-403 [_WriteShortcutLinkInformation]. *)
Definition link_text (l : lnk) : str :=
  [9] ++ s2z "Link information:" ++ [10] ++
  write_value (tabs2 ++ s2z "Creation time") (filetime_text (l_creation l)) ++
  write_value (tabs2 ++ s2z "Modification time") (filetime_text (l_modification l)) ++
  write_value (tabs2 ++ s2z "Accesss time") (filetime_text (l_access l)) ++
  write_value (tabs2 ++ s2z "File size") (fmt_d (l_size l)) ++
  write_value (tabs2 ++ s2z "Icon index") (fmt_d (l_icon l)) ++
  write_value (tabs2 ++ s2z "Show Window value") (s2z "0x" ++ fmt_x 8 (l_show l)) ++
  write_value (tabs2 ++ s2z "Hot Key value") (fmt_d (l_key l)) ++
  write_value (tabs2 ++ s2z "File attribute flags") (s2z "0x" ++ fmt_x 8 (l_attributes l)) ++
  write_value (tabs2 ++ s2z "Description") (str_or_empty (l_description l)) ++
  write_value (tabs2 ++ s2z "Relative path") (str_or_empty (l_path l)) ++
  write_value (tabs2 ++ s2z "Working directory") (str_or_empty (l_directory l)) ++
  write_value (tabs2 ++ s2z "Icon location") (str_or_empty (l_location l)) ++ [10].

(** scripts/jump_list.py:405-425 [_WriteShortcutLinkTargetIdentifier]. *)
Definition write_items (l : lnk) : output :=
  match l_items l with
  | None => printed []
  | Some items =>
      then_print (printed ([9] ++ s2z "Link target identifier:" ++ [10] ++ tabs2 ++ s2z "Shell item list:" ++ [10] ++
                           write_value (tabs3 ++ s2z "Number of items") (fmt_d (len items)) ++ [10]))
        (numbered (tabs2 ++ s2z "Shell item: ") write_item 1 items)
  end.

(** scripts/jump_list.py:439-460 [WriteShortcut]. *)
Definition write_shortcut (l : lnk) : output :=
  then_print (printed ([9] ++ s2z "Windows Shortcut information:" ++ [10] ++ flags_lines (l_flags l) ++
                       write_value ([9] ++ s2z "Number of data blocks") (fmt_d (l_number l)) ++ [10] ++ link_text l))
    (then_print (write_items l) (numbered ([9] ++ s2z "Data block: ") write_block 1 (l_blocks l))).

(** scripts/jump_list.py:549-563: the entries of the file. *)
Definition jump_list_script (entries : list lnk) : output :=
  then_print (printed (s2z "Windows Jump List information:" ++ [10] ++ write_value (s2z "Number of entries") (fmt_d (len entries)) ++ [10]))
    (numbered (s2z "Entry: ") write_shortcut 1 entries).

End jump_list.

(** Model of the text rendering of /repo/dtformats/data_format.py, the path helpers
    of file_system.py and the debug definition reader of yaml_definitions_file.py. *)

From Verif Require Import Base StrModel.

(** ** Hexadecimal dump *)

(** data_format.py:45-47 [_HEXDUMP_CHARACTER_MAP]. *)
Definition hexdump_char (b : Z) : Z := if (b <? 32) || (126 <? b) then 46 else b.

(** data_format.py:186-193, [whitespace]. *)
Definition hexdump_whitespace (remaining : Z) : str :=
  if remaining =? 0 then []
  else if 8 <=? remaining then repeat 32 (Z.to_nat (3 * remaining - 1))
  else repeat 32 (Z.to_nat (3 * remaining)).

(** data_format.py:177-200: the byte column of one block. *)
Definition hexdump_column (block : bytes) : str :=
  let values := map (fmt_x 2) block in
  join [32] (pyslice values 0 8) ++ [32; 32] ++ join [32] (pyslice values 8 16)
  ++ hexdump_whitespace (16 - len block).

(** data_format.py:213-222: one line. *)
Definition hexdump_line (block_index : Z) (block : bytes) : str :=
  [48; 120] ++ fmt_x 8 block_index ++ [32; 32] ++ hexdump_column block ++ [32; 32]
  ++ map hexdump_char block.

(** data_format.py:175-224: the loop over [range(0, data_size, 16)]; [indexes] are
    the remaining values of the range. *)
Fixpoint hexdump_loop (data : bytes) (indexes : list Z) (in_group : bool)
  (previous : option str) : list str :=
  match indexes with
  | [] => []
  | i :: rest =>
      let block := pyslice data i (i + 16) in
      let column := hexdump_column block in
      if (match previous with Some p => list_eqb p column | None => false end)
         && (i + 16 <? len data)
      then
        if in_group then hexdump_loop data rest true previous
        else [46; 46; 46] :: hexdump_loop data rest true previous
      else hexdump_line i block :: hexdump_loop data rest false (Some column)
  end.

(** [range(0, n, 16)] *)
Definition range16 (n : Z) : list Z :=
  map (fun k => 16 * Z.of_nat k) (seq 0 (Z.to_nat ((n + 15) / 16))).

(** data_format.py:160-227 [_FormatDataInHexadecimal]. *)
Definition format_hexdump (data : bytes) : str * bool :=
  (join [10] (hexdump_loop data (range16 (len data)) false None ++ [[]; []]), true).

(** ** Integers and addresses *)

(** data_format.py:229-241 *)
Definition format_decimals (l : list Z) : str * bool := (join [44; 32] (map fmt_d l), false).

(** data_format.py:454-463 [_FormatIntegerAsOffset]. *)
Definition format_offset (n : Z) : str := fmt_d n ++ [32; 40; 48; 120] ++ fmt_x 8 n ++ [41].

(** data_format.py:243-256 *)
Definition format_offsets (l : list Z) : str * bool := (join [44; 32] (map format_offset l), false).

(** data_format.py:258-273 *)
Definition format_ipv4 (l : list Z) : option str * bool :=
  (if len l =? 4 then Some (join [46] (map fmt_d l)) else None, false).

(** [zip(l[0::2], l[1::2])] with [octet1 << 8 | octet2]. *)
Fixpoint octet_pairs (l : list Z) : list Z :=
  match l with
  | a :: b :: r => Z.lor (Z.shiftl a 8) b :: octet_pairs r
  | _ => []
  end.

(** data_format.py:275-293 *)
Definition format_ipv6 (l : list Z) : option str * bool :=
  (if len l =? 16 then Some (join [58] (map (fmt_x 4) (octet_pairs l))) else None, false).

(** data_format.py:307-317, 342-376 *)
Definition format_decimal (n : Z) : str * bool := (fmt_d n, false).
Definition format_hex (w n : Z) : str * bool := ([48; 120] ++ fmt_x w n, false).

(** ** Streams and strings *)

(** data_format.py:49-56 [_NON_PRINTABLE_BYTE_VALUES]. *)
Definition non_printable (b : Z) : bool := ((0 <=? b) && (b <? 32)) || ((127 <=? b) && (b <? 255)).

(** data_format.py:465-476 [_FormatStreamAsString]. *)
Definition format_stream (s : bytes) : str :=
  flat_map (fun b => if non_printable b then [92; 120] ++ fmt_x 2 b else [b]) s.

(** data_format.py:478-487 [_FormatString]. *)
Definition format_string (s : str) : str := rstrip 0 s.

(** ** Structures *)

(** A value to print: a [str], or another object given by its [str()]. *)
Inductive dval := DStr (s : str) | DObj (s : str).

(** What a format callback returns: a (value, new line) tuple or a plain value. *)
Inductive cres := CTuple (v : dval) (new_line : bool) | CPlain (v : dval).

Definition dval_str (v : dval) : str := match v with DStr s | DObj s => s end.

(** data_format.py:562: [divmod(len(description), 8)] and the tabs. *)
Definition alignment_string (description : str) : str :=
  repeat 9 (Z.to_nat (8 - len description / 8 + 1)).

(** data_format.py:551-563 [_FormatValue]; [len(None)] raises TypeError. *)
Definition format_value (description : option str) (v : dval) : result str :=
  match description with
  | None => Err TypeError
  | Some d => Ok (d ++ alignment_string d ++ [58; 32] ++ dval_str v ++ [10])
  end.

(** data_format.py:500-530: the text of one present attribute. The callback is the
    resolved [value_format_function], if any. *)
Definition format_attribute (description : option str) (callback : option (dval -> cres)) (v : dval)
  : result str :=
  let res := match callback with Some f => f v | None => CPlain v end in
  let (value, new_line) := match res with CTuple v b => (v, b) | CPlain v => (v, true) end in
  match value with
  | DStr s =>
      if has_char 10 s then
        Ok ((match description with
             | None => []
             | Some d => if new_line : bool then d ++ [58; 10]
                         else d ++ alignment_string d ++ [58; 32]
             end) ++ s)
      else format_value description value
  | DObj _ => format_value description value
  end.

(** One entry of [debug_info] together with the value of the attribute
    ([getattr(structure_object, attribute_name, None)]). *)
Record dattr := mkattr {
  a_description : option str;
  a_callback : option (dval -> cres);
  a_value : option dval }.

Fixpoint format_lines (l : list dattr) : result (list str) :=
  match l with
  | [] => Ok []
  | a :: r =>
      match a_value a with
      | None => format_lines r
      | Some v =>
          do t <- format_attribute (a_description a) (a_callback a) v;
          do ts <- format_lines r;
          Ok (t :: ts)
      end
  end.

(** [s[-2:] != "\n\n"] *)
Definition ends_blank (s : str) : bool := list_eqb (pyslice_from s (-2)) [10; 10].

(** data_format.py:489-538 [_FormatStructureObject]. *)
Definition format_structure (l : list dattr) : result str :=
  do lines <- format_lines l;
  let add := match rev lines with
             | [] => true
             | t :: _ => match t with [] => true | _ => negb (ends_blank t) end
             end in
  Ok (concat (if add then lines ++ [[10]] else lines)).

(** ** Paths *)

(** file_system.py:149-158 [NativeFileSystemHelper.JoinPath]; [os.path.sep] is "/"
    (POSIX). *)
Definition join_path (segments : list str) : str := 47 :: join [47] segments.

(** file_system.py:182-193 [NativeFileSystemHelper.SplitPath]. *)
Definition split_path (path : str) : list str :=
  filter (fun s => match s with [] => false | _ => true end) (split_on 47 path).

(** Python argument binding: a method with one parameter besides [self] called with
    the given positional arguments. *)
Definition call_join_path (args : list (list str)) : result str :=
  match args with
  | [segments] => Ok (join_path segments)
  | _ => Err TypeError
  end.

(** ** Debug definitions *)

(** The values of one attribute mapping. [[]] stands for an absent key or an empty value:
    both are false in a boolean context. Simplified: values that are not strings (which make
    the reader raise AttributeError or TypeError) are not represented. *)
Record yattr := mkyattr { y_name : str; y_description : str; y_format : str }.

(** yaml_definitions_file.py:65-79 [_SUPPORTED_FORMATS]. *)
Definition supported_formats : list str :=
  map s2z ["binary_data"%string; "decimal"%string; "floating_point"%string;
           "hexadecimal"%string; "hexadecimal_2digits"%string; "hexadecimal_4digits"%string;
           "hexadecimal_8digits"%string; "string"%string; "uuid"%string].

Definition custom_prefix : str := s2z "custom:".

Definition str_in (s : str) (l : list str) : bool := existsb (list_eqb s) l.

(** yaml_definitions_file.py:118-157, the loop over the attributes; [seen] are the keys of
    [debug_definition.attributes]. *)
Fixpoint read_attributes (seen : list str) (l : list yattr) : result (list yattr) :=
  match l with
  | [] => Ok []
  | a :: r =>
      if match y_name a with [] => true | _ => false end then Err ParseError
      else if str_in (y_name a) seen then Err ParseError
      else if match y_description a with [] => true | _ => false end then Err ParseError
      else if match y_format a with [] => true | _ => false end then Err ParseError
      else if negb (str_in (y_format a) supported_formats)
              && negb (starts_with custom_prefix (y_format a)) then Err ParseError
      else do r' <- read_attributes (seen ++ [y_name a]) r; Ok (a :: r')
  end.

(** A definition: its keys, the data type map name and the attributes ([[]] when the key
    is absent or the value is empty). *)
Record ydef := mkydef { y_keys : list str; y_map : str; y_attributes : list yattr }.

(** yaml_definitions_file.py:81-159 [_ReadDefinition]. *)
Definition read_definition (d : ydef) : result (str * list yattr) :=
  if match y_keys d with [] => true | _ => false end then Err ParseError
  else if existsb (fun k => negb (str_in k [s2z "attributes"; s2z "data_type_map"])) (y_keys d)
       then Err ParseError
  else if match y_map d with [] => true | _ => false end then Err ParseError
  else if match y_attributes d with [] => true | _ => false end then Err ParseError
  else do l <- read_attributes [] (y_attributes d); Ok (y_map d, l).

Fixpoint assoc_str {A} (k : str) (l : list (str * A)) : option A :=
  match l with
  | [] => None
  | (k', v) :: r => if list_eqb k k' then Some v else assoc_str k r
  end.

(** data_format.py:22-31 [_DEBUG_FORMAT_CALLBACKS]. *)
Definition builtin_callbacks : list (str * str) :=
  map (fun p => (s2z (fst p), s2z (snd p)))
   [("binary_data", "_FormatDataInHexadecimal"); ("decimal", "_FormatIntegerAsDecimal");
    ("floating_point", "_FormatFloatingPoint");
    ("hexadecimal_2digits", "_FormatIntegerAsHexadecimal2");
    ("hexadecimal_4digits", "_FormatIntegerAsHexadecimal4");
    ("hexadecimal_8digits", "_FormatIntegerAsHexadecimal8");
    ("string", "_FormatString"); ("uuid", "_FormatUUIDAsString")]%string.

(** data_format.py:802-813: the callback of an attribute. *)
Definition resolve_callback (custom : list (str * str)) (format : str) : option str :=
  if starts_with custom_prefix format then assoc_str (pyslice_from format 7) custom
  else assoc_str format builtin_callbacks.

(** data_format.py:780-821 [ReadDebugInformationFile] for one definition. *)
Definition debug_information (custom : list (str * str)) (d : ydef)
  : result (str * list (str * str * option str)) :=
  do (m, l) <- read_definition d;
  Ok (m, map (fun a => (y_name a, y_description a, resolve_callback custom (y_format a))) l).

(** Model of the unified logging format strings:
    /repo/dtformats/unified_logging.py:216-496 (FormatStringOperator,
    StringFormatter), 1532-1556 (signed integers), 1868-1898 (strings) and
    1901-1932 (unsigned integers).

    The CPython services used by this code are modelled here too: [str.format]
    with numbered fields and the format specification mini-language for [int]
    and [str] objects (CPython 3.10 and later, Python/formatter_unicode.c,
    parse_internal_render_format_spec, format_long_internal,
    format_string_internal; Objects/stringlib/unicode_format.h, MarkupIterator). *)

From Verif Require Import Base StrModel.

(** ** The operator regular expression (unified_logging.py:357-366)

    Every part of the expression is followed by characters that it cannot itself
    match, except that "0" is both a flag and a digit of the width.  The greedy
    match below therefore is the match of the backtracking engine; FmtProofs.v
    proves that it finds a match whenever any decomposition exists. *)

Definition is_flag (c : Z) : bool := existsb (Z.eqb c) (s2z "-+0 #").
Definition is_dec (c : Z) : bool := (48 <=? c) && (c <=? 57).
Definition is_specifier (c : Z) : bool := existsb (Z.eqb c) (s2z "@aAcCdDeEfFgGimnoOpPsSuUxX").

(** Greedy run of at most [max] characters that satisfy [p]. *)
Fixpoint span_max (p : Z -> bool) (max : nat) (s : str) : str * str :=
  match max, s with
  | S k, c :: r => if p c then let '(a, b) := span_max p k r in (c :: a, b) else ([], s)
  | _, _ => ([], s)
  end.

(** Greedy run without a limit ([+] and [*]). *)
Fixpoint span_while (p : Z -> bool) (s : str) : str * str :=
  match s with
  | c :: r => if p c then let '(a, b) := span_while p r in (c :: a, b) else ([], s)
  | [] => ([], [])
  end.

(** [(?:\{([^\}]{1,128})\})?], line 359. *)
Definition rx_decoder (s : str) : option str * str :=
  match s with
  | c :: r =>
      if c =? 123 then
        let '(d, r2) := span_max (fun x => negb (x =? 125)) 128 r in
        match d, r2 with
        | _ :: _, e :: r3 => if e =? 125 then (Some d, r3) else (None, s)
        | _, _ => (None, s)
        end
      else (None, s)
  | [] => (None, s)
  end.

(** [([0-9]+|[*])?], line 361. *)
Definition rx_width (s : str) : option str * str :=
  match span_while is_dec s with
  | (d :: ds, r) => (Some (d :: ds), r)
  | ([], _) =>
      match s with
      | c :: r => if c =? 42 then (Some [42], r) else (None, s)
      | [] => (None, s)
      end
  end.

(** [(\.(?:|[0-9]+|[*]))?], line 362. *)
Definition rx_precision (s : str) : option str * str :=
  match s with
  | c :: r =>
      if c =? 46 then
        match span_while is_dec r with
        | (d :: ds, r2) => (Some (46 :: d :: ds), r2)
        | ([], _) =>
            match r with
            | e :: r2 => if e =? 42 then (Some [46; 42], r2) else (Some [46], r)
            | [] => (Some [46], r)
            end
        end
      else (None, s)
  | [] => (None, s)
  end.

(** [(?:h|hh|j|l|ll|L|t|q|z)?], line 363. *)
Definition rx_length (s : str) : str :=
  match s with
  | c :: r =>
      if (c =? 104) || (c =? 108) then
        match r with
        | e :: r2 => if e =? c then r2 else r
        | [] => r
        end
      else if existsb (Z.eqb c) (s2z "jLtqz") then r
      else s
  | [] => s
  end.

(** The groups of a match (line 443). *)
Inductive rmatch :=
| MPercent
| MOperator (decoder : option str) (flags : str) (width precision : option str) (specifier : Z).

(** A match at the start of [s] and the text after it. *)
Definition rx_match (s : str) : option (rmatch * str) :=
  match s with
  | c :: r =>
      if c =? 37 then
        let '(dec, r1) := rx_decoder r in
        let '(fl, r2) := span_max is_flag 5 r1 in
        let '(w, r3) := rx_width r2 in
        let '(p, r4) := rx_precision r3 in
        match rx_length r4 with
        | sp :: r5 =>
            if is_specifier sp then Some (MOperator dec fl w p sp, r5)
            else match r with
                 | e :: r' => if e =? 37 then Some (MPercent, r') else None
                 | [] => None
                 end
        | [] => match r with
                | e :: r' => if e =? 37 then Some (MPercent, r') else None
                | [] => None
                end
        end
      else None
  | [] => None
  end.

(** [finditer] (line 442): matches from left to right, the characters in between
    are kept one by one; the source joins them again at lines 445-450 and
    485-492, and escapes them character by character. *)
Inductive piece :=
| PChar (c : Z)
| PMatch (m : rmatch).

Fixpoint rx_pieces (fuel : nat) (s : str) : list piece :=
  match fuel with
  | O => []
  | S k =>
      match s with
      | [] => []
      | c :: r =>
          match rx_match s with
          | Some (m, r') => PMatch m :: rx_pieces k r'
          | None => PChar c :: rx_pieces k r
          end
      end
  end.

(** ** FormatStringOperator (unified_logging.py:216-314) *)

Record operator := {
  op_flags : str;              (* None and the empty string are treated alike, 265 *)
  op_precision : str;          (* likewise, 266 *)
  op_specifier : Z;
  op_width : str               (* likewise, 267 *)
}.

(** unified_logging.py:225-239 *)
Definition python_specifier (c : Z) : Z :=
  if existsb (Z.eqb c) (s2z "@PS") then 115
  else if existsb (Z.eqb c) (s2z "aA") then 102
  else if c =? 67 then 99
  else if existsb (Z.eqb c) (s2z "DimuU") then 100
  else if c =? 79 then 111
  else if c =? 112 then 120
  else c.

(** [flags.replace("-", "<")] *)
Definition replace_minus (f : str) : str := map (fun c => if c =? 45 then 60 else c) f.

Definition is_nil {A} (l : list A) : bool := match l with [] => true | _ => false end.

(** GetPythonFormatString: unified_logging.py:258-314.  The cached value is not
    modelled: the attributes of an operator are not changed after it was created. *)
Definition python_format_string (o : operator) : str :=
  let spec := op_specifier o in
  let psp := python_specifier spec in
  let width := op_width o in
  let flags := if (spec =? 100) && negb (is_nil width) && negb (is_nil (op_precision o))
               then s2z "0" else op_flags o in
  let precision :=
    if spec =? 80 then []
    else if list_eqb (op_precision o) (s2z ".") then s2z ".0"
    else if list_eqb (op_precision o) (s2z ".*") then []
    else op_precision o in
  let '(flags, precision) :=
    if existsb (Z.eqb psp) (s2z "doxX") then (replace_minus flags, [])
    else if psp =? 115 then
      ((if negb (is_nil width) && is_nil flags then s2z ">" else replace_minus flags),
       (if list_eqb precision (s2z ".0") then [] else precision))
    else (flags, precision) in
  let field := s2z "{0:" ++ flags ++ precision ++ width ++ [psp] ++ s2z "}" in
  if spec =? 112 then s2z "0x" ++ field else field.

(** ** StringFormatter (unified_logging.py:317-496) *)

Record formatter := {
  fm_decoders : list (list str);
  fm_string : option str;
  fm_operators : list operator
}.

(** Python [str.strip()] white space. *)
Definition is_space (c : Z) : bool :=
  ((9 <=? c) && (c <=? 13)) || ((28 <=? c) && (c <=? 32)) || (c =? 133) || (c =? 160)
  || (c =? 5760) || ((8192 <=? c) && (c <=? 8202)) || (c =? 8232) || (c =? 8233)
  || (c =? 8239) || (c =? 8287) || (c =? 12288).

Fixpoint lstrip_space (s : str) : str :=
  match s with c :: r => if is_space c then lstrip_space r else s | [] => [] end.
Definition strip (s : str) : str := rev (lstrip_space (rev (lstrip_space s))).

(** unified_logging.py:320-327, 462 *)
Definition ignored_decoder (d : str) : bool :=
  existsb (list_eqb d)
    [[]; s2z "bluetooth:OI_STATUS"; s2z "private"; s2z "public"; s2z "sensitive";
     s2z "xcode:size-in-bytes"]
  || starts_with (s2z "name=") d.

(** unified_logging.py:331-355 *)
Definition internal_decoder (c : Z) : list str :=
  if existsb (Z.eqb c) (s2z "@Ps") then [s2z "internal:s"]
  else if existsb (Z.eqb c) (s2z "aAeEfFgG") then [s2z "internal:f"]
  else if existsb (Z.eqb c) (s2z "coOpuUxX") then [s2z "internal:u"]
  else if existsb (Z.eqb c) (s2z "dDi") then [s2z "internal:i"]
  else if c =? 109 then [s2z "internal:m"]
  else [].

(** unified_logging.py:455-468 *)
Definition decoder_names (decoder : option str) (specifier : Z) : list str :=
  let d := match decoder with Some d => d | None => [] end in
  let names := filter (fun v => negb (ignored_decoder v)) (map strip (split_on 44 d)) in
  match names with [] => internal_decoder specifier | _ => names end.

Definition opt_str (o : option str) : str := match o with Some s => s | None => [] end.

(** unified_logging.py:329, 447-449: braces are doubled. *)
Definition escape_char (c : Z) : str :=
  if (c =? 123) || (c =? 125) then [c; c] else [c].

(** The loop at lines 442-483 with the segments joined: unified_logging.py:438-492. *)
Fixpoint parse_pieces (l : list piece) (i : Z) : str * list (list str) * list operator :=
  match l with
  | [] => ([], [], [])
  | PChar c :: r =>
      let '(s, d, o) := parse_pieces r i in (escape_char c ++ s, d, o)
  | PMatch MPercent :: r =>
      let '(s, d, o) := parse_pieces r i in (37 :: s, d, o)
  | PMatch (MOperator dec fl w p sp) :: r =>
      let '(s, d, o) := parse_pieces r (i + 1) in
      (s2z "{" ++ fmt_d i ++ s2z ":s}" ++ s, decoder_names dec sp :: d,
       {| op_flags := fl; op_precision := opt_str p; op_specifier := sp;
          op_width := opt_str w |} :: o)
  end.

(** [s.replace(cc, c)] for a doubled character. *)
Fixpoint undouble (c : Z) (s : str) : str :=
  match s with
  | a :: r =>
      match r with
      | b :: r' => if (a =? c) && (b =? c) then c :: undouble c r' else a :: undouble c r
      | [] => [a]
      end
  | [] => []
  end.

(** ParseFormatString: unified_logging.py:425-496 *)
Definition parse_format_string (s : str) : formatter :=
  match s with
  | [] => {| fm_decoders := []; fm_string := None; fm_operators := [] |}
  | _ =>
      let '(t, d, o) := parse_pieces (rx_pieces (length s) s) 0 in
      {| fm_decoders := d;
         fm_string := Some (match o with [] => undouble 125 (undouble 123 t) | _ => t end);
         fm_operators := o |}
  end.

(** ** Python format specifications *)

Record pyspec := {
  ps_fill : Z;
  ps_align : option Z;          (* None: the default of the type *)
  ps_sign : option Z;
  ps_alt : bool;
  ps_width : option Z;
  ps_precision : option Z;
  ps_type : option Z
}.

Definition is_align (c : Z) : bool := existsb (Z.eqb c) (s2z "<>=^").

(** get_integer: decimal digits; more than sys.maxsize is a ValueError. *)
Definition max_size : Z := 9223372036854775807.

Fixpoint dec_value (s : str) (acc : Z) : Z :=
  match s with [] => acc | c :: r => dec_value r (acc * 10 + (c - 48)) end.

Definition get_integer (s : str) : result (option Z * str) :=
  match span_while is_dec s with
  | ([], r) => Ok (None, r)
  | (ds, r) => if dec_value ds 0 <=? max_size then Ok (Some (dec_value ds 0), r) else Err ValueError
  end.

(** parse_internal_render_format_spec; [default_align] is ">" for numbers and "<"
    for strings.  The thousands separators "," and "_", and the "z" option, are
    treated as invalid: the modelled code never emits them. *)
Definition parse_pyspec (default_align : Z) (s : str) : result pyspec :=
  let '(fill, align, s1) :=
    match s with
    | a :: b :: r => if is_align b then (Some a, Some b, r)
                     else if is_align a then (None, Some a, b :: r) else (None, None, s)
    | [a] => if is_align a then (None, Some a, []) else (None, None, s)
    | [] => (None, None, s)
    end in
  let '(sign, s2) :=
    match s1 with
    | c :: r => if existsb (Z.eqb c) (s2z " +-") then (Some c, r) else (None, s1)
    | [] => (None, s1)
    end in
  let '(alt, s3) :=
    match s2 with c :: r => if c =? 35 then (true, r) else (false, s2) | [] => (false, s2) end in
  let '(fill, align, s4) :=
    match s3, fill with
    | c :: r, None =>
        if c =? 48 then
          (Some 48,
           (match align with None => if default_align =? 62 then Some 61 else None | _ => align end),
           r)
        else (fill, align, s3)
    | _, _ => (fill, align, s3)
    end in
  do ws <- get_integer s4;
  let '(width, s5) := ws in
  do pq <- match s5 with
           | c :: r => if c =? 46 then
                         do q <- get_integer r;
                         match q with
                         | (None, _) => Err ValueError      (* missing precision *)
                         | (Some v, r') => Ok (Some v, r')
                         end
                       else Ok (None, s5)
           | [] => Ok (None, s5)
           end;
  let '(prec, s6) := pq in
  do ty <- match s6 with
           | [] => Ok None
           | [c] => Ok (Some c)
           | _ => Err ValueError
           end;
  Ok {| ps_fill := match fill with Some f => f | None => 32 end;
        ps_align := align; ps_sign := sign; ps_alt := alt;
        ps_width := width; ps_precision := prec; ps_type := ty |}.

(** Padding to the width: [<] left, [>] right, [^] centre, [=] after the prefix. *)
Definition pad (align fill : Z) (width : Z) (prefix body : str) : str :=
  let n := Z.max 0 (width - len prefix - len body) in
  let f k := repeat fill (Z.to_nat k) in
  if align =? 60 then prefix ++ body ++ f n
  else if align =? 61 then prefix ++ f n ++ body
  else if align =? 94 then f (n / 2) ++ prefix ++ body ++ f (n - n / 2)
  else f n ++ prefix ++ body.

Definition upper_digit (c : Z) : Z := if (97 <=? c) && (c <=? 122) then c - 32 else c.

(** format_long_internal for the types d, o, x, X and c; other types are not
    modelled (ValueError for "s" as in CPython). *)
Definition py_format_int (spec : str) (v : Z) : result str :=
  do p <- parse_pyspec 62 spec;
  let ty := match ps_type p with Some t => t | None => 100 end in
  let width := match ps_width p with Some w => w | None => 0 end in
  let align := match ps_align p with Some a => a | None => 62 end in
  match ps_precision p with
  | Some _ => Err ValueError
  | None =>
      if ty =? 99 then
        if match ps_sign p with Some _ => true | None => false end || ps_alt p then Err ValueError
        else if (0 <=? v) && (v <? 1114112) then Ok (pad align (ps_fill p) width [] [v])
        else Err OverflowError
      else if existsb (Z.eqb ty) (s2z "doxX") then
        let base := if ty =? 100 then 10 else if ty =? 111 then 8 else 16 in
        let body := map digit_char (digits base (Z.abs v)) in
        let body := if ty =? 88 then map upper_digit body else body in
        let sign := if v <? 0 then [45]
                    else match ps_sign p with
                         | Some c => if c =? 45 then [] else [c]
                         | None => []
                         end in
        let prefix := if ps_alt p && negb (ty =? 100) then [48; ty] else [] in
        Ok (pad align (ps_fill p) width (sign ++ prefix) body)
      else Err ValueError
  end.

(** format_string_internal. *)
Definition py_format_str (spec : str) (v : str) : result str :=
  do p <- parse_pyspec 60 spec;
  let ty := match ps_type p with Some t => t | None => 115 end in
  let width := match ps_width p with Some w => w | None => 0 end in
  let align := match ps_align p with Some a => a | None => 60 end in
  if negb (ty =? 115) then Err ValueError
  else if match ps_sign p with Some _ => true | None => false end || ps_alt p || (align =? 61)
  then Err ValueError
  else
    let body := match ps_precision p with Some n => zfirstn n v | None => v end in
    Ok (pad align (ps_fill p) width [] body).

(** [str.format] on a template whose fields are "{number:specification}".  Nested
    replacement fields, field names that are not numbers, attribute access and
    conversions are not modelled (ValueError). *)
Inductive fstate :=
| InText | AfterOpen | AfterClose
| InName (n : Z)
| InSpec (n : Z) (acc : str).

Fixpoint str_format (render : Z -> str -> result str) (st : fstate) (t : str) : result str :=
  match t with
  | [] => match st with InText => Ok [] | _ => Err ValueError end
  | c :: r =>
      match st with
      | InText =>
          if c =? 123 then str_format render AfterOpen r
          else if c =? 125 then str_format render AfterClose r
          else do x <- str_format render InText r; Ok (c :: x)
      | AfterOpen =>
          if c =? 123 then do x <- str_format render InText r; Ok (123 :: x)
          else if is_dec c then str_format render (InName (c - 48)) r
          else Err ValueError
      | AfterClose =>
          if c =? 125 then do x <- str_format render InText r; Ok (125 :: x) else Err ValueError
      | InName n =>
          if is_dec c then str_format render (InName (n * 10 + (c - 48))) r
          else if c =? 58 then str_format render (InSpec n []) r
          else Err ValueError
      | InSpec n acc =>
          if c =? 125 then
            do a <- render n (rev acc);
            do x <- str_format render InText r;
            Ok (a ++ x)
          else if c =? 123 then Err ValueError
          else str_format render (InSpec n (c :: acc)) r
      end
  end.

Definition missing_data : str := s2z "<decode: missing data>".

(** FormatString: unified_logging.py:375-395.  The values are strings. *)
Definition pad_values (n : nat) (values : list str) : list str :=
  values ++ repeat missing_data (n - length values).

Definition format_string (f : formatter) (values : list str) : result str :=
  let values := pad_values (length (fm_operators f)) values in
  match fm_string f with
  | None => Ok []
  | Some t =>
      match fm_operators f with
      | [] => Ok t
      | _ => str_format (fun i spec => do v <- pyindex values i; py_format_str spec v) InText t
      end
  end.

(** ** Value decoders *)

Definition unsupported_value : str := s2z "<decode: unsupported value>".

(** [format_string.format(value)] for one value. *)
Definition format_one (o : operator) (render : str -> result str) : result str :=
  str_format (fun i spec => if i =? 0 then render spec else Err IndexError) InText
    (python_format_string o).

(** SignedIntegerFormatStringDecoder.FormatValue: unified_logging.py:1535-1556 *)
Definition format_signed (value : bytes) (o : option operator) : result str :=
  if existsb (Z.eqb (len value)) [1; 2; 4; 8] then
    let v := to_signed (length value) (le_int value) in
    match o with
    | Some o => format_one o (fun spec => py_format_int spec v)
    | None => py_format_int (s2z "d") v
    end
  else Ok unsupported_value.

(** UnsignedIntegerFormatStringDecoder.FormatValue: unified_logging.py:1904-1932 *)
Definition format_unsigned (value : bytes) (o : option operator) : result str :=
  if existsb (Z.eqb (len value)) [1; 2; 4; 8] then
    let v := le_int value in
    match o with
    | Some o =>
        if (v =? 0) && list_eqb (op_flags o) (s2z "#") && (op_specifier o =? 120)
        then Ok (fmt_x 0 v)
        else format_one o (fun spec => py_format_int spec v)
    | None => py_format_int (s2z "d") v
    end
  else Ok unsupported_value.

(** StringFormatStringDecoder.FormatValue: unified_logging.py:1871-1898;
    [decode] is [value.decode("utf-8")], None for a UnicodeDecodeError. *)
Definition format_text (decode : bytes -> option str) (value : bytes) (o : option operator)
  : result str :=
  match value with
  | [] => Ok (s2z "(null)")
  | _ =>
      match decode value with
      | None => Ok unsupported_value
      | Some t =>
          let t := rstrip 0 t in
          match o with
          | Some o => format_one o (fun spec => py_format_str spec t)
          | None => py_format_str (s2z "s") t
          end
      end
  end.

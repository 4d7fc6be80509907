(** Specification vocabulary for unified logging format strings (C38-C40): the
    syntax of a format string as a list of tokens, and the text that C's printf
    produces (ISO C 7.21.6.1) for integers and strings.  Nothing here refers to
    the modelled functions. *)

From Verif Require Import Base StrModel.

(** ** Syntax *)

(** A conversion specification: [%{annotation}flags width .precision length specifier]. *)
Record conv := {
  cv_annotation : option str;
  cv_flags : str;
  cv_width : option str;
  cv_precision : option str;
  cv_length : str;
  cv_specifier : Z
}.

Definition opt_text (o : option str) : str := match o with Some s => s | None => [] end.

Definition conv_text (c : conv) : str :=
  s2z "%" ++
  match cv_annotation c with Some a => s2z "{" ++ a ++ s2z "}" | None => [] end ++
  cv_flags c ++ opt_text (cv_width c) ++ opt_text (cv_precision c) ++ cv_length c ++
  [cv_specifier c].

Definition decimal (s : str) : Prop := s <> [] /\ Forall (fun c => 48 <= c <= 57) s.

Definition conv_shape (c : conv) : Prop :=
  match cv_annotation c with
  | Some a => 1 <= len a <= 128 /\ ~ In 125 a
  | None => True
  end /\
  len (cv_flags c) <= 5 /\ Forall (fun f => In f (s2z "-+0 #")) (cv_flags c) /\
  match cv_width c with Some w => w = s2z "*" \/ decimal w | None => True end /\
  match cv_precision c with
  | Some p => p = s2z "." \/ p = s2z ".*" \/ exists d, decimal d /\ p = s2z "." ++ d
  | None => True
  end /\
  In (cv_length c) (map s2z [""; "h"; "hh"; "j"; "l"; "ll"; "L"; "t"; "q"; "z"]%string) /\
  In (cv_specifier c) (s2z "@aAcCdDeEfFgGimnoOpPsSuUxX").

(** "0" before the width is a flag as long as there are fewer than five flags. *)
Definition conv_ok (c : conv) : Prop :=
  conv_shape c /\
  (len (cv_flags c) < 5 -> match cv_width c with Some (d :: _) => d <> 48 | _ => True end).

(** [s] starts with a conversion specification or with "%%". *)
Definition starts_conv (s : str) : Prop :=
  (exists c r, conv_shape c /\ s = conv_text c ++ r) \/ (exists r, s = s2z "%%" ++ r).

(** A format string as a list of tokens. *)
Inductive tok :=
| TChar (c : Z)
| TPercent
| TConv (c : conv).

Definition tok_text (t : tok) : str :=
  match t with TChar c => [c] | TPercent => s2z "%%" | TConv c => conv_text c end.

Definition toks_text (l : list tok) : str := flat_map tok_text l.

(** A literal character is one at which no specification starts. *)
Fixpoint toks_ok (l : list tok) : Prop :=
  match l with
  | [] => True
  | TChar c :: r => ~ starts_conv (c :: toks_text r) /\ toks_ok r
  | TPercent :: r => toks_ok r
  | TConv c :: r => conv_ok c /\ toks_ok r
  end.

Fixpoint convs (l : list tok) : list conv :=
  match l with
  | [] => []
  | TConv c :: r => c :: convs r
  | _ :: r => convs r
  end.

(** The text with the values in the places of the specifications. *)
Fixpoint fill (l : list tok) (values : list str) : str :=
  match l with
  | [] => []
  | TChar c :: r => c :: fill r values
  | TPercent :: r => 37 :: fill r values
  | TConv _ :: r =>
      match values with
      | v :: vs => v ++ fill r vs
      | [] => s2z "<decode: missing data>" ++ fill r []
      end
  end.

(** ** printf *)

Record cflags := {
  cf_minus : bool;
  cf_sign : option Z;     (* "+" or " " *)
  cf_alt : bool;
  cf_zero : bool
}.

(** The flags in the order "-", sign, "#", "0". *)
Definition flags_text (f : cflags) : str :=
  (if cf_minus f then s2z "-" else []) ++
  match cf_sign f with Some c => [c] | None => [] end ++
  (if cf_alt f then s2z "#" else []) ++
  (if cf_zero f then s2z "0" else []).

(** Decimal width; no width is the same as width 0. *)
Definition width_is (s : str) (w : Z) : Prop :=
  s = [] /\ w = 0 \/ (parse_nat 10 s = Some w /\ (forall r, s <> 48 :: r) /\ Forall (fun c => 48 <= c <= 57) s).

Definition upcase (c : Z) : Z := if (97 <=? c) && (c <=? 122) then c - 32 else c.

(** [s] is the numeral of [n] without leading zeros. *)
Definition numeral (base : Z) (s : str) (n : Z) : Prop :=
  parse_nat base s = Some n /\ (n <> 0 -> forall r, s <> 48 :: r) /\ (n = 0 -> s = s2z "0").

(** Layout in a field of the given width. *)
Definition c_layout (f : cflags) (width : Z) (prefix body : str) : str :=
  let n := Z.to_nat (width - len prefix - len body) in
  if cf_minus f then prefix ++ body ++ repeat 32 n
  else if cf_zero f then prefix ++ repeat 48 n ++ body
  else repeat 32 n ++ prefix ++ body.

(** The text of an integer conversion without precision. *)
Definition printf_int (f : cflags) (width specifier v : Z) (text : str) : Prop :=
  exists digits,
    let sign := if v <? 0 then s2z "-"
                else match cf_sign f with Some c => [c] | None => [] end in
    if existsb (Z.eqb specifier) (s2z "dDiuU") then
      numeral 10 digits (Z.abs v) /\ text = c_layout f width sign digits
    else if existsb (Z.eqb specifier) (s2z "oO") then
      numeral 8 digits v /\ text = c_layout f width [] digits
    else if specifier =? 120 then
      numeral 16 digits v /\
      text = c_layout f width (if cf_alt f && negb (v =? 0) then s2z "0x" else []) digits
    else
      numeral 16 digits v /\
      text = c_layout f width (if cf_alt f && negb (v =? 0) then s2z "0X" else []) (map upcase digits).

(** The text of a string conversion. *)
Definition printf_str (minus : bool) (width : Z) (precision : option Z) (v : str) : str :=
  let v := match precision with Some n => firstn (Z.to_nat n) v | None => v end in
  let n := Z.to_nat (width - len v) in
  if minus then v ++ repeat 32 n else repeat 32 n ++ v.

(** ** Annotations *)

(** White space characters. *)
Definition white (c : Z) : Prop :=
  In c ([9; 10; 11; 12; 13; 28; 29; 30; 31; 32; 133; 160; 5760] ++
        [8192; 8193; 8194; 8195; 8196; 8197; 8198; 8199; 8200; 8201; 8202; 8232; 8233; 8239; 8287; 12288]).

(** [t] is [s] without the white space around it. *)
Definition trimmed (s t : str) : Prop :=
  exists a b, s = a ++ t ++ b /\ Forall white a /\ Forall white b /\
    (forall c r, t = c :: r -> ~ white c) /\ (forall c r, t = r ++ [c] -> ~ white c).

(** Annotations that do not say how to decode a value. *)
Definition no_decoder (name : str) : Prop :=
  In name [[]; s2z "private"; s2z "public"; s2z "sensitive"; s2z "bluetooth:OI_STATUS"; s2z "xcode:size-in-bytes"] \/
  exists r, name = s2z "name=" ++ r.

Inductive decoders_in : list str -> list str -> Prop :=
| di_nil : decoders_in [] []
| di_skip n l k : no_decoder n -> decoders_in l k -> decoders_in (n :: l) k
| di_keep n l k : ~ no_decoder n -> decoders_in l k -> decoders_in (n :: l) (n :: k).

(** The decoder of a conversion without annotations. *)
Inductive default_decoder : Z -> list str -> Prop :=
| dd_string c : In c (s2z "s@P") -> default_decoder c [s2z "internal:s"]
| dd_float c : In c (s2z "fFeEgGaA") -> default_decoder c [s2z "internal:f"]
| dd_signed c : In c (s2z "diD") -> default_decoder c [s2z "internal:i"]
| dd_unsigned c : In c (s2z "uUxXoOcp") -> default_decoder c [s2z "internal:u"]
| dd_errno c : In c (s2z "m") -> default_decoder c [s2z "internal:m"]
| dd_none c : ~ In c (s2z "s@PfFeEgGaAdiDuUxXoOcpm") -> default_decoder c [].

(** The decoders of a conversion with an optional annotation. *)
Inductive decoders_of : option str -> Z -> list str -> Prop :=
| do_none c d : default_decoder c d -> decoders_of None c d
| do_other items names c d : items <> [] -> Forall (fun s => ~ In 44 s) items -> Forall2 trimmed items names ->
    decoders_in names [] -> default_decoder c d -> decoders_of (Some (join [44] items)) c d
| do_names items names c n k : items <> [] -> Forall (fun s => ~ In 44 s) items -> Forall2 trimmed items names ->
    decoders_in names (n :: k) -> decoders_of (Some (join [44] items)) c (n :: k).

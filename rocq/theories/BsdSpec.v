(** What is shown of Basic Security Module event auditing files. *)

From Verif Require Import Base StrModel TextModel MemModel BsmModel BsmSpec KcdSpec BsdModel.

(** The net type of tokens that have one. *)
Definition net_type (k : token) : option Z :=
  match fst k with
  | 0x15 | 0x79 => Some (mint 4 (snd k))
  | 0x7a | 0x7b | 0x7c | 0x7d => Some (mint 8 (snd k))
  | 0x7e => Some (mint 0 (snd k))
  | 0x7f => Some (mint 2 (snd k))
  | _ => None
  end.

(** Why a token cannot be shown: AUT_EXIT has no description; AUT_IPC_PERM, AUT_GROUPS, AUT_NEWGROUPS, AUT_EXEC_ARGS and
    AUT_EXEC_ENV have no attributes; net types other than 4 and 16 are not supported. *)
Definition show_error (k : token) : option exn :=
  if fst k =? 0x52 then Some IndexError
  else if existsb (Z.eqb (fst k)) [0x32; 0x34; 0x3b; 0x3c; 0x3d] then Some TypeError
  else match net_type k with
       | Some n => if (n =? 4) || (n =? 16) then None else Some ParseError
       | None => None
       end.

Fixpoint first_error (l : list token) : option exn :=
  match l with
  | [] => None
  | k :: l => match show_error k with Some e => Some e | None => first_error l end
  end.

Definition at_offset (description : str) (off : Z) : str :=
  s2z "Reading " ++ description ++ s2z " at offset: " ++ fmt_d off ++ s2z " (0x" ++ fmt_x 8 off ++ s2z ")" ++ [10].

(** The output for a token of bytes [d] at offset [off]: the type, the description [token ...], the data, and the [text] of its values. *)
Definition token_output (off : Z) (d : bytes) (name : str) (text : str) : str :=
  at_offset (s2z "token type") off ++ s2z "Token type data:" ++ [10] ++ fst (format_hexdump (firstn 1 d))
  ++ at_offset (s2z "token " ++ name) off ++ s2z "Token " ++ name ++ s2z " data:" ++ [10] ++ fst (format_hexdump d) ++ text.

(** Tokens one after the other, from offset [off] to offset [fin]. *)
Inductive tokens_shown (shows : token -> str -> Prop) : Z -> list token -> str -> Z -> Prop :=
| ts_nil off : tokens_shown shows off [] [] off
| ts_cons off k d name text l t fin : token_enc k d -> token_description (fst k) = s2z "token " ++ name -> shows k text ->
    tokens_shown shows (off + len d) l t fin -> tokens_shown shows off (k :: l) (token_output off d name text ++ t) fin.

(** Records: the header is shown, and shown again with the other tokens. *)
Inductive records_shown (shows : token -> str -> Prop) : Z -> list (list token) -> str -> Prop :=
| rs_nil off : records_shown shows off [] []
| rs_cons off h l t0 t fin fin0 rs t' : tokens_shown shows off [h] t0 fin0 -> tokens_shown shows off (h :: l) t fin ->
    records_shown shows fin rs t' -> records_shown shows off ((h :: l) :: rs) (t0 ++ t ++ t').

(** The values of a token that are shown: all but the start of the IP header of AUT_IP. *)
Definition shown_values (k : token) : list mval := if fst k =? 0x2b then tl (snd k) else snd k.

(** Tokens with a text have it in one line. *)
Definition one_line (k : token) : Prop :=
  In (fst k) [0x11; 0x23; 0x28; 0x2d; 0x60; 0x71; 0x82] -> forall s, In (MB s) (snd k) -> ~ In 10 (rstrip 0 s).

(** A list of lines, and an empty line. *)
Definition lines (l : list (str * str)) : str := concat (map (fun p => line (fst p) (snd p)) l) ++ [10].

(** The UTF-16 little-endian decoder of Python and the strings with an end-of-string character
    that dtFabric maps. *)

From Verif Require Import Base CoreModel.

(** [bytes.decode("utf-16-le")]: [None] is UnicodeDecodeError (surrogates without a pair, an odd
    number of bytes). *)
Fixpoint utf16_decode (d : bytes) : option str :=
  match d with
  | [] => Some []
  | a :: b :: r =>
      let u := a + 256 * b in
      if (u <? 55296) || (57344 <=? u) then option_map (cons u) (utf16_decode r)
      else if u <? 56320 then
        match r with
        | c :: e :: r2 =>
            let v := c + 256 * e in
            if (56320 <=? v) && (v <? 57344)
            then option_map (cons (65536 + (u - 55296) * 1024 + (v - 56320))) (utf16_decode r2)
            else None
        | _ => None
        end
      else None
  | _ => None
  end.

(** dtFabric strings of 2-byte elements with the terminator 0: the data up to the terminator,
    which is looked for at every second byte; [None] without terminator. *)
Fixpoint unit_end (d : bytes) : option bytes :=
  match d with
  | a :: b :: r =>
      if (a =? 0) && (b =? 0) then Some []
      else option_map (fun s => a :: b :: s) (unit_end r)
  | _ => None
  end.

(** [_ReadStructureFromByteStream] of such a string, with ValueError turned into ParseError: the
    string and the size of its data with the terminator. *)
Definition utf16_cstr (d : bytes) : result (str * Z) :=
  match unit_end d with
  | None => Err ParseError
  | Some s =>
      match utf16_decode s with
      | None => Err ParseError
      | Some t => Ok (t, len s + 2)
      end
  end.

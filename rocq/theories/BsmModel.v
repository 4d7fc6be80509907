(** Model of the Basic Security Module (BSM) event auditing file reader.

    Source: /repo/dtformats/bsm.py, /repo/dtformats/bsm.yaml. *)

From Verif Require Import Base CoreModel SeqModel DictModel MemModel.

Definition bsm_subject (port : nat) : list mem :=
  repeat (MInt (FS BE 4)) 5 ++ [MInt (FU BE 4); MInt (FU BE 4); MInt (FU BE port)].
Definition bsm_header : list mem := [MInt (FU BE 4); MInt (FU BE 1); MInt (FU BE 2); MInt (FU BE 2)].
Definition fixed (n : Z) : mem := MData (fun _ => n).

(** bsm.yaml:60-692: the members behind the token type. Sizes refer to other members by
    their index. *)
Definition bsm_members (t : Z) : option (list mem) :=
  match t with
  | 17 => Some [MInt (FU BE 4); MInt (FU BE 4); MInt (FU BE 2); MAscii (mint 2)]
  | 19 => Some [MConst (FU BE 2) 45317; MInt (FU BE 4)]
  | 20 => Some (bsm_header ++ [MInt (FU BE 4); MInt (FU BE 4)])
  | 21 => Some (bsm_header ++ [MInt (FU BE 4); MData (mint 4); MInt (FU BE 4); MInt (FU BE 4)])
  | 33 => Some [MInt (FU BE 1); MInt (FU BE 1); MInt (FU BE 1); MData (mint 2)]
  | 34 => Some [MInt (FU BE 1); MInt (FU BE 4)]
  | 35 => Some [MInt (FU BE 2); MAscii (mint 0)]
  | 36 | 38 => Some (bsm_subject 4 ++ [fixed 4])
  | 39 => Some [MInt (FU BE 1); MInt (FU BE 4)]
  | 40 => Some [MInt (FU BE 2); MAscii (mint 0)]
  | 41 => Some [MInt (FU BE 2); MData (mint 0)]
  | 42 => Some [fixed 4]
  | 43 => Some [fixed 12; fixed 4; fixed 4]
  | 44 => Some [MInt (FU BE 2)]
  | 45 => Some [MInt (FU BE 1); MInt (FU BE 4); MInt (FU BE 2); MAscii (mint 2)]
  | 47 => Some [MInt (FU BE 4)]
  | 50 => Some (repeat (MInt (FU BE 4)) 4 ++ repeat (MInt (FU BE 2)) 6)
  | 52 | 59 => Some [MInt (FU BE 4); MInts (FU BE 4) (mint 0)]
  | 60 | 61 => Some [MInt (FU BE 4); MCStrs (mint 0)]
  | 62 => Some [MInt (FU BE 2); MInt (FU BE 2); MInt (FS BE 4); MInt (FS BE 4); MInt (FU BE 4); MInt (FU BE 8); MInt (FU BE 4)]
  | 82 => Some [MInt (FU BE 4); MInt (FU BE 4)]
  | 96 => Some [MInt (FU BE 2); MAscii (mint 0)]
  | 113 => Some [MInt (FU BE 1); MInt (FU BE 8); MInt (FU BE 2); MAscii (mint 2)]
  | 114 => Some [MInt (FU BE 1); MInt (FU BE 8)]
  | 115 => Some [MInt (FU BE 2); MInt (FU BE 2); MInt (FS BE 4); MInt (FS BE 4); MInt (FU BE 4); MInt (FU BE 8); MInt (FU BE 8)]
  | 116 => Some (bsm_header ++ [MInt (FU BE 8); MInt (FU BE 8)])
  | 117 | 119 => Some (bsm_subject 8 ++ [fixed 4])
  | 121 => Some (bsm_header ++ [MInt (FU BE 4); MData (mint 4); MInt (FU BE 8); MInt (FU BE 8)])
  | 122 | 123 => Some (bsm_subject 4 ++ [MInt (FU BE 4); MData (mint 8)])
  | 124 | 125 => Some (bsm_subject 8 ++ [MInt (FU BE 4); MData (mint 8)])
  | 126 => Some [MInt (FU BE 4); fixed 16]
  | 127 => Some [MInt (FU BE 2); MInt (FU BE 2); MInt (FU BE 2); MInt (FU BE 2); MData (mint 2); MInt (FU BE 2); MData (mint 2)]
  | 128 => Some [MInt (FU BE 2); MInt (FU BE 2); fixed 4]
  | 129 => Some [MInt (FU BE 2); MInt (FU BE 2); fixed 16]
  | 130 => Some [MInt (FU BE 2); MCStr]
  | _ => None
  end.

(** A token: its type and the values of the other members. *)
Definition token : Type := Z * list mval.

(** bsm.py:943-973 [_ReadToken] with 975-992 [_ReadTokenType]: the token and the position behind
    it. Unknown types cannot be mapped. *)
Definition read_token (content : bytes) (off : Z) : result (token * Z) :=
  do l <- read_struct content [FU BE 1] off;
  match l with
  | [VI t] =>
      match bsm_members t with
      | None => Err ParseError
      | Some ms => do (vs, pos) <- read_mems content (off + 1) [] ms; Ok ((t, vs), pos)
      end
  | _ => Err OtherError
  end.

Definition is_header (t : Z) : bool := existsb (Z.eqb t) [20; 21; 116; 121].

(** [token.record_size]: only header and trailer tokens have this attribute. *)
Definition record_size (k : token) : result Z :=
  if is_header (fst k) then Ok (mint 0 (snd k))
  else if fst k =? 19 then Ok (mint 1 (snd k))
  else Err AttributeError.

(** bsm.py:928-936: the tokens up to [end_offset] or the trailer, and the file position; [last]
    is the value of [token], [pos] the file position before the loop. *)
Fixpoint record_tokens (fuel : nat) (content : bytes) (off end_offset pos : Z) : run (list token * Z) :=
  if off <? end_offset then
    match fuel with
    | O => OutOfFuel
    | S fuel =>
        match read_token content off with
        | Err e => Done (Err e)
        | Ok (k, pos) =>
            if fst k =? 19 then Done (Ok ([k], pos))
            else rdo (l, pos) <- record_tokens fuel content pos end_offset pos; Done (Ok (k :: l, pos))
        end
    end
  else Done (Ok ([], pos)).

(** bsm.py:902-941 [_ReadRecord]: the tokens that the loop reads, the header is the first of them,
    and the file position. *)
Definition read_bsm_record (fuel : nat) (content : bytes) (off : Z) : run (list token * Z) :=
  match read_token content off with
  | Err e => Done (Err e)
  | Ok (header, pos) =>
      if negb (is_header (fst header)) then Done (Err ParseError)
      else if negb (mint 1 (snd header) =? 11) then Done (Err ParseError)
      else
        let size := mint 0 (snd header) in
        rdo (l, pos) <- record_tokens fuel content off (off + size) pos;
        match record_size (last l header) with
        | Err e => Done (Err e)
        | Ok size' => if size' =? size then Done (Ok (l, pos)) else Done (Err ParseError)
        end
  end.

(** bsm.py:994-1006 [ReadFileObject]. *)
Fixpoint read_bsm (fuel : nat) (content : bytes) (off : Z) : run (list (list token)) :=
  if off <? len content then
    match fuel with
    | O => OutOfFuel
    | S fuel' =>
        rdo (k, pos) <- read_bsm_record fuel content off;
        rdo l <- read_bsm fuel' content pos; Done (Ok (k :: l))
    end
  else Done (Ok []).

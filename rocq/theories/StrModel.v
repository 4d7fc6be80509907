(** Python string services used by the modelled code: integer formatting,
    [str.join], [str.split].  They model CPython, not a function of /repo. *)

From Verif Require Import Base.

(** Digits of a non-negative integer, most significant first. *)
Fixpoint digits_aux (fuel : nat) (base n : Z) (acc : list Z) : list Z :=
  match fuel with
  | O => acc
  | S k => if n <? base then n :: acc
           else digits_aux k base (n / base) (n mod base :: acc)
  end.

(** The fuel is the number of binary digits, which is enough for [base >= 2]. *)
Definition digits (base n : Z) : list Z :=
  digits_aux (S (Z.to_nat (Z.log2 n))) base n [].

Definition digit_char (d : Z) : Z := if d <? 10 then 48 + d else 87 + d.

(** [f"{n:0{width}d}"] (base 10) and [f"{n:0{width}x}"] (base 16): the sign counts
    for the width and comes before the zeros. *)
Definition fmt_int (base width n : Z) : str :=
  let s := map digit_char (digits base (Z.abs n)) in
  let sign := if n <? 0 then [45] else [] in
  sign ++ repeat 48 (Z.to_nat (width - len s - len sign)) ++ s.

Definition fmt_d (n : Z) : str := fmt_int 10 0 n.
Definition fmt_x (width n : Z) : str := fmt_int 16 width n.

(** [sep.join(l)]. *)
Fixpoint join (sep : str) (l : list str) : str :=
  match l with
  | [] => []
  | [x] => x
  | x :: r => x ++ sep ++ join sep r
  end.

(** [s.split(c)] for a one-character separator. *)
Fixpoint split_on (c : Z) (s : str) : list str :=
  match s with
  | [] => [[]]
  | x :: r =>
      let l := split_on c r in
      if x =? c then [] :: l
      else match l with
           | h :: t => (x :: h) :: t
           | [] => [[x]]
           end
  end.

(** [s.startswith(p)]. *)
Fixpoint starts_with (p s : str) : bool :=
  match p, s with
  | [], _ => true
  | x :: p', y :: s' => (x =? y) && starts_with p' s'
  | _ :: _, [] => false
  end.

(** [c in s] for a character. *)
Definition has_char (c : Z) (s : str) : bool := existsb (Z.eqb c) s.

(** [s.rstrip(c)]. *)
Fixpoint rstrip (c : Z) (s : str) : str :=
  match s with
  | [] => []
  | x :: r => match rstrip c r with
              | [] => if x =? c then [] else [x]
              | r' => x :: r'
              end
  end.

(** Integer parsing used by specifications. *)
Definition char_digit (c : Z) : option Z :=
  if (48 <=? c) && (c <=? 57) then Some (c - 48)
  else if (97 <=? c) && (c <=? 102) then Some (c - 87)
  else None.

Fixpoint parse_digits (base : Z) (s : str) (acc : Z) : option Z :=
  match s with
  | [] => Some acc
  | c :: r => match char_digit c with
              | Some d => if d <? base then parse_digits base r (acc * base + d) else None
              | None => None
              end
  end.

Definition parse_nat (base : Z) (s : str) : option Z :=
  match s with [] => None | _ => parse_digits base s 0 end.

Definition parse_int (base : Z) (s : str) : option Z :=
  match s with
  | 45 :: r => match parse_nat base r with Some n => Some (- n) | None => None end
  | _ => parse_nat base s
  end.

(** Independent definitions of the hashes. *)

From Verif Require Import Base.

Definition u32 (v : Z) : Z := v mod 2 ^ 32.

(** A polynomial hash: the sum of the bytes weighted with powers of 37. *)
Fixpoint poly37 (d : bytes) : Z :=
  match d with
  | [] => 0
  | b :: r => b * 37 ^ len r + poly37 r
  end.

(** The signed reading of a 32-bit word. *)
Definition s32 (v : Z) : Z := if v <? 2 ^ 31 then v else v - 2 ^ 32.

(** SuperFastHash (Paul Hsieh; Chromium base/third_party/superfasthash) on unsigned 32-bit
    words. [last] is how the single last byte of a key of length 1 or 3 modulo 4 is read:
    Chromium reads it as signed char. *)
Definition w_add (a b : Z) : Z := u32 (a + b).
Definition w_shl (a k : Z) : Z := u32 (a * 2 ^ k).
Definition w_shr (a k : Z) : Z := a / 2 ^ k.

Fixpoint sfh_ref_loop (last : Z -> Z) (h : Z) (key : bytes) : Z :=
  match key with
  | a :: b :: c :: d :: r =>
      let h := w_add h (le_int [a; b]) in
      let t := Z.lxor (w_shl (le_int [c; d]) 11) h in
      let h := Z.lxor (w_shl h 16) t in
      sfh_ref_loop last (w_add h (w_shr h 11)) r
  | [a; b; c] =>
      let h := w_add h (le_int [a; b]) in
      let h := Z.lxor h (w_shl h 16) in
      let h := Z.lxor h (w_shl (last c) 18) in
      w_add h (w_shr h 11)
  | [a; b] =>
      let h := w_add h (le_int [a; b]) in
      let h := Z.lxor h (w_shl h 11) in
      w_add h (w_shr h 17)
  | [a] =>
      let h := w_add h (last a) in
      let h := Z.lxor h (w_shl h 10) in
      w_add h (w_shr h 1)
  | [] => h
  end.

Definition sfh_ref (last : Z -> Z) (key : bytes) : Z :=
  match key with
  | [] => 0
  | _ =>
      let h := sfh_ref_loop last (u32 (len key)) key in
      let h := Z.lxor h (w_shl h 3) in
      let h := w_add h (w_shr h 5) in
      let h := Z.lxor h (w_shl h 4) in
      let h := w_add h (w_shr h 17) in
      let h := Z.lxor h (w_shl h 25) in
      w_add h (w_shr h 6)
  end.

Definition signed_char (b : Z) : Z := if b <? 128 then b else b - 256.

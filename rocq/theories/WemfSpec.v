(** The formats of EMF and WMF files and the meaning of raster operations.

    Source: /repo/documentation/Windows (Enhanced) Metafile Format (WMF and EMF).asciidoc, and the
    comment of the table of raster operations: names are in reverse Polish notation. *)

From Verif Require Import Base BaseFacts SeqSpec WemfModel.
From Coq Require String.
Import String.StringSyntax.

(** The records of a file from an offset on: each one starts where the one before ends according to
    its size. [at_ off type size] says which header is stored at an offset. *)
Inductive chain (at_ : Z -> Z -> Z -> Prop) (n : Z) : Z -> list (Z * Z) -> Prop :=
| chain_end off : n <= off -> chain at_ n off []
| chain_next off type size l : off < n -> at_ off type size -> chain at_ n (off + size) l -> chain at_ n off ((type, size) :: l).

(** The offset behind a list of records. *)
Inductive reach (at_ : Z -> Z -> Z -> Prop) (n : Z) : Z -> Z -> Prop :=
| reach_here off : reach at_ n off off
| reach_next off type size off' : off < n -> at_ off type size -> reach at_ n (off + size) off' -> reach at_ n off off'.

Definition emf_at (content : bytes) (off type size : Z) : Prop :=
  0 <= type < 2 ^ 32 /\ 0 <= size < 2 ^ 32 /\ stored_at content off (le_enc 4 type ++ le_enc 4 size).

(** The size is a number of 16-bit words. *)
Definition wmf_at (content : bytes) (off type size : Z) : Prop :=
  exists words, size = 2 * words /\ 0 <= type < 2 ^ 16 /\ 0 <= words < 2 ^ 32 /\ stored_at content off (le_enc 4 words ++ le_enc 2 type).

(** The header of a WMF file, with the placeable header that can be before it. *)
Definition wmf_head (h : bytes) : Prop :=
  exists file_type rest, len rest = 14 /\ In file_type [1; 2] /\ h = le_enc 2 file_type ++ le_enc 2 9 ++ rest.

Definition wmf_start (content : bytes) (start : Z) : Prop :=
  exists p h, len h = 18 /\ wmf_head h /\ stored_at content 0 (p ++ h) /\ start = len p + 18 /\
    (p = [] \/ exists r, len r = 18 /\ p = [0xd7; 0xcd; 0xc6; 0x9a] ++ r).

(** A record of an EMF and of a WMF file. *)
Definition emf_bytes (r : Z * bytes) : bytes := le_enc 4 (fst r) ++ le_enc 4 (8 + len (snd r)) ++ snd r.
Definition emf_wf (r : Z * bytes) : Prop := 0 <= fst r < 2 ^ 32 /\ 8 + len (snd r) < 2 ^ 32.
Definition wmf_bytes (r : Z * bytes) : bytes := le_enc 4 (3 + len (snd r) / 2) ++ le_enc 2 (fst r) ++ snd r.
Definition wmf_wf (r : Z * bytes) : Prop := 0 <= fst r < 2 ^ 16 /\ 3 + len (snd r) / 2 < 2 ^ 32 /\ len (snd r) mod 2 = 0.

(** The header record of an EMF file of version 1: 88 bytes with its own size. *)
Definition emf_head_88 (h : bytes) : Prop :=
  exists a b, len a = 32 /\ len b = 44 /\ h = le_enc 4 1 ++ le_enc 4 88 ++ a ++ [0x20; 0x45; 0x4d; 0x46] ++ b.

(** wmf_stretch_mode of the documents. *)
Definition stretch_modes : list (Z * String.string) :=
  [(1, "BLACKONWHITE"); (2, "WHITEONBLACK"); (3, "COLORONCOLOR"); (4, "HALFTONE")]%string.

(** A raster operation is a function of a bit of the pattern (P), of the source (S) and of the
    destination (D). It is identified by its values: bit [4 p + 2 s + d] of bits 16-23 of the code. *)
Inductive operand := P_ | S_ | D_.
Inductive rop := Operand (o : operand) | Not (r : rop) | And (a b : rop) | Or (a b : rop) | Xor (a b : rop) | Black | White.

Fixpoint rop_value (r : rop) (p s d : bool) : bool :=
  match r with
  | Operand P_ => p
  | Operand S_ => s
  | Operand D_ => d
  | Not r => negb (rop_value r p s d)
  | And a b => rop_value a p s d && rop_value b p s d
  | Or a b => rop_value a p s d || rop_value b p s d
  | Xor a b => xorb (rop_value a p s d) (rop_value b p s d)
  | Black => false
  | White => true
  end.

Definition code_value (code : Z) (p s d : bool) : bool :=
  Z.testbit (Z.shiftr code 16) (4 * Z.b2z p + 2 * Z.b2z s + Z.b2z d).

(** The reverse Polish notation of an operation. *)
Inductive rpn : rop -> String.string -> Prop :=
| rpn_p : rpn (Operand P_) "P"
| rpn_s : rpn (Operand S_) "S"
| rpn_d : rpn (Operand D_) "D"
| rpn_not r a : rpn r a -> rpn (Not r) (a ++ "N")%string
| rpn_and x y a b : rpn x a -> rpn y b -> rpn (And x y) (a ++ b ++ "A")%string
| rpn_or x y a b : rpn x a -> rpn y b -> rpn (Or x y) (a ++ b ++ "O")%string
| rpn_xor x y a b : rpn x a -> rpn y b -> rpn (Xor x y) (a ++ b ++ "X")%string.

(** The operations with a name of their own. *)
Definition named_rops : list (String.string * rop) :=
  let p := Operand P_ in let s := Operand S_ in let d := Operand D_ in
  [("BLACKNESS", Black); ("NOTSRCERAS", Not (Or d s)); ("NOTSRCCOPY", Not s); ("SRCERASE", And s (Not d)); ("DSTINVERT", Not d);
   ("PATINVERT", Xor d p); ("SRCINVERT", Xor d s); ("SRCAND", And d s); ("MERGEPAINT", Or d (Not s)); ("MERGECOPY", And p s);
   ("SRCCOPY", s); ("SRCPAINT", Or d s); ("PATCOPY", p); ("PATPAINT", Or d (Or p (Not s))); ("WHITENESS", White)]%string.

Definition means (name : String.string) (r : rop) : Prop := In (name, r) named_rops \/ rpn r name.

(** The name is that of an operation and this operation is the one of the code. *)
Definition named_right (code : Z) (name : String.string) : Prop :=
  exists r, means name r /\ forall p s d, rop_value r p s d = code_value code p s d.

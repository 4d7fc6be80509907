(** C97: the class definitions of a WMI repository. *)

From Coq Require Import String.
From Verif Require Import Base BaseFacts SeqSpec CoreModel StrModel DictModel Utf16Model TvSpec CatSpec FhSpec WcdModel WcdSpec WcdProofs.
Local Open Scope string_scope.
Local Open Scope list_scope.
Local Open Scope Z_scope.

(** The class definition of an object record is read exactly as it is stored. *)
Theorem C97_classes : forall ansi lower record c, is_bytes record ->
  (class_record ansi lower record = Ok c <-> class_record_of ansi lower record c).
Proof. exact class_record_iff. Qed.
Print Assumptions C97_classes.

Theorem C97_blocks : forall ansi lower data c, is_bytes data ->
  (class_block ansi lower data = Ok c <-> class_of ansi lower data c).
Proof. exact class_block_iff. Qed.
Print Assumptions C97_blocks.

(** Otherwise there is a ParseError or a ValueError. *)
Theorem C97_errors : forall ansi lower record x, is_bytes record ->
  class_record ansi lower record = Err x -> x = ParseError \/ x = ValueError.
Proof. exact class_record_errors. Qed.
Print Assumptions C97_errors.

(** A class is abstract with the value of its qualifier. *)
Theorem C97_abstract : forall ansi lower record c v, is_bytes record -> class_record ansi lower record = Ok c ->
  (is_abstract c = v <-> In (s2z "abstract", v) (c_quals c) \/ v = QBool false /\ ~ In (s2z "abstract") (map fst (c_quals c))).
Proof. exact abstract_iff. Qed.
Print Assumptions C97_abstract.

(** A class with a super class, a qualifier and a property with a type qualifier. *)
Definition ex_ansi (d : bytes) : option str := if forallb (fun b => b <? 128) d then Some d else None.
Definition ex_lower (s : str) : str := map (fun c => if (65 <=? c) && (c <=? 90) then c + 32 else c) s.

Definition ex_cim (s : string) : bytes := 0 :: s2z s ++ [0].

Definition ex_values (type : Z) : bytes :=
  ex_cim "Foo" ++ ex_cim "Abstract" ++ ex_cim "Name" ++ ex_cim "string" ++
  le_enc 4 8 ++ le_enc 2 0 ++ le_enc 4 0 ++ le_enc 4 0 ++ le_enc 4 17 ++ (le_enc 4 0x8000000a ++ [0] ++ le_enc 4 type ++ le_enc 4 21).

Definition ex_block (type flags : Z) : bytes :=
  [0] ++ le_enc 4 0 ++ le_enc 4 1 ++ le_enc 4 9 ++ ex_cim "Bar" ++ le_enc 4 15 ++ (le_enc 4 5 ++ [0] ++ le_enc 4 0xb ++ [255; 255]) ++
  le_enc 4 1 ++ (le_enc 4 15 ++ le_enc 4 29) ++ [3] ++ le_enc 4 (len (ex_values type) + flags) ++ ex_values type.

Definition ex_record (type flags : Z) : bytes :=
  le_enc 4 3 ++ [66; 0; 97; 0; 114; 0] ++ le_enc 8 0 ++ le_enc 4 (len (ex_block type flags) + 4) ++ ex_block type flags.

Definition ex_class (v : qval) : cdef :=
  mkcdef (s2z "Foo") (Some (s2z "Bar")) [(s2z "abstract", QBool true)] [(s2z "Name", mkprop (s2z "Name") 0 0 8 [(s2z "type", v)])].

Example C97_case : class_record ex_ansi ex_lower (ex_record 8 0x80000000) = Ok (ex_class (QStr (s2z "string"))) /\
  is_bytes (ex_record 8 0x80000000) /\ class_record_of ex_ansi ex_lower (ex_record 8 0x80000000) (ex_class (QStr (s2z "string"))).
Proof.
  assert (B : is_bytes (ex_record 8 0x80000000)) by (apply Forall_forall; intros b H; apply (proj1 (forallb_forall is_byteb (ex_record 8 0x80000000))) in H; [unfold is_byteb in H; unfold is_byte; lia|vm_compute; reflexivity]).
  assert (E : class_record ex_ansi ex_lower (ex_record 8 0x80000000) = Ok (ex_class (QStr (s2z "string")))) by (vm_compute; reflexivity).
  split; [exact E|]. split; [exact B|]. apply C97_classes; assumption.
Qed.

(** The value of a qualifier that is an unsigned 32-bit integer is lost; a signed one is not. *)
Theorem C97_uint32_refuted :
  class_record ex_ansi ex_lower (ex_record 0x13 0) = Ok (ex_class QNone) /\
  class_record ex_ansi ex_lower (ex_record 0x3 0) = Ok (ex_class (QInt 21)).
Proof. vm_compute. split; reflexivity. Qed.
Print Assumptions C97_uint32_refuted.

(** With a qualifier that is a reference, as it is documented for the provider, the class is not read. *)
Theorem C97_reference_refuted : class_record ex_ansi ex_lower (ex_record 0x66 0) = Err ParseError.
Proof. vm_compute. reflexivity. Qed.
Print Assumptions C97_reference_refuted.

(** Bit 27 of the size of the values is ignored: a size that is too large by 128 MiB is not noticed. *)
Theorem C97_size_refuted : class_record ex_ansi ex_lower (ex_record 8 0x08000000) = Ok (ex_class (QStr (s2z "string"))).
Proof. vm_compute. reflexivity. Qed.
Print Assumptions C97_size_refuted.

(** An offset of a name that is the size of the values is a ValueError; the methods document ParseError. *)
Theorem C97_offset_refuted : exists data,
  class_block ex_ansi ex_lower data = Err ValueError /\
  data = [0] ++ le_enc 4 5 ++ le_enc 4 0 ++ le_enc 4 4 ++ le_enc 4 4 ++ le_enc 4 0 ++ le_enc 4 5 ++ ex_cim "Foo".
Proof. eexists. split; [|reflexivity]. vm_compute. reflexivity. Qed.
Print Assumptions C97_offset_refuted.

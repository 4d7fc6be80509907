(** The class definitions of a WMI repository.

    Source: /repo/documentation/WMI repository file format.asciidoc, sections "CIM string", "Class
    definition block", "Qualifiers block", "Property descriptor", "Property definition" and "Predefined
    names". *)

From Verif Require Import Base BaseFacts SeqSpec CoreModel StrModel DictModel Utf16Model TvSpec CatSpec FhSpec WcdModel.

(** The elements of a list without those that were there before. *)
Fixpoint firsts (l : list str) : list str :=
  match l with [] => [] | x :: r => x :: filter (fun y => negb (list_eqb x y)) (firsts r) end.

(** What is assigned one after the other to the keys of an empty dictionary: the keys are in the order of
    their first values, and have their last values. *)
Definition assigned {A} (l : list (str * A)) (t : sdict A) : Prop :=
  map fst t = firsts (map fst l) /\
  (forall k v, In (k, v) t <-> exists before after, l = before ++ (k, v) :: after /\ ~ In k (map fst after)).

(** A CIM string: flags, the text and an end-of-string character. *)
Definition cim_bytes (ansi : bytes -> option str) (s : str) (d : bytes) : Prop := fields [any i8; string_bytes ansi s] d.

Definition cim_at (ansi : bytes -> option str) (data : bytes) (off : Z) (s : str) : Prop := exists d, cim_bytes ansi s d /\ stored_at data off d.

(** Predefined names. *)
Definition known_name (i : Z) (s : str) : Prop :=
  In (i, s) [(1, s2z "key"); (3, s2z "read"); (4, s2z "write"); (6, s2z "provider"); (7, s2z "dynamic"); (10, s2z "type")].

Inductive predefined (i : Z) : str -> Prop :=
| pn_known s : known_name i s -> predefined i s
| pn_unknown : (forall s, ~ known_name i s) -> predefined i (s2z "UNKNOWN_" ++ fmt_d i).

(** A name is a string of the values, or a predefined name if the most significant bit is set. *)
Inductive named (ansi : bytes -> option str) (values : bytes) : Z -> str -> Prop :=
| nd_string off s : off < 2 ^ 31 -> cim_at ansi values off s -> named ansi values off s
| nd_predefined i s : 0 <= i -> predefined i s -> named ansi values (2 ^ 31 + i) s.

(** Signed integers of [n] bytes. *)
Definition sint (n : nat) (v : Z) (d : bytes) : Prop :=
  - 2 ^ (8 * Z.of_nat n - 1) <= v < 2 ^ (8 * Z.of_nat n - 1) /\ d = le_enc n (v mod 2 ^ (8 * Z.of_nat n)).

(** The stored value of a qualifier with a CIM data type. *)
Inductive raw_bytes : Z -> qraw -> bytes -> Prop :=
| rb_sint16 v d : sint 2 v d -> raw_bytes 0x2 (RInt v) d
| rb_sint32 v d : sint 4 v d -> raw_bytes 0x3 (RInt v) d
| rb_real32 d : len d = 4 -> raw_bytes 0x4 (RFloat d) d
| rb_real64 d : len d = 8 -> raw_bytes 0x5 (RFloat d) d
| rb_false : raw_bytes 0xb (RBool false) [0; 0]
| rb_true : raw_bytes 0xb (RBool true) [255; 255]
| rb_sint8 v d : sint 1 v d -> raw_bytes 0x10 (RInt v) d
| rb_uint8 v d : i8 v d -> raw_bytes 0x11 (RInt v) d
| rb_uint16 v d : i16 v d -> raw_bytes 0x12 (RInt v) d
| rb_uint32 v d : i32 v d -> raw_bytes 0x13 (RInt v) d
| rb_sint64 v d : sint 8 v d -> raw_bytes 0x14 (RInt v) d
| rb_uint64 v d : i64 v d -> raw_bytes 0x15 (RInt v) d
| rb_offset t v d : t = 0x8 \/ In t [0x2002; 0x2003; 0x2004; 0x2005; 0x2008; 0x200b; 0x2010; 0x2011; 0x2012; 0x2013; 0x2014; 0x2015] ->
    i32 v d -> raw_bytes t (ROffset v) d.

Definition qdesc_bytes (q : qdesc) (d : bytes) : Prop := fields [i32 (qd_name q); any i8; i32 (qd_type q); raw_bytes (qd_type q) (qd_raw q)] d.

(** The value of a qualifier that a user sees; there is none for arrays and for unsigned 32-bit integers. *)
Inductive value_of (ansi : bytes -> option str) (values : bytes) : Z -> qraw -> qval -> Prop :=
| vo_bool t b : value_of ansi values t (RBool b) (QBool b)
| vo_int t z : t <> 0x13 -> value_of ansi values t (RInt z) (QInt z)
| vo_uint32 z : value_of ansi values 0x13 (RInt z) QNone
| vo_float t d : value_of ansi values t (RFloat d) (QFloat d)
| vo_string off s : cim_at ansi values off s -> value_of ansi values 0x8 (ROffset off) (QStr s)
| vo_array t off : t <> 0x8 -> value_of ansi values t (ROffset off) QNone.

(** A qualifier with its name in lower case. *)
Definition qualifier_of (ansi : bytes -> option str) (lower : str -> str) (values : bytes) (q : qdesc) (kv : str * qval) : Prop :=
  (exists name, named ansi values (qd_name q) name /\ fst kv = lower name) /\ value_of ansi values (qd_type q) (qd_raw q) (snd kv).

(** The qualifiers that a qualifiers block contains. *)
Definition qualifiers_of (ansi : bytes -> option str) (lower : str -> str) (values data : bytes) (t : sdict qval) : Prop :=
  exists qs ds l, Forall2 qdesc_bytes qs ds /\ data = concat ds /\ Forall2 (qualifier_of ansi lower values) qs l /\ assigned l t.

(** The definition of a property; the qualifiers block has its size before it. *)
Definition pdef_bytes (p : pdef) (d : bytes) : Prop :=
  fields [i32 (pd_type p); i16 (pd_index p); i32 (pd_offset p); any i32; i32 (len (pd_quals p) + 4); eq (pd_quals p)] d.

(** The property of a property descriptor. *)
Definition property_of (ansi : bytes -> option str) (lower : str -> str) (values : bytes) (desc : Z * Z) (p : prop) : Prop :=
  named ansi values (fst desc) (p_name p) /\
  exists quals d, pdef_bytes (mkpd (p_type p) (p_index p) (p_offset p) quals) d /\ stored_at values (snd desc) d /\
    qualifiers_of ansi lower values quals (p_quals p).

Definition pdesc_bytes (x : Z * Z) (d : bytes) : Prop := fields [i32 (fst x); i32 (snd x)] d.

(** The class definition block: the size of the values has 27 bits. *)
Definition cblock_bytes (b : cblock) (d : bytes) : Prop :=
  exists def, fields [any i8; i32 (cb_name b); i32 (len def); i32 (len (cb_super b) + 4); eq (cb_super b); i32 (len (cb_quals b) + 4); eq (cb_quals b);
    i32 (len (cb_descs b)); (fun d => exists ds, Forall2 pdesc_bytes (cb_descs b) ds /\ d = concat ds); eq def;
    (fun d => exists v, i32 v d /\ v mod 2 ^ 27 = len (cb_values b)); eq (cb_values b)] d.

(** The class definition that a class definition block contains. *)
Definition class_of (ansi : bytes -> option str) (lower : str -> str) (data : bytes) (c : cdef) : Prop :=
  exists b d rest props, cblock_bytes b d /\ data = d ++ rest /\
    cim_at ansi (cb_values b) (cb_name b) (c_name c) /\
    match c_super c with None => cb_super b = [] | Some s => cim_at ansi (cb_super b) 0 s end /\
    qualifiers_of ansi lower (cb_values b) (cb_quals b) (c_quals c) /\
    Forall2 (property_of ansi lower (cb_values b)) (cb_descs b) props /\
    assigned (map (fun p => (p_name p, p)) props) (c_props c).

(** The object record of a class definition. *)
Definition class_record_of (ansi : bytes -> option str) (lower : str -> str) (record : bytes) (c : cdef) : Prop :=
  exists s name data d rest, utf16_decode s = Some name /\
    fields [(fun d => exists n, i32 n d /\ len s = 2 * n); eq s; any i64; i32 (len data + 4); eq data] d /\ record = d ++ rest /\
    class_of ansi lower data c.

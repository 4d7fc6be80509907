(** The instances of a WMI repository.

    Source: /repo/documentation/WMI repository file format.asciidoc, sections "Instance block", "Instance
    property values", "Instance dynamic property" and "Instance object record". *)

From Verif Require Import Base BaseFacts SeqSpec CoreModel StrModel DictModel Utf16Model TvSpec CatSpec FhSpec WcdModel WcdSpec WcmModel WcmSpec WciModel.

(** The instance block up to the dynamic block; [bits] are the state bits, [quals] the qualifiers. *)
Definition iblock_bytes (nbits vsize : Z) (b : iblock) (d : bytes) : Prop :=
  exists bits quals, len bits = nbits /\ len (ib_values b) = vsize /\ (ib_dyn b = 1 \/ ib_dyn b = 2) /\
    fields [i32 (ib_name b); any i8; eq bits; eq (ib_values b); i32 (len quals + 4); eq quals; i8 (ib_dyn b)] d.

(** A dynamic property has its size, which includes that of the size. *)
Definition dyn_entry (x d : bytes) : Prop := fields [i32 (len x + 4); eq x] d.

(** The dynamic block. *)
Inductive dyn_bytes : Z -> bytes -> Prop :=
| db_1 : dyn_bytes 1 []
| db_2 xs ds d : Forall2 dyn_entry xs ds -> i32 (len xs) d -> dyn_bytes 2 (d ++ concat ds).

(** The two bits per property are stored in whole bytes. *)
Definition state_bytes (n k : Z) : Prop := 2 * n <= 8 * k < 2 * n + 8.

(** The type of a value: how it is stored. *)
Inductive fixed_bytes : str -> pval -> bytes -> Prop :=
| fb_false : fixed_bytes (s2z "boolean") (VBool false) [0; 0]
| fb_true : fixed_bytes (s2z "boolean") (VBool true) [255; 255]
| fb_uint8 v d : i8 v d -> fixed_bytes (s2z "uint8") (VNum v) d
| fb_uint16 v d : i16 v d -> fixed_bytes (s2z "uint16") (VNum v) d
| fb_sint32 v d : sint 4 v d -> fixed_bytes (s2z "sint32") (VNum v) d
| fb_uint32 v d : i32 v d -> fixed_bytes (s2z "uint32") (VNum v) d
| fb_uint64 v d : i64 v d -> fixed_bytes (s2z "uint64") (VNum v) d
| fb_offset v d : i32 v d -> fixed_bytes (s2z "offset") (VNum v) d.

(** The kinds of data types. *)
Definition is_fixed (t : Z) : Prop := In t [0x2; 0x3; 0x4; 0x5; 0xb; 0x10; 0x11; 0x12; 0x13; 0x14; 0x15].
Definition is_string (t : Z) : Prop := In t [0x8; 0x65; 0x66].

(** An array of strings: how many, and the offset of each. *)
Definition array_at (ansi : bytes -> option str) (values : bytes) (off : Z) (l : list str) : Prop :=
  exists offs d ds, stored_at values off (d ++ concat ds) /\ i32 (len offs) d /\ Forall2 i32 offs ds /\ Forall2 (cim_at ansi values) offs l.

(** The value of a property: in the property values data, or in the values data at an offset that is there;
    a string or an array of strings with offset 0 has no value, and other arrays have none. *)
Inductive value_in (ansi : bytes -> option str) (pvals values : bytes) (m : pmap) : pval -> Prop :=
| vi_fixed v d : is_fixed (pm_type m) -> fixed_bytes (pm_qual m) v d -> stored_at pvals (pm_offset m) d -> value_in ansi pvals values m v
| vi_unset d : is_string (pm_type m) \/ pm_type m = 0x2008 -> i32 0 d -> stored_at pvals (pm_offset m) d -> value_in ansi pvals values m VNone
| vi_string off d s : is_string (pm_type m) -> i32 off d -> off <> 0 -> stored_at pvals (pm_offset m) d -> cim_at ansi values off s ->
    value_in ansi pvals values m (VStr s)
| vi_strings off d l : pm_type m = 0x2008 -> i32 off d -> off <> 0 -> stored_at pvals (pm_offset m) d -> array_at ansi values off l ->
    value_in ansi pvals values m (VStrs l)
| vi_other off d : ~ is_fixed (pm_type m) -> ~ is_string (pm_type m) -> pm_type m <> 0x2008 -> i32 off d -> stored_at pvals (pm_offset m) d ->
    value_in ansi pvals values m VNone.

(** What an instance block contains. *)
Definition instance_has (ansi : bytes -> option str) (cm : cmap) (data : bytes) (name : str) (t : sdict pval) : Prop :=
  exists nbits b d1 d2 d3 values vs,
    state_bytes (len (cm_props cm)) nbits /\
    data = d1 ++ d2 ++ d3 ++ values /\ iblock_bytes nbits (cm_size cm) b d1 /\ dyn_bytes (ib_dyn b) d2 /\ any i32 d3 /\
    cim_at ansi values (ib_name b) name /\
    Forall2 (value_in ansi (ib_values b) values) (map snd (cm_props cm)) vs /\
    assigned (combine (map (fun kp => pm_name (snd kp)) (cm_props cm)) vs) t.

(** The object record of an instance: the hash of the class name has 32 characters in version 2.1 and 64 in
    version 2.2. *)
Definition record_has (old : bool) (record : bytes) (hash : str) (data : bytes) : Prop :=
  exists h d rest, utf16_decode h = Some hash /\ len h = (if old then 64 else 128) /\
    fields [eq h; any i64; any i64; i32 (len data + 4); eq data] d /\ record = d ++ rest.

(** A class map whose offsets are in order. *)
Definition map_wf (cm : cmap) : Prop := Forall (fun kp => 0 <= pm_offset (snd kp)) (cm_props cm).

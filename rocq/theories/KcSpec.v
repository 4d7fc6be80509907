(** MacOS keychain databases, after "MacOS keychain database file format.asciidoc". *)

From Verif Require Import Base BaseFacts SeqSpec KcModel.

Definition u32 (z : Z) : Prop := 0 <= z < 2 ^ 32.
Definition ascii (s : bytes) : Prop := Forall (fun c => 0 <= c < 128) s.

(** A column value of a data type in the record [rec], whose values start at [first]. Offsets
    of values count from 1, 0 means that there is no value. Data types: 0 string, 1 signed
    and 2 unsigned 32-bit integer, 5 date and time of 16 characters, 6 binary data; others are
    not supported. *)
Inductive kc_stored (rec : bytes) (first : Z) : kval -> Z -> kval -> Prop :=
| kcs_none t : kc_stored rec first t 0 KNone
| kcs_unsupported t o : ~ In t (map KInt [0; 1; 2; 5; 6]) -> kc_stored rec first t o KNone
| kcs_string o s : first < o -> ascii s -> u32 (len s) -> stored_at rec (o - 1) (be_enc 4 (len s) ++ s) ->
    kc_stored rec first (KInt 0) o (KStr s)
| kcs_signed o z : first < o -> 0 <= z < 2 ^ 31 -> stored_at rec (o - 1) (be_enc 4 z) ->
    kc_stored rec first (KInt 1) o (KInt z)
| kcs_unsigned o z : first < o -> u32 z -> stored_at rec (o - 1) (be_enc 4 z) ->
    kc_stored rec first (KInt 2) o (KInt z)
| kcs_date o s n : first < o -> ascii s -> (forall r, s <> r ++ [0]) -> (length s + n = 16)%nat ->
    stored_at rec (o - 1) (s ++ repeat 0 n) -> kc_stored rec first (KInt 5) o (KStr s)
| kcs_blob o b : first < o -> u32 (len b) -> stored_at rec (o - 1) (be_enc 4 (len b) ++ b) ->
    kc_stored rec first (KInt 6) o (KBlob b).

(** The record at an offset of the file: its size and five other integers, the offsets of its
    values, the values. *)
Definition kc_record_at (content : bytes) (off : Z) (offsets : list Z) (rec : bytes) : Prop :=
  exists header values,
    stored_at content off rec /\ rec = be_enc 4 (len rec) ++ concat (map (be_enc 4) header) ++ concat (map (be_enc 4) offsets) ++ values /\
    length header = 5%nat /\ Forall u32 header /\ u32 (len rec) /\ Forall u32 offsets.

(** The state of the database: the relations by identifier. *)
Definition kdb := Z -> option ktable.
Definition upd (m : kdb) (k : Z) (t : ktable) : kdb := fun k' => if k' =? k then Some t else m k'.

Definition with_record (t : ktable) (r : krow) : ktable :=
  mkktable (kt_id t) (kt_name t) (kt_columns t) (kt_records t ++ [r]).
Definition with_column (t : ktable) (c : kcol) : ktable :=
  mkktable (kt_id t) (kt_name t) (kt_columns t ++ [c]) (kt_records t).

(** The name of a column without a name: the 4 characters of its identifier. *)
Inductive kc_column_name (rec : bytes) : kval -> Z -> option str -> Prop :=
| kcn_name s o : kc_column_name rec (KStr s) o (Some s)
| kcn_identifier o s : o <> 0 -> ascii s -> length s = 4%nat -> stored_at rec (o - 1) s ->
    kc_column_name rec KNone o (Some s)
| kcn_none : kc_column_name rec KNone 0 None.

(** What the record at an offset does to the database, per record type. *)
Inductive kc_step (content : bytes) (off : Z) : Z -> kdb -> kdb -> Prop :=
(* A relation is defined, without columns and records. *)
| kcstep_info db rec rel name t0 :
    kc_record_at content off [33; 37] rec ->
    stored_at rec 32 (be_enc 4 rel ++ be_enc 4 (len name) ++ name) ->
    u32 rel -> u32 (len name) -> ascii name ->
    upd db rel (mkktable rel name [] []) 0 = Some t0 ->
    kc_step content off 0 db
      (upd (upd db rel (mkktable rel name [] [])) 0
         (with_record t0 [(Some (s2z "RelationID"), KInt rel); (Some (s2z "RelationName"), KStr name)]))
(* An index of a relation. *)
| kcstep_index db rec rel index attribute kind location t t1 :
    kc_record_at content off [45; 49; 53; 57; 61] rec ->
    stored_at rec 44 (be_enc 4 rel ++ be_enc 4 index ++ be_enc 4 attribute ++ be_enc 4 kind ++ be_enc 4 location) ->
    Forall u32 [rel; index; attribute; kind; location] ->
    db rel = Some t -> db 1 = Some t1 ->
    kc_step content off 1 db
      (upd db 1
         (with_record t1
            [(Some (s2z "RelationID"), KInt rel); (Some (s2z "IndexID"), KInt index);
             (Some (s2z "AttributeID"), KInt attribute); (Some (s2z "IndexType"), KInt kind);
             (Some (s2z "IndexedDataLocation"), KInt location)]))
(* A column of a relation. *)
| kcstep_attribute db rec o0 o1 o2 o3 o4 o5 rel identifier format name data_type column t t2 :
    kc_record_at content off [o0; o1; o2; o3; o4; o5] rec ->
    o0 <> 0 -> kc_stored rec 48 (KInt 2) o0 (KInt rel) ->
    kc_stored rec 48 (KInt 2) o1 identifier -> kc_stored rec 48 (KInt 2) o2 format ->
    kc_stored rec 48 (KInt 0) o3 name -> kc_stored rec 48 (KInt 2) o5 data_type ->
    kc_column_name rec name o1 column ->
    db rel = Some t ->
    upd db rel (with_column t (mkkcol data_type identifier column)) 2 = Some t2 ->
    kc_step content off 2 db
      (upd (upd db rel (with_column t (mkkcol data_type identifier column))) 2
         (with_record t2
            [(Some (s2z "RelationID"), KInt rel); (Some (s2z "AttributeID"), identifier);
             (Some (s2z "AttributeNameFormat"), format);
             (Some (s2z "AttributeName"), match column with Some s => KStr s | None => KNone end);
             (Some (s2z "AttributeFormat"), data_type)]))
(* A record of another relation: a value for every column. *)
| kcstep_row db rec type offsets t values :
    type <> 0 -> type <> 1 -> type <> 2 ->
    kc_record_at content off offsets rec -> db type = Some t ->
    length offsets = length (kt_columns t) ->
    Forall2 (fun c ov => kc_stored rec (24 + 4 * len offsets) (kc_type c) (fst ov) (snd ov))
      (kt_columns t) (combine offsets values) ->
    length values = length offsets -> NoDup (map kc_name (kt_columns t)) ->
    kc_step content off type db (upd db type (with_record t (combine (map kc_name (kt_columns t)) values))).

(** One step after the other. *)
Inductive steps {A} (step : A -> kdb -> kdb -> Prop) : list A -> kdb -> kdb -> Prop :=
| steps_nil db : steps step [] db db
| steps_cons x xs db db1 db2 : step x db db1 -> steps step xs db1 db2 -> steps step (x :: xs) db db2.

(** A table: a header with the record type, the offsets of the records, where 0 is no record. *)
Definition kc_table (content : bytes) (off : Z) (db db' : kdb) : Prop :=
  exists size type records array unknown1 unknown2 offsets,
    stored_at content off
      (be_enc 4 size ++ be_enc 4 type ++ be_enc 4 records ++ be_enc 4 array ++ be_enc 4 unknown1 ++ be_enc 4 unknown2 ++
       be_enc 4 (len offsets) ++ concat (map (be_enc 4) offsets)) /\
    Forall u32 [size; type; records; array; unknown1; unknown2; len offsets] /\ Forall u32 offsets /\
    steps (fun o => kc_step content (off + o) type) (filter (fun o => negb (o =? 0)) offsets) db db'.

(** A file: the header has the offset of the array with the offsets of the tables. *)
Definition kc_file (content : bytes) (db : kdb) : Prop :=
  exists major minor data_size array unknown size offsets,
    stored_at content 0
      (s2z "kych" ++ be_enc 2 major ++ be_enc 2 minor ++ be_enc 4 data_size ++ be_enc 4 array ++ be_enc 4 unknown) /\
    0 <= major < 2 ^ 16 /\ 0 <= minor < 2 ^ 16 /\ Forall u32 [data_size; array; unknown; size; len offsets] /\
    stored_at content array (be_enc 4 size ++ be_enc 4 (len offsets) ++ concat (map (be_enc 4) offsets)) /\
    Forall u32 offsets /\
    steps (fun o => kc_table content (array + o)) offsets (fun _ => None) db.

(** [v] is the value of the last pair of the list with the key [k]. *)
Definition last_value {A B} (k : A) (v : B) (l : list (A * B)) : Prop :=
  exists l1 l2, l = l1 ++ (k, v) :: l2 /\ ~ In k (map fst l2).

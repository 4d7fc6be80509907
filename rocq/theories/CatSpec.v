(** The catalog of a tracev3 file.

    Source: /repo/documentation/Apple Unified Logging and Activity Tracing formats.asciidoc, section
    "Catalog chunk". *)

From Verif Require Import Base BaseFacts SeqSpec TvSpec CatModel.

(** A signed 16-bit integer. *)
Definition s16 (v : Z) (d : bytes) : Prop := - 2 ^ 15 <= v < 2 ^ 15 /\ d = le_enc 2 (v mod 2 ^ 16).

(** What is stored 64-bit aligned. *)
Definition aligned (P : bytes -> Prop) (d : bytes) : Prop :=
  exists b pad, P b /\ d = b ++ pad /\ next8 (len b) (len d).

(** Elements that cover a number of bytes: without the last one they do not. *)
Definition covers (size : Z) (ds : list bytes) : Prop :=
  size <= len (concat ds) /\ forall init last, ds = init ++ [last] -> len (concat init) < size.

Definition uuid_entry_bytes (x : uuid_entry) (d : bytes) : Prop :=
  n32 (ue_size x) /\ n16 (ue_index x) /\ n32 (ue_lower x) /\ n16 (ue_upper x) /\
  exists u, n32 u /\ d = le_enc 4 (ue_size x) ++ le_enc 4 u ++ le_enc 2 (ue_index x) ++ le_enc 4 (ue_lower x) ++ le_enc 2 (ue_upper x).

Definition sub_entry_bytes (x : sub_entry) (d : bytes) : Prop :=
  n16 (se_id x) /\ n16 (se_sub x) /\ n16 (se_cat x) /\ d = le_enc 2 (se_id x) ++ le_enc 2 (se_sub x) ++ le_enc 2 (se_cat x).

Definition process_bytes (p : process) : bytes -> Prop := aligned (fun d =>
  n64 (pr_upper p) /\ n32 (pr_lower p) /\ n32 (pr_pid p) /\ n32 (pr_euid p) /\ n32 (len (pr_uuids p)) /\ n32 (len (pr_subs p)) /\
  exists index u1 u2 u3 u4 main dsc us ss,
    n16 index /\ n16 u1 /\ n32 u2 /\ n32 u3 /\ n32 u4 /\ s16 (pr_main p) main /\ s16 (pr_dsc p) dsc /\
    Forall2 uuid_entry_bytes (pr_uuids p) us /\ Forall2 sub_entry_bytes (pr_subs p) ss /\
    d = le_enc 2 index ++ le_enc 2 u1 ++ main ++ dsc ++ le_enc 8 (pr_upper p) ++ le_enc 4 (pr_lower p) ++ le_enc 4 (pr_pid p) ++ le_enc 4 (pr_euid p) ++
        le_enc 4 u2 ++ le_enc 4 (len (pr_uuids p)) ++ le_enc 4 u3 ++ concat us ++ le_enc 4 (len (pr_subs p)) ++ le_enc 4 u4 ++ concat ss).

Definition sub_chunk_bytes : bytes -> Prop := aligned (fun d =>
  exists start stop size algorithm indexes offsets,
    n64 start /\ n64 stop /\ n32 size /\ n32 algorithm /\ n32 (len indexes) /\ n32 (len offsets) /\ Forall n16 indexes /\ Forall n16 offsets /\
    d = le_enc 8 start ++ le_enc 8 stop ++ le_enc 4 size ++ le_enc 4 algorithm ++ le_enc 4 (len indexes) ++ concat (map (le_enc 2) indexes) ++
        le_enc 4 (len offsets) ++ concat (map (le_enc 2) offsets)).

Definition string_bytes (utf8 : bytes -> option str) (t : str) (d : bytes) : Prop := exists s, ~ In 0 s /\ utf8 s = Some t /\ d = s ++ [0].

Definition catalog_head (so po n co m earliest : Z) (d : bytes) : Prop :=
  n16 so /\ n16 po /\ n16 n /\ n16 co /\ n16 m /\ n64 earliest /\ exists u, len u = 6 /\
  d = le_enc 2 so ++ le_enc 2 po ++ le_enc 2 n ++ le_enc 2 co ++ le_enc 2 m ++ u ++ le_enc 8 earliest.

(** A catalog as it is read; [ss] are the stored strings. *)
Definition catalog_bytes (utf8 : bytes -> option str) (c : catalog) (ss : list bytes) (d : bytes) : Prop :=
  exists so po co h ps ms, catalog_head so po (len (ca_processes c)) co (len ms) (ca_earliest c) h /\
    Forall (fun u => len u = 16) (ca_uuids c) /\ len (ca_uuids c) = so / 16 /\ so <= po /\
    Forall2 (string_bytes utf8) (ca_strings c) ss /\ covers (po - so) ss /\
    Forall2 process_bytes (ca_processes c) ps /\ Forall sub_chunk_bytes ms /\
    d = h ++ concat (ca_uuids c) ++ concat ss ++ concat ps ++ concat ms.

(** A catalog as it is documented: the offsets are relative to the UUIDs. *)
Definition catalog_documented (utf8 : bytes -> option str) (c : catalog) (ss : list bytes) (d : bytes) : Prop :=
  exists h ps ms,
    let so := len (concat (ca_uuids c)) in
    let po := so + len (concat ss) in
    let co := po + len (concat ps) in
    catalog_head so po (len (ca_processes c)) co (len ms) (ca_earliest c) h /\
    Forall (fun u => len u = 16) (ca_uuids c) /\ Forall2 (string_bytes utf8) (ca_strings c) ss /\
    Forall2 process_bytes (ca_processes c) ps /\ Forall sub_chunk_bytes ms /\
    d = h ++ concat (ca_uuids c) ++ concat ss ++ concat ps ++ concat ms.

(** ** Process information *)

(** The UUID at an index; negative indexes stand for none. *)
Definition uuid_of (uuids : list bytes) (i : Z) (o : option bytes) : Prop :=
  match o with None => i < 0 | Some u => exists a b, uuids = a ++ u :: b /\ len a = i end.

Definition indexes_ok (uuids : list bytes) (p : process) : Prop := pr_main p < len uuids /\ pr_dsc p < len uuids.

Definition id_of (p : process) : Z * Z := (pr_upper p, pr_lower p).

Definition processes_ok (uuids : list bytes) (l : list process) : Prop := Forall (indexes_ok uuids) l /\ NoDup (map id_of l).

(** The first entry that cannot be used, and why. *)
Definition processes_bad (uuids : list bytes) (l : list process) (e : exn) : Prop :=
  exists a p b, l = a ++ p :: b /\ processes_ok uuids a /\
    ((~ indexes_ok uuids p /\ e = IndexError) \/ (indexes_ok uuids p /\ In (id_of p) (map id_of a) /\ e = ParseError)).

(** ** Sub systems *)

(** The string that begins at an offset of the strings. *)
Definition string_at (ts : list str) (ss : list bytes) (off : Z) (t : str) : Prop :=
  exists a d b a' b', ss = a ++ d :: b /\ ts = a' ++ t :: b' /\ len a = len a' /\ off = len (concat a).

(** Strings with one character for each byte. *)
Definition plain_strings (ts : list str) (ss : list bytes) : Prop := Forall2 (fun t d => len d = len t + 1) ts ss.

Definition string_or_none (ts : list str) (ss : list bytes) (off : Z) (o : option str) : Prop :=
  match o with Some t => string_at ts ss off t | None => forall t, ~ string_at ts ss off t end.

(** The last entry with an identifier. *)
Definition last_entry (l : list sub_entry) (id : Z) (x : sub_entry) : Prop :=
  exists a b, l = a ++ x :: b /\ se_id x = id /\ Forall (fun y => se_id y <> id) b.

(** Apple System Log files, after "Apple System Log (ASL) file format.asciidoc". *)

From Verif Require Import Base BaseFacts SeqSpec AslModel.

Definition u64 (z : Z) : Prop := 0 <= z < 2 ^ 64.

(** The integer of big-endian bytes. *)
Definition be_value (b : bytes) : Z := fold_left (fun a c => a * 256 + c) b 0.

(** A string reference: 0 is no string. With the highest bit the string is inside the
    reference: 4 bits with the value 8, 4 bits with its size, 7 bytes that start with the
    string. Otherwise it is the offset of the string, whose trailing NUL characters do not
    count. The last argument is the offset behind a string that is stored at an offset. *)
Inductive asl_ref (utf8 : bytes -> option str) (content : bytes) : Z -> option str -> option Z -> Prop :=
| asr_none : asl_ref utf8 content 0 None None
| asr_inline b pad s : is_bytes b -> is_bytes pad -> length (b ++ pad) = 7%nat -> utf8 b = Some s ->
    asl_ref utf8 content (8 * 2 ^ 60 + len b * 2 ^ 56 + be_value (b ++ pad)) (Some s) None
| asr_stored off u b s n : 0 < off < 2 ^ 63 -> 0 <= u < 2 ^ 16 -> len b < 2 ^ 32 ->
    stored_at content off (be_enc 2 u ++ be_enc 4 (len b) ++ b) ->
    utf8 b = Some (s ++ repeat 0 n) -> (forall r, s <> r ++ [0]) ->
    asl_ref utf8 content off (Some s) (Some (off + 6 + len b)).

(** The extra fields: pairs of string references. The position moves behind every string
    that is stored at an offset. *)
Definition moved (pos : Z) (e : option Z) : Z := match e with Some p => p | None => pos end.

Inductive asl_pairs (utf8 : bytes -> option str) (content : bytes) : list (Z * Z) -> Z -> list (option str * option str) -> Z -> Prop :=
| asp_nil pos : asl_pairs utf8 content [] pos [] pos
| asp_cons n v refs pos name value e1 e2 l pos' :
    u64 n -> u64 v -> asl_ref utf8 content n name e1 -> asl_ref utf8 content v value e2 ->
    asl_pairs utf8 content refs (moved (moved pos e1) e2) l pos' ->
    asl_pairs utf8 content ((n, v) :: refs) pos ((name, value) :: l) pos'.

(** The fields that have a name. *)
Fixpoint named (l : list (option str * option str)) : list (str * option str) :=
  match l with
  | [] => []
  | (Some n, v) :: r => (n, v) :: named r
  | (None, _) :: r => named r
  end.

Record asl_other := mkother { ao_unknown : Z; ao_id : Z; ao_time : Z; ao_ns : Z; ao_level : Z; ao_flags : Z; ao_pid : Z;
                              ao_uid : Z; ao_gid : Z; ao_ruid : Z; ao_rgid : Z; ao_ref : Z; ao_previous : Z }.

Definition other_ok (o : asl_other) : Prop :=
  Forall (fun z => 0 <= z < 2 ^ 16) [ao_unknown o; ao_level o; ao_flags o] /\
  Forall (fun z => 0 <= z < 2 ^ 32) [ao_ns o; ao_pid o] /\
  Forall (fun z => - 2 ^ 31 <= z < 2 ^ 31) [ao_uid o; ao_gid o; ao_ruid o; ao_rgid o] /\
  Forall u64 [ao_id o; ao_time o; ao_ref o; ao_previous o].

(** A record as stored: its size counts from behind the first 6 bytes; the extra fields and the
    offset of the previous record follow its fixed part. *)
Definition asl_bytes (o : asl_other) (next host sender facility message : Z) (refs : list (Z * Z)) : bytes :=
  be_enc 2 (ao_unknown o) ++ be_enc 4 (100 + 16 * len refs) ++ be_enc 8 next ++ be_enc 8 (ao_id o) ++ be_enc 8 (ao_time o) ++
  be_enc 4 (ao_ns o) ++ be_enc 2 (ao_level o) ++ be_enc 2 (ao_flags o) ++ be_enc 4 (ao_pid o) ++
  be_enc 4 (ao_uid o mod 2 ^ 32) ++ be_enc 4 (ao_gid o mod 2 ^ 32) ++ be_enc 4 (ao_ruid o mod 2 ^ 32) ++ be_enc 4 (ao_rgid o mod 2 ^ 32) ++
  be_enc 8 (ao_ref o) ++ be_enc 8 host ++ be_enc 8 sender ++ be_enc 8 facility ++ be_enc 8 message ++
  concat (map (fun p => be_enc 8 (fst p) ++ be_enc 8 (snd p)) refs) ++ be_enc 8 (ao_previous o).

(** The record at an offset, the offset of the next one, and the file position after it. *)
Definition asl_at (utf8 : bytes -> option str) (content : bytes) (off : Z) (r : asl_rec) (next pos : Z) : Prop :=
  exists o host sender facility message refs l e1 e2 e3 e4,
    stored_at content off (asl_bytes o next host sender facility message refs) /\ other_ok o /\
    Forall u64 [next; host; sender; facility; message] /\ 100 + 16 * len refs < 2 ^ 32 /\
    asl_ref utf8 content host (as_host r) e1 /\ asl_ref utf8 content sender (as_sender r) e2 /\
    asl_ref utf8 content facility (as_facility r) e3 /\ asl_ref utf8 content message (as_message r) e4 /\
    asl_pairs utf8 content refs (off + 106 + 16 * len refs) l pos /\
    NoDup (map fst (named l)) /\ as_extra r = named l.

(** A chain of records that ends with offset 0 or one outside the file. No record starts before
    the position that its predecessor left. *)
Inductive asl_chain (utf8 : bytes -> option str) (content : bytes) : Z -> Z -> list asl_rec -> Prop :=
| asc_end pos off : len content <= off -> asl_chain utf8 content pos off []
| asc_last pos off r pos' : pos <= off < len content -> asl_at utf8 content off r 0 pos' -> asl_chain utf8 content pos off [r]
| asc_next pos off r next pos' rs : pos <= off < len content -> asl_at utf8 content off r next pos' -> next <> 0 ->
    asl_chain utf8 content pos' next rs -> asl_chain utf8 content pos off (r :: rs).

(** A file: the header, and the records from the offset of the first one. *)
Definition asl_file (utf8 : bytes -> option str) (content : bytes) (rs : list asl_rec) : Prop :=
  exists version first created cache last unknown rest,
    content = s2z "ASL DB" ++ repeat 0 6 ++ be_enc 4 version ++ be_enc 8 first ++ be_enc 8 created ++ be_enc 4 cache ++
              be_enc 8 last ++ unknown ++ rest /\
    0 <= version < 2 ^ 32 /\ 0 <= cache < 2 ^ 32 /\ Forall u64 [first; created; last] /\
    length unknown = 36%nat /\ is_bytes unknown /\
    (first = 0 /\ rs = [] \/ first <> 0 /\ asl_chain utf8 content 80 first rs).

(** Basic Security Module event auditing files, after "Basic Security Module (BSM) event auditing
    file format.asciidoc". *)

From Verif Require Import Base BaseFacts SeqSpec MemModel MemSpec BsmModel.

(** Unsigned big-endian integers of the given sizes, one after the other. *)
Inductive nums : list nat -> list Z -> bytes -> Prop :=
| nums_nil : nums [] [] []
| nums_cons n sizes z l d : 0 <= z < 256 ^ Z.of_nat n -> nums sizes l d -> nums (n :: sizes) (z :: l) (be_enc n z ++ d).

(** Signed 32-bit integers. *)
Definition int32s (l : list Z) (d : bytes) : Prop :=
  Forall (fun z => - 2 ^ 31 <= z < 2 ^ 31) l /\ d = concat (map (fun z => be_enc 4 (z mod 2 ^ 32)) l).

Definition ascii_text (s : bytes) : Prop := Forall (fun c => c < 128) s.

(** Tokens: the type is followed by the values. *)
Inductive token_enc : token -> bytes -> Prop :=
(** Tokens of integers: AUT_HEADER32, AUT_IPC, AUT_RETURN32, AUT_IPORT, AUT_SEQ, AUT_IPC_PERM,
    AUT_EXIT, AUT_RETURN64, AUT_HEADER64 *)
| tk_ints t sizes l d :
    In (t, sizes) [(0x14, [4; 1; 2; 2; 4; 4]%nat); (0x22, [1; 4]%nat); (0x27, [1; 4]%nat); (0x2c, [2]%nat); (0x2f, [4]%nat);
                   (0x32, [4; 4; 4; 4; 2; 2; 2; 2; 2; 2]%nat); (0x52, [4; 4]%nat); (0x72, [1; 8]%nat); (0x74, [4; 1; 2; 2; 8; 8]%nat)] ->
    nums sizes l d -> token_enc (t, map MI l) (t :: d)
(** AUT_TRAILER *)
| tk_trailer size d : nums [2; 4]%nat [0xb105; size] d -> token_enc (0x13, [MI 0xb105; MI size]) (0x13 :: d)
(** AUT_ATTR32, AUT_ATTR64 *)
| tk_attr t n pad mode uid gid fs id dev d1 d2 d3 : In (t, n) [(0x3e, 4%nat); (0x73, 8%nat)] ->
    nums [2; 2]%nat [pad; mode] d1 -> int32s [uid; gid] d2 -> nums [4; 8; n]%nat [fs; id; dev] d3 ->
    token_enc (t, map MI [pad; mode; uid; gid; fs; id; dev]) (t :: d1 ++ d2 ++ d3)
(** Tokens that end with a text: AUT_OTHER_FILE32, AUT_PATH, AUT_TEXT, AUT_ARG32, AUT_ZONENAME,
    AUT_ARG64 *)
| tk_text t sizes l d s : In (t, sizes) [(0x11, [4; 4]%nat); (0x23, []); (0x28, []); (0x2d, [1; 4]%nat); (0x60, []); (0x71, [1; 8]%nat)] ->
    nums sizes l d -> len s < 2 ^ 16 -> ascii_text s -> token_enc (t, map MI l ++ [MI (len s); MB s]) (t :: d ++ be_enc 2 (len s) ++ s)
(** AUT_OPAQUE *)
| tk_opaque s : len s < 2 ^ 16 -> token_enc (0x29, [MI (len s); MB s]) (0x29 :: be_enc 2 (len s) ++ s)
(** AUT_DATA; the reader takes the number of elements for their size. *)
| tk_data format type s d : nums [1; 1; 1]%nat [format; type; len s] d -> token_enc (0x21, [MI format; MI type; MI (len s); MB s]) (0x21 :: d ++ s)
(** AUT_SUBJECT32, AUT_PROCESS32, AUT_SUBJECT64, AUT_PROCESS64 *)
| tk_subject t n auid euid egid ruid rgid pid sid port addr d1 d2 : In (t, n) [(0x24, 4%nat); (0x26, 4%nat); (0x75, 8%nat); (0x77, 8%nat)] ->
    int32s [auid; euid; egid; ruid; rgid] d1 -> nums [4; 4; n]%nat [pid; sid; port] d2 -> len addr = 4 ->
    token_enc (t, map MI [auid; euid; egid; ruid; rgid; pid; sid; port] ++ [MB addr]) (t :: d1 ++ d2 ++ addr)
(** AUT_SUBJECT32_EX, AUT_PROCESS32_EX, AUT_SUBJECT64_EX, AUT_PROCESS64_EX *)
| tk_subject_ex t n auid euid egid ruid rgid pid sid port addr d1 d2 : In (t, n) [(0x7a, 4%nat); (0x7b, 4%nat); (0x7c, 8%nat); (0x7d, 8%nat)] ->
    int32s [auid; euid; egid; ruid; rgid] d1 -> nums [4; 4; n; 4]%nat [pid; sid; port; len addr] d2 ->
    token_enc (t, map MI [auid; euid; egid; ruid; rgid; pid; sid; port; len addr] ++ [MB addr]) (t :: d1 ++ d2 ++ addr)
(** AUT_HEADER32_EX, AUT_HEADER64_EX *)
| tk_header_ex t n size version type modifier addr time us d1 d2 : In (t, n) [(0x15, 4%nat); (0x79, 8%nat)] ->
    nums [4; 1; 2; 2; 4]%nat [size; version; type; modifier; len addr] d1 -> nums [n; n] [time; us] d2 ->
    token_enc (t, map MI [size; version; type; modifier; len addr] ++ [MB addr; MI time; MI us]) (t :: d1 ++ addr ++ d2)
(** AUT_IN_ADDR, AUT_IP, AUT_IN_ADDR_EX, AUT_SOCKINET32, AUT_SOCKINET128 *)
| tk_in_addr addr : len addr = 4 -> token_enc (0x2a, [MB addr]) (0x2a :: addr)
| tk_ip head source target : len head = 12 -> len source = 4 -> len target = 4 ->
    token_enc (0x2b, [MB head; MB source; MB target]) (0x2b :: head ++ source ++ target)
| tk_in_addr_ex type addr d : nums [4]%nat [type] d -> len addr = 16 -> token_enc (0x7e, [MI type; MB addr]) (0x7e :: d ++ addr)
| tk_inet t n family port addr d : In (t, n) [(0x80, 4); (0x81, 16)] -> nums [2; 2]%nat [family; port] d -> len addr = n ->
    token_enc (t, [MI family; MI port; MB addr]) (t :: d ++ addr)
(** AUT_SOCKET_EX *)
| tk_socket domain type port addr port' addr' d1 d2 : nums [2; 2; 2; 2]%nat [domain; type; len addr; port] d1 -> nums [2]%nat [port'] d2 -> len addr' = len addr ->
    token_enc (0x7f, [MI domain; MI type; MI (len addr); MI port; MB addr; MI port'; MB addr']) (0x7f :: d1 ++ addr ++ d2 ++ addr')
(** AUT_SOCKUNIX *)
| tk_unix family s d : nums [2]%nat [family] d -> ~ In 0 s -> ascii_text s -> token_enc (0x82, [MI family; MB s]) (0x82 :: d ++ s ++ [0])
(** AUT_GROUPS, AUT_NEWGROUPS *)
| tk_groups t l d1 d2 : In t [0x34; 0x3b] -> nums [4]%nat [len l] d1 -> nums (repeat 4%nat (length l)) l d2 -> token_enc (t, [MI (len l); ML l]) (t :: d1 ++ d2)
(** AUT_EXEC_ARGS, AUT_EXEC_ENV *)
| tk_exec t l d : In t [0x3c; 0x3d] -> nums [4]%nat [len l] d -> Forall (fun s => ~ In 0 s /\ ascii_text s) l ->
    token_enc (t, [MI (len l); MS l]) (t :: d ++ concat (map (fun s => s ++ [0]) l)).

Inductive tokens_enc : list token -> bytes -> Prop :=
| te_nil : tokens_enc [] []
| te_cons k l d d' : token_enc k d -> tokens_enc l d' -> tokens_enc (k :: l) (d ++ d').

(** Headers of format version 11 and of records of [size] bytes. *)
Definition header_of (size : Z) (k : token) : Prop :=
  In (fst k) [20; 21; 116; 121] /\ exists vs, snd k = MI size :: MI 11 :: vs.

Definition trailer_of (size : Z) (k : token) : Prop := k = (19, [MI 45317; MI size]).

(** An event record: a header, tokens that are no trailers, and a trailer, where header and
    trailer have the size of the record. *)
Definition bsm_record (l : list token) (d : bytes) : Prop :=
  exists h body t, l = h :: body ++ [t] /\ header_of (len d) h /\ trailer_of (len d) t /\
    Forall (fun k => fst k <> 19) body /\ tokens_enc l d.

Inductive bsm_file : list (list token) -> bytes -> Prop :=
| bf_nil : bsm_file [] []
| bf_cons r rs d d' : bsm_record r d -> bsm_file rs d' -> bsm_file (r :: rs) (d ++ d').

(** Documented sizes of the tokens without sized data. *)
Definition documented_size (t : Z) : option Z :=
  match t with
  | 19 => Some 7 | 20 => Some 18 | 34 => Some 6 | 36 => Some 37 | 38 => Some 37 | 39 => Some 6 | 42 => Some 5 | 43 => Some 21
  | 44 => Some 3 | 47 => Some 5 | 50 => Some 29 | 62 => Some 29 | 82 => Some 9 | 114 => Some 10 | 115 => Some 33 | 116 => Some 26
  | 117 => Some 41 | 119 => Some 41 | 126 => Some 21 | 128 => Some 9 | 129 => Some 21
  | _ => None
  end.

(** Documented sizes of the elements of data tokens, by the element data type. *)
Definition element_size (t : Z) : Z := match t with 0 => 1 | 1 => 2 | 2 => 4 | _ => 8 end.

(** Opening a tracev3 file.

    Source: /repo/documentation/Apple Unified Logging and Activity Tracing formats.asciidoc, section "Header
    chunk", and the comments unified_logging.py:4925-4928 and 4962-4966 on the places of the files. *)

From Verif Require Import Base BaseFacts SeqSpec CoreModel StrModel TvModel TvSpec FhSpec AulModel AulSpec SdSpec TvoModel.
From Coq Require String.
Import String.StringSyntax.

(** ** Paths *)

(** The absolute path with these segments. *)
Fixpoint abs_path (l : list str) : str := match l with [] => [] | s :: l => 47 :: s ++ abs_path l end.

(** What can be the name of a file or directory. *)
Definition name_ok (s : str) : Prop := s <> [] /\ ~ In 47 s.

(** The name of a log archive. *)
Definition archive_name (lower : str -> str) (s : str) : Prop := exists b, lower s = b ++ s2z ".logarchive"%string.

(** The innermost of the last three directories that is a log archive. *)
Definition in_archive (lower : str -> str) (dirs base : list str) : Prop :=
  exists pre a below, dirs = pre ++ a :: below /\ base = pre ++ [a] /\ archive_name lower a /\ (length below <= 2)%nat /\ Forall (fun s => ~ archive_name lower s) below.

(** The directory of diagnostics and uuidtext, such as /private/var/db for the files of
    /private/var/db/diagnostics/Persist. *)
Definition in_database (lower : str -> str) (dirs base : list str) : Prop :=
  exists d1 d2, dirs = base ++ [d1; d2] /\ ~ archive_name lower d1 /\ ~ archive_name lower d2 /\ (forall pre a, base = pre ++ [a] -> ~ archive_name lower a).

(** The first of these paths that exists, or else [old]. *)
Inductive first_there (there : str -> bool) (old : option str) : list (list str) -> option str -> Prop :=
| ft_none : first_there there old [] old
| ft_here x l : there (abs_path x) = true -> first_there there old (x :: l) (Some (abs_path x))
| ft_next x l o : there (abs_path x) = false -> first_there there old l o -> first_there there old (x :: l) o.

Definition timesync_of (base : list str) : list (list str) :=
  [base ++ [s2z "timesync"%string]; base ++ [s2z "diagnostics"%string; s2z "timesync"%string]].

(** If a directory entry exists then so does its directory. *)
Definition closed (there : str -> bool) : Prop := forall l s, l <> [] -> there (abs_path (l ++ [s])) = true -> there (abs_path l) = true.

(** ** The header chunk *)

Definition si32 (v : Z) (d : bytes) : Prop := - 2 ^ 31 <= v < 2 ^ 31 /\ d = le_enc 4 (if v <? 0 then v + 2 ^ 32 else v).

Definition sub_chunk (tag : Z) (P : bytes -> Prop) (d : bytes) : Prop := fields [i32 tag; any i32; P] d.

Definition some_text (utf8 : bytes -> option str) (size : Z) (d : bytes) : Prop := exists s, text_bytes utf8 size s d.

Definition header_bytes (utf8 : bytes -> option str) (h : header) (d : bytes) : Prop :=
  fields [i32 (hd_num h); i32 (hd_den h); i64 (hd_start h); si32 (hd_time h); any i32; any i32; any si32; any i32; i32 (hd_flags h);
    sub_chunk 0x6100 (i64 (hd_continuous h));
    sub_chunk 0x6101 (fields [any i32; any i32; some_text utf8 16; some_text utf8 32]);
    sub_chunk 0x6102 (fields [uuid_bytes (hd_boot h); any i32; any i32]);
    sub_chunk 0x6103 (some_text utf8 48)] d.

(** A file that begins with a header chunk; the next chunk is at [next]. *)
Definition begins (utf8 : bytes -> option str) (content : bytes) (h : header) (next : Z) : Prop :=
  exists tag size c d rest, chunk_head tag size c /\ header_bytes utf8 h d /\ content = c ++ d ++ rest /\ next8 (16 + size) next.

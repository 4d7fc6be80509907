(** Model of the output of the LevelDB and IndexedDB scripts.

    Source: /repo/scripts/leveldb.py and /repo/scripts/indexeddb.py; the readers are those of LdbModel.
    Simplified: a file is its content; [name] is the last segment of its path. Without debug output. *)

From Verif Require Import Base CoreModel StrModel DictModel LdbModel.
From Coq Require String.
Import String.StringSyntax.

(** What is printed, and how it ends. *)
Definition output : Type := str * result unit.

(** scripts/leveldb.py:112-117, scripts/indexeddb.py:85-90. *)
Definition type_text (t : Z) : str := if t =? 0 then s2z "del" else if t =? 1 then s2z "val" else s2z "UNKNOWN".

(** scripts/leveldb.py:111-128. *)
Definition entry_line (e : tentry) : str :=
  bytes_repr (te_key e) ++ s2z " @ " ++ fmt_d (te_seq e) ++ s2z " : " ++ type_text (te_type e) ++ s2z " => " ++ bytes_repr (te_value e) ++ [10].

(** scripts/indexeddb.py:84-102. *)
Definition ientry_line (e : ientry) : str :=
  s2z "<<" ++ join (s2z ", ") (ie_segments e) ++ s2z ">> @ " ++ fmt_d (ie_seq e) ++ s2z " : " ++ type_text (ie_type e) ++ s2z " => " ++ bytes_repr (ie_value e) ++ [10].

Definition finish (text : str) (x : option exn) : output :=
  match x with None => (text ++ [10], Ok tt) | Some e => (text, Err e) end.

(** scripts/leveldb.py:82-86: [seek] to 8 bytes before the end, which fails if there are none, and [read]. *)
Definition file_signature (content : bytes) : result bytes :=
  if len content <? 8 then Err OSError else Ok (zskipn (len content - 8) content).

Definition leveldb_header : str := s2z "LevelDB database file information:" ++ [10].

(** scripts/leveldb.py:76-134: [helper] is the content of the file that the file system helper of the options opens, [native] that of the
    file of this path on the system, which [Open] reads as it gets no helper. *)
Definition leveldb_script (fuel : nat) (snappy zstd : bytes -> result bytes) (utf8 : bytes -> result str) (name : str) (helper native : bytes) : run output :=
  match file_signature helper with
  | Err e => Done (Ok ([], Err e))
  | Ok signature =>
      if list_eqb signature table_signature then
        match table_open native with
        | Err e => Done (Ok ([], Err e))
        | Ok ix =>
            rdo (es, x) <- read_table_entries fuel snappy zstd native ix;
            Done (Ok (finish (leveldb_header ++ concat (map entry_line es)) x))
        end
      else
        match (if starts_with (s2z "MANIFEST") name then rdo _ <- read_log fuel (fun _ d => read_descriptor_record fuel utf8 d) native; Done (Ok tt)
               else rdo _ <- read_log fuel (fun _ d => read_log_record fuel d) native; Done (Ok tt)) with
        | OutOfFuel => OutOfFuel
        | Done (Err e) => Done (Ok ([], Err e))
        | Done (Ok _) => Done (Ok (finish leveldb_header None))
        end
  end.

(** scripts/indexeddb.py:76-110. *)
Definition indexeddb_script (fuel : nat) (snappy zstd : bytes -> result bytes) (native : bytes) : run output :=
  match table_open native with
  | Err e => Done (Ok ([], Err e))
  | Ok ix =>
      rdo (es, x) <- read_table_entries fuel snappy zstd native ix;
      let (l, y) := read_ientries es x in
      Done (Ok (finish (s2z "IndexedDB database file information:" ++ [10] ++ concat (map ientry_line l)) y))
  end.

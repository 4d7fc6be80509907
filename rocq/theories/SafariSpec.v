(** Safari cookies files, after "Safari Cookies.asciidoc". *)

From Verif Require Import Base BaseFacts SeqSpec SafariModel.

(** The string with offset [off] in a record: absent, or ASCII characters that are followed by
    a NUL, inside the page. *)
Inductive ck_string_at (page : bytes) (record_offset : Z) : Z -> str -> Prop :=
| cks_none : ck_string_at page record_offset 0 []
| cks_some off s : off <> 0 -> Forall (fun c => 0 < c < 128) s -> stored_at page (record_offset + off) (s ++ [0]) ->
    ck_string_at page record_offset off s.

(** A record at an offset of a page. *)
Definition ck_record_at (page : bytes) (off : Z) (c : cookie) : Prop :=
  exists size unknown1 flags unknown2 url name path value unknown3 expiration creation,
    stored_at page off
      (le_enc 4 size ++ le_enc 4 unknown1 ++ le_enc 4 flags ++ le_enc 4 unknown2 ++ le_enc 4 url ++ le_enc 4 name ++
       le_enc 4 path ++ le_enc 4 value ++ le_enc 8 unknown3 ++ expiration ++ creation) /\
    Forall (fun z => 0 <= z < 2 ^ 32) [size; unknown1; flags; unknown2; url; name; path; value] /\
    0 <= unknown3 < 2 ^ 64 /\ length expiration = 8%nat /\ length creation = 8%nat /\
    ck_string_at page off url (ck_url c) /\ ck_string_at page off name (ck_name c) /\
    ck_string_at page off path (ck_path c) /\ ck_string_at page off value (ck_value c).

(** A page: the header lists the offsets of the records. *)
Definition ck_page (page : bytes) (l : list cookie) : Prop :=
  exists signature offsets rest,
    page = le_enc 4 signature ++ le_enc 4 (len offsets) ++ concat (map (le_enc 4) offsets) ++ rest /\
    0 <= signature < 2 ^ 32 /\ len offsets < 2 ^ 32 /\ Forall (fun z => 0 <= z < 2 ^ 32) offsets /\
    Forall2 (ck_record_at page) offsets l.

(** A file: the number and sizes of the pages, the pages, the footer. *)
Definition ck_file (content : bytes) (pages : list (list cookie)) : Prop :=
  exists data footer rest,
    content = s2z "cook" ++ be_enc 4 (len data) ++ concat (map (fun d => be_enc 4 (len d)) data) ++ concat data ++ footer ++ rest /\
    data <> [] /\ len data < 2 ^ 32 /\ Forall (fun d => len d < 2 ^ 32) data /\ length footer = 8%nat /\
    Forall2 ck_page data pages.

(** Properties of the bookmark data reader. *)

From Verif Require Import Base BaseFacts CoreModel TextModel SeqModel SeqSpec SeqFacts RdModel RdSpec RdFacts BookModel BookSpec BookProofs.
From Coq Require String.
Import String.StringSyntax.

(** *** C86: bookmark data *)

(** The read succeeds exactly for bookmark data; it then gives the value of every tag of the table of
    contents, in its order. *)
Theorem C86_file : forall utf8 content items, is_bytes content -> (read_book utf8 content = Ok items <-> book_file utf8 items content).
Proof. intros utf8 content items. apply read_book_iff. Qed.
Print Assumptions C86_file.

(** Bookmark data have one meaning only. *)
Theorem C86_unique : forall utf8 content items items', is_bytes content -> book_file utf8 items content -> book_file utf8 items' content -> items = items'.
Proof. intros utf8 content items items' Hb A B. apply read_book_iff in A; [|exact Hb]. apply read_book_iff in B; [|exact Hb]. congruence. Qed.
Print Assumptions C86_unique.

(** The errors of the read. *)
Theorem C86_errors : forall utf8 content x, is_bytes content -> read_book utf8 content = Err x -> x = ParseError \/ x = AttributeError \/ x = ValueError.
Proof. intros utf8 content x. apply read_book_errors. Qed.
Print Assumptions C86_errors.

(** If the values have the types that the tags call for, all errors are ParseError. *)
Theorem C86_typed : forall utf8 content x, is_bytes content ->
  (forall toc tag off type v, book_contents content toc -> In (tag, off) toc -> book_record_at utf8 content (48 + off) type v -> book_type_ok utf8 content tag type v) ->
  read_book utf8 content = Err x -> x = ParseError.
Proof. intros utf8 content x Hb T. apply read_book_typed; assumption. Qed.
Print Assumptions C86_typed.

(** A file with the three records [recs], one after the other, and a table of contents. *)
Definition book_sample (recs : bytes) (toc : list (Z * Z)) : bytes :=
  let t := le_enc 4 (12 * len toc) ++ le_enc 4 0xfffffffe ++ le_enc 4 1 ++ le_enc 4 0 ++ le_enc 4 (len toc) ++ concat (map (fun e => le_enc 4 (fst e) ++ le_enc 4 (snd e) ++ le_enc 4 0) toc) in
  s2z "book"%string ++ le_enc 4 (52 + len recs + len t) ++ le_enc 4 0 ++ le_enc 4 48 ++ repeat 0 32 ++ le_enc 4 (4 + len recs) ++ recs ++ t.
Definition book_rec (type : Z) (data : bytes) : bytes := le_enc 4 (len data) ++ le_enc 4 type ++ data.

(** A path of two names, a negative identifier, a time and flags. *)
Definition book_recs : bytes :=
  book_rec 0x101 (s2z "Users"%string) ++ book_rec 0x101 (s2z "me"%string) ++ book_rec 0x601 [4; 0; 0; 0; 17; 0; 0; 0] ++
  book_rec 0x303 [254; 255; 255; 255] ++ book_rec 0x601 [43; 0; 0; 0] ++ book_rec 0x400 [65; 194; 0; 0; 0; 0; 0; 0] ++ book_rec 0x201 (le_enc 8 2 ++ le_enc 8 15 ++ le_enc 8 0).
Example C86_case :
  is_bytes (book_sample book_recs [(0x1004, 27); (0x1005, 55); (0x1040, 67); (0x1010, 83); (0x2000, 43)]) /\
  read_book (fun d => Some d) (book_sample book_recs [(0x1004, 27); (0x1005, 55); (0x1040, 67); (0x1010, 83); (0x2000, 43)]) =
    Ok [(0x1004, IStrings [s2z "Users"%string; s2z "me"%string]); (0x1005, IIntegers [-2]); (0x1040, ITime [65; 194; 0; 0; 0; 0; 0; 0]); (0x1010, IFlags 2 15 0); (0x2000, IValue (BInt (-2)))].
Proof. split; [apply is_bytes_forallb; vm_compute; reflexivity|vm_compute; reflexivity]. Qed.

(** A path that is not an array, or that contains other values than strings, and a time without data
    are not refused with ParseError. *)
Theorem C86_types_refuted : forall utf8 s, utf8 (s2z "Users"%string) = Some s ->
  read_book utf8 (book_sample book_recs [(0x1004, 4)]) = Err AttributeError /\
  read_book utf8 (book_sample book_recs [(0x1004, 55)]) = Err AttributeError /\
  read_book utf8 (book_sample book_recs [(0x1010, 43)]) = Err AttributeError /\
  read_book utf8 (book_sample (book_rec 0x400 []) [(0x1040, 4)]) = Err ValueError.
Proof.
  intros utf8 s H.
  assert (Hb : forall recs toc, forallb (fun b => (0 <=? b) && (b <? 256)) (book_sample recs toc) = true -> is_bytes (book_sample recs toc)) by (intros recs toc E; apply is_bytes_forallb; exact E).
  split.
  { unfold read_book.
    set (c := book_sample book_recs [(0x1004, 4)]).
    change (rd_book_header c 0) with (Ok ((len c, 48), 48)). cbn [bind fst snd]. rewrite !Z.eqb_refl. cbn [guard bind].
    replace (rd_int (FU LE 4) c 48) with (@Ok (Z * Z) (115, 52)) by (vm_compute; reflexivity). cbn [bind].
    replace (rd_book_toc c (48 + 115)) with (@Ok (list (Z * Z) * Z) ([(0x1004, 4)], len c)) by (vm_compute; reflexivity). cbn [bind].
    assert (R : book_record utf8 c (48 + 4) = Ok (0x101, BText s)).
    { apply record_ok; [apply Hb; vm_compute; reflexivity|lia|]. exists (s2z "Users"%string). split; [unfold u32; lia|]. split; [unfold u32; vm_compute; split; congruence|]. split; [apply bd_text; exact H|].
      exists (zfirstn 52 c), (zskipn 65 c). split; vm_compute; reflexivity. }
    cbn [book_items book_item_of]. rewrite R. reflexivity. }
  repeat split; vm_compute; reflexivity.
Qed.
Print Assumptions C86_types_refuted.

(** Data with a second table of contents are refused. *)
Theorem C86_next_refuted : forall utf8 content size l d next, is_bytes content -> book_header (len content) d -> stored_at content 0 d ->
  u32 size -> stored_at content 48 (le_enc 4 size) -> 0 < next < 2 ^ 32 -> stored_at content (48 + size + 12) (le_enc 4 next) -> read_book utf8 content <> Ok l.
Proof.
  intros utf8 content size l d next Hb Hh Sh Hs Ss Hn Sn E. apply read_book_iff in E; [|exact Hb]. destruct E as (h & sz & toc & dt & _ & _ & Hsz & Ssz & (sz2 & id & ds & H1 & H2 & H3 & _ & ->) & St & _).
  assert (sz = size). { assert (Q : le_enc 4 sz = le_enc 4 size) by (eapply stored_at_fun; [exact Ssz|exact Ss|rewrite !len_le_enc; reflexivity]). apply (f_equal le_int) in Q. rewrite !le_int_enc in Q by assumption. exact Q. }
  subst sz. rewrite !stored_at_app in St. rewrite !len_le_enc in St. destruct St as (_ & _ & _ & St & _).
  assert (Q : le_enc 4 0 = le_enc 4 next). { eapply stored_at_fun; [exact St| |rewrite !len_le_enc; reflexivity]. replace (48 + size + Z.of_nat 4 + Z.of_nat 4 + Z.of_nat 4) with (48 + size + 12) by lia. exact Sn. }
  apply (f_equal le_int) in Q. rewrite !le_int_enc in Q by (cbn; lia). lia.
Qed.
Print Assumptions C86_next_refuted.

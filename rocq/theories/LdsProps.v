(** C115: the output of the LevelDB and IndexedDB scripts. *)

From Verif Require Import Base BaseFacts CoreModel StrModel DictModel LdbModel LdsModel LdsSpec LdsProofs.
From Coq Require String.
Import String.StringSyntax.

(** C115: of a table file all entries are shown, one line each, up to the first error. *)
Theorem C115_table : forall fuel snappy zstd utf8 name pre ix es x, let content := pre ++ table_signature in
  table_open content = Ok ix -> read_table_entries fuel snappy zstd content ix = Done (Ok (es, x)) ->
  leveldb_script fuel snappy zstd utf8 name content content =
  Done (Ok (s2z "LevelDB database file information:" ++ [10] ++ concat (map entry_line es) ++ match x with None => [10] | Some _ => [] end,
            match x with None => Ok tt | Some e => Err e end)).
Proof.
  intros fuel snappy zstd utf8 name pre ix es x content O R. unfold leveldb_script, file_signature.
  assert (L : len content = len pre + 8) by (unfold content; rewrite len_app; reflexivity). pose proof (len_nonneg pre). 
  destruct (Z.ltb_spec (len content) 8); [lia|]. replace (len content - 8) with (len pre) by lia. unfold content at 1. rewrite zskipn_app_len by reflexivity. rewrite list_eqb_refl.
  rewrite O, R. cbn [rbind]. unfold finish, leveldb_header. destruct x; rewrite <- !app_assoc; rewrite ?app_nil_r; reflexivity.
Qed.
Print Assumptions C115_table.

(** C115: every entry is one line. *)
Theorem C115_lines : forall fuel snappy zstd content ix es x, is_bytes content -> unpacks snappy -> unpacks zstd ->
  read_table_entries fuel snappy zstd content ix = Done (Ok (es, x)) -> Forall (fun e => one_line (entry_line e)) es.
Proof.
  intros fuel snappy zstd content ix es x B S Z R. eapply Forall_impl; [|exact (table_entries_ok _ _ _ _ _ _ _ B S Z R)]. intros e (K & V & _).
  destruct (rest_line (te_seq e) (te_type e) (te_value e) V) as (l & E & N). exists (bytes_repr (te_key e) ++ l). split; [unfold line_rest in E; unfold entry_line; rewrite E, <- app_assoc; reflexivity|].
  intros I. apply in_app_iff in I as [I|I]; [exact (repr_no_break _ K I)|exact (N I)].
Qed.
Print Assumptions C115_lines.

(** C115: the lines of the entries of two files are the same only if the keys, the sequence numbers, the types as far as they are shown, and
    the values of all entries are. *)
Theorem C115_lossless : forall fuel snappy zstd content content' ix ix' es es' x x', is_bytes content -> is_bytes content' -> unpacks snappy -> unpacks zstd ->
  read_table_entries fuel snappy zstd content ix = Done (Ok (es, x)) -> read_table_entries fuel snappy zstd content' ix' = Done (Ok (es', x')) ->
  concat (map entry_line es) = concat (map entry_line es') -> Forall2 same_entry es es'.
Proof.
  intros fuel snappy zstd content content' ix ix' es es' x x' B B' S Z R R' E. apply entries_inj; [exact (table_entries_ok _ _ _ _ _ _ _ B S Z R)|exact (table_entries_ok _ _ _ _ _ _ _ B' S Z R')|exact E].
Qed.
Print Assumptions C115_lossless.

(** C115: the same for the entries of IndexedDB databases, with the segments of the keys. *)
Theorem C115_indexed : forall fuel snappy zstd content ix es x l y,
  table_open content = Ok ix -> read_table_entries fuel snappy zstd content ix = Done (Ok (es, x)) -> read_ientries es x = (l, y) ->
  indexeddb_script fuel snappy zstd content =
  Done (Ok (s2z "IndexedDB database file information:" ++ [10] ++ concat (map ientry_line l) ++ match y with None => [10] | Some _ => [] end,
            match y with None => Ok tt | Some e => Err e end)) /\
  (is_bytes content -> unpacks snappy -> unpacks zstd -> Forall (fun e => one_line (ientry_line e)) l).
Proof.
  intros fuel snappy zstd content ix es x l y O R I. split.
  - unfold indexeddb_script. rewrite O, R. cbn [rbind]. rewrite I. unfold finish. destruct y; rewrite <- ?app_assoc; rewrite ?app_nil_r; reflexivity.
  - intros B S Z. eapply Forall_impl; [|eapply ientries_ok; [exact (table_entries_ok _ _ _ _ _ _ _ B S Z R)|exact I]]. intros e ((k & K & Ek) & V & _).
    destruct (rest_line (ie_seq e) (ie_type e) (ie_value e) V) as (r & E & N). exists (s2z "<<" ++ join (s2z ", ") (ie_segments e) ++ s2z ">>" ++ r). split.
    + unfold line_rest in E. unfold ientry_line. change (s2z ">> @ ") with (s2z ">>" ++ s2z " @ "). rewrite <- !app_assoc. rewrite E. reflexivity.
    + intros J. rewrite !in_app_iff in J. destruct J as [J|[J|[J|J]]]; [cbn in J; repeat (destruct J as [J|J]; [discriminate|]); exact J| |cbn in J; repeat (destruct J as [J|J]; [discriminate|]); exact J|exact (N J)].
      exact (segments_no_break _ (segments_of _ _ K Ek) J).
Qed.
Print Assumptions C115_indexed.

Theorem C115_indexed_lossless : forall l l', Forall ientry_ok l -> Forall ientry_ok l' -> concat (map ientry_line l) = concat (map ientry_line l') -> Forall2 same_ientry l l'.
Proof. exact ientries_inj. Qed.
Print Assumptions C115_indexed_lossless.

(** C115: entries that are read are of this kind. *)
Theorem C115_entries : forall fuel snappy zstd content ix es x l y, is_bytes content -> unpacks snappy -> unpacks zstd ->
  read_table_entries fuel snappy zstd content ix = Done (Ok (es, x)) -> read_ientries es x = (l, y) -> Forall ientry_ok l.
Proof. intros fuel snappy zstd content ix es x l y B S Z R I. eapply ientries_ok; [exact (table_entries_ok _ _ _ _ _ _ _ B S Z R)|exact I]. Qed.
Print Assumptions C115_entries.

(** C115, finding: a file of less than 8 bytes, such as an empty log file, which can be read, is an OSError. *)
Theorem C115_short_refuted : forall fuel snappy zstd utf8 name content native, len content < 8 ->
  leveldb_script fuel snappy zstd utf8 name content native = Done (Ok ([], Err OSError)) /\
  forall (R : Type) (rr : Z -> bytes -> run R), read_log fuel rr [] = Done (Ok []).
Proof.
  intros fuel snappy zstd utf8 name content native L. unfold leveldb_script, file_signature. destruct (Z.ltb_spec (len content) 8); [|lia]. split; [reflexivity|].
  intros R rr. unfold read_log. destruct fuel; reflexivity.
Qed.
Print Assumptions C115_short_refuted.

(** C115, finding: of log and descriptor files nothing is shown. *)
Theorem C115_log_refuted : forall fuel snappy zstd utf8 name helper native text, 8 <= len helper -> zskipn (len helper - 8) helper <> table_signature ->
  leveldb_script fuel snappy zstd utf8 name helper native = Done (Ok (text, Ok tt)) -> text = s2z "LevelDB database file information:" ++ [10; 10].
Proof.
  intros fuel snappy zstd utf8 name helper native text L N E. unfold leveldb_script, file_signature in E. destruct (Z.ltb_spec (len helper) 8); [lia|].
  apply list_eqb_neq in N. rewrite N in E. destruct (if starts_with (s2z "MANIFEST") name then _ else _) as [[?|?]|]; try discriminate.
  assert (E2 : finish leveldb_header None = (text, Ok tt)) by congruence. assert (E3 := f_equal fst E2). cbn [fst finish] in E3. rewrite <- E3. reflexivity.
Qed.
Print Assumptions C115_log_refuted.

(** C115, finding: with a storage media image the last eight bytes are those of the file in the image, and everything else is read from the
    file of the same path on the system. *)
Theorem C115_image_refuted : forall fuel snappy zstd utf8 name pre pre' native,
  leveldb_script fuel snappy zstd utf8 name (pre ++ table_signature) native = leveldb_script fuel snappy zstd utf8 name (pre' ++ table_signature) native.
Proof.
  assert (G : forall pre, file_signature (pre ++ table_signature) = Ok table_signature).
  { intros pre. unfold file_signature. assert (L : len (pre ++ table_signature) = len pre + 8) by (rewrite len_app; reflexivity). pose proof (len_nonneg pre).
    destruct (Z.ltb_spec (len (pre ++ table_signature)) 8); [lia|]. replace (len (pre ++ table_signature) - 8) with (len pre) by lia. rewrite zskipn_app_len by reflexivity. reflexivity. }
  intros. unfold leveldb_script. rewrite !G. reflexivity.
Qed.
Print Assumptions C115_image_refuted.

(** Two entries, and an entry of an IndexedDB database. *)
Example C115_case :
  let es := [mkte (s2z "it's") 5 1 [0; 10; 255]; mkte (s2z "k") 6 0 []] in
  Forall entry_ok es /\
  concat (map entry_line es) = [34] ++ s2z "it's" ++ [34] ++ s2z " @ 5 : val => '\x00\n\xff'" ++ [10] ++ s2z "'k' @ 6 : del => ''" ++ [10] /\
  (exists l, read_ientries [mkte [0; 0; 0; 0; 201; 65] 7 1 [66]] None = (l, None) /\ Forall ientry_ok l /\
     concat (map ientry_line l) = s2z "<<0, 0, 0, 201, 'A'>> @ 7 : val => 'B'" ++ [10]).
Proof.
  cbv zeta. split; [repeat constructor; cbn; try lia; unfold is_byte; lia|]. split; [vm_compute; reflexivity|].
  eexists. split; [vm_compute; reflexivity|]. split; [|vm_compute; reflexivity]. constructor; [|constructor]. split; [exists [0; 0; 0; 0; 201; 65]; split; [repeat constructor; lia|vm_compute; reflexivity]|].
  split; [repeat constructor; lia|cbn; lia].
Qed.

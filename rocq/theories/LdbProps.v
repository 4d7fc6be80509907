(** Properties C23 to C30, C72 and C73: LevelDB files and IndexedDB keys. *)

From Verif Require Import Base BaseFacts CoreModel CoreProofs VarModel VarFacts StrModel
  LdbModel LdbSpec LdbProofs LdbLogProofs LdbTableProofs.

(** C23: every encoding (shortest or not) of every number, whatever follows. *)
Theorem C23_varint_decoded : forall v bs rest,
  vint v bs -> read_varint (bs ++ rest) = Ok (v, len bs).
Proof. exact read_varint_vint. Qed.
Print Assumptions C23_varint_decoded.

(** The shortest encoding exists for every natural number. *)
Theorem C23_every_number : forall v rest, 0 <= v ->
  read_varint (venc v ++ rest) = Ok (v, len (venc v)).
Proof. intros v rest H. apply read_varint_vint, venc_vint, H. Qed.
Print Assumptions C23_every_number.

(** Bytes read: at least one, never behind the data. *)
Theorem C23_inside_the_data : forall d v n, read_varint d = Ok (v, n) -> 0 <= v /\ 1 <= n <= len d.
Proof. exact read_varint_bounds. Qed.
Print Assumptions C23_inside_the_data.

(** Only empty data fails; an encoding that ends early is accepted. *)
Theorem C23_fails_on_empty_data_only : forall d e, read_varint d = Err e <-> d = [] /\ e = IndexError.
Proof. exact read_varint_error. Qed.
Print Assumptions C23_fails_on_empty_data_only.

Example C23_case :
  vint 300 [172; 2] /\ vint 300 [172; 130; 0] /\ venc 300 = [172; 2] /\
  read_varint [172; 2; 9] = Ok (300, 2) /\ read_varint [172; 130; 0; 9] = Ok (300, 3) /\
  read_varint [172] = Ok (44, 1) /\ read_varint (venc (2 ^ 64 - 1)) = Ok (2 ^ 64 - 1, 10).
Proof.
  split; [apply (vint_more 44 2 [2]); [lia|apply vint_last; lia]|].
  split; [apply (vint_more 44 2 [130; 0]); [lia|apply (vint_more 2 0 [0]); [lia|apply vint_last; lia]]|].
  repeat split.
Qed.

(** C24: every record once, in order, with the offset of its first fragment, handed to the
    reader of records [rr] whatever it computes. *)
Theorem C24_log_records : forall (R : Type) (rr : Z -> bytes -> run R) crc l rs fuel,
  Forall2 (fun p r => rr (fst p) (snd p) = Done (Ok r)) (log_positions crc l) rs ->
  (length (log_file crc l) <= fuel)%nat ->
  read_log fuel rr (log_file crc l) = Done (Ok rs).
Proof. intros R rr crc l rs fuel. apply read_log_file. Qed.
Print Assumptions C24_log_records.

(** The records that the reader hands over are the written records. *)
Theorem C24_records_reassembled : forall crc l fuel,
  (length (log_file crc l) <= fuel)%nat ->
  exists ps, read_log fuel (fun o d => Done (Ok (o, d))) (log_file crc l) = Done (Ok ps) /\
    map snd ps = l /\
    Forall (fun p => exists t d1 d2, (t = 1 \/ t = 2) /\ snd p = d1 ++ d2 /\
              read_log_block (log_file crc l) (fst p) = Ok (t, d1, 7 + len d1)) ps.
Proof.
  intros crc l fuel Hf. exists (log_positions crc l). split; [|split].
  - apply read_log_file; [|exact Hf].
    induction (log_positions crc l) as [|[o d] ps IH]; constructor; [reflexivity|exact IH].
  - apply add_records_records.
  - pose proof (add_records_first_fragment crc l 32768 [] ltac:(lia)) as H.
    cbn [app] in H. change (len (@nil Z)) with 0 in H.
    eapply Forall_impl; [|exact H]. intros p (t & d1 & Ht & [d2 E] & Hr).
    exists t, d1, d2. auto.
Qed.
Print Assumptions C24_records_reassembled.

(** Three records; the second one starts in the first page, fills it and ends in the third
    page. *)
Example C24_case :
  let crc := fun t d => t + len d in
  let l := [[7; 7]; repeat 1 (Z.to_nat 70000); []] in
  map fst (log_positions crc l) = [0; 9; 70030] /\
  match read_log (Z.to_nat 70037) (fun o d => Done (Ok (o, len d))) (log_file crc l) with
  | Done (Ok ps) => ps = [(0, 2); (9, 70000); (70030, 0)]
  | _ => False
  end.
Proof. vm_compute. split; reflexivity. Qed.

(** C25: reading ends for every content. *)
Theorem C25_log_terminates : forall (R : Type) (rr : Z -> bytes -> run R) content fuel,
  is_bytes content -> (forall o d, rr o d <> OutOfFuel) -> (length content <= fuel)%nat ->
  read_log fuel rr content <> OutOfFuel.
Proof.
  intros R rr content fuel Hb Hr Hf. unfold read_log, page_bytes.
  apply log_read_terminates; [exact Hb|exact Hr|lia|unfold len; lia].
Qed.
Print Assumptions C25_log_terminates.

(** Every block read lies inside the file and has at least the 7 bytes of its header. *)
Theorem C25_blocks_inside : forall content off t d n, is_bytes content ->
  read_log_block content off = Ok (t, d, n) -> 7 <= n /\ 0 <= off /\ off + n <= len content.
Proof. exact read_log_block_progress. Qed.
Print Assumptions C25_blocks_inside.

(** A block that overruns its page: reading goes on at the next page, inside the block. *)
Example C25_case :
  let crc := fun _ _ => 0 in
  read_log (Z.to_nat 40007) (fun o d => Done (Ok (o, len d))) (frag crc 1 (repeat 3 (Z.to_nat 40000))) =
  Done (Err ParseError) /\
  read_log (Z.to_nat 40007) (fun o d => Done (Ok (o, len d)))
    (frag crc 1 (repeat 3 (Z.to_nat 32761) ++ frag crc 1 [1; 2; 3])) =
  Done (Ok [(0, 32771); (32768, 3)]).
Proof. vm_compute. split; reflexivity. Qed.

(** C26: the operations of a batch. *)
Theorem C26_batch_decoded : forall seq count ops bs fuel,
  batch_bytes seq count ops bs -> (length bs <= fuel)%nat ->
  read_log_record fuel bs = Done (Ok (seq, count, ops)).
Proof. exact read_log_record_ok. Qed.
Print Assumptions C26_batch_decoded.

Theorem C26_unknown_type : forall ops body t rest seq count fuel,
  ops_bytes ops body -> t <> 0 -> t <> 1 -> 0 <= seq < 2 ^ 64 -> 0 <= count < 2 ^ 32 ->
  (length body < fuel)%nat ->
  read_log_record fuel (le_enc 8 seq ++ le_enc 4 count ++ body ++ t :: rest) = Done (Err ParseError).
Proof.
  intros ops body t rest seq count fuel Hb H0 H1 Hs Hc Hf. unfold read_log_record.
  pose proof (struct_bs_enc log_value_header [VI seq; VI count] (body ++ t :: rest)) as B.
  cbn [enc_struct enc_field enc_int log_value_header] in B. rewrite app_nil_r, <- !app_assoc in B.
  rewrite B; [|unfold log_value_header; fvals; lia|cbn; lia]. clear B.
  pose proof (read_ops_bad_type ops body Hb t rest (le_enc 8 seq ++ le_enc 4 count) [] fuel H0 H1) as E.
  rewrite len_app, !len_le_enc in E. change (Z.of_nat 8 + Z.of_nat 4) with 12 in E.
  rewrite <- app_assoc in E. rewrite E; [reflexivity|]. apply ops_bytes_length in Hb. lia.
Qed.
Print Assumptions C26_unknown_type.

(** Batches in a log file. *)
Theorem C26_log_of_batches : forall crc l bs fuel,
  Forall2 (fun b x => batch_bytes (fst (fst b)) (snd (fst b)) (snd b) x) l bs ->
  (length (log_file crc bs) <= fuel)%nat -> Forall (fun x => (length x <= fuel)%nat) bs ->
  read_log fuel (fun _ d => read_log_record fuel d) (log_file crc bs) = Done (Ok l).
Proof.
  intros crc l bs fuel HF Hf Hx. apply read_log_file; [|exact Hf].
  assert (E : map snd (log_positions crc bs) = bs) by apply add_records_records.
  revert E. generalize (log_positions crc bs) as ps. clear Hf.
  intros ps E. revert l bs E HF Hx. induction ps as [|p ps IH]; intros l bs E HF Hx.
  - cbn [map] in E. subst bs. inversion HF. constructor.
  - cbn [map] in E. subst bs. destruct l as [|b l]; [inversion HF|].
    apply Forall2_cons_iff in HF. destruct HF as [Hb HF]. constructor.
    + destruct b as [[s c] ops]. apply read_log_record_ok; [exact Hb|exact (Forall_inv Hx)].
    + eapply IH; [reflexivity|exact HF|exact (Forall_inv_tail Hx)].
Qed.
Print Assumptions C26_log_of_batches.

Example C26_case :
  batch_bytes 5 2 [Put [1] [2; 3]; Delete [9]] ([5; 0; 0; 0; 0; 0; 0; 0; 2; 0; 0; 0] ++ [1; 1; 1; 2; 2; 3; 0; 1; 9]) /\
  read_log_record 30 ([5; 0; 0; 0; 0; 0; 0; 0; 2; 0; 0; 0] ++ [1; 1; 1; 2; 2; 3; 0; 1; 9]) =
  Done (Ok (5, 2, [Put [1] [2; 3]; Delete [9]])).
Proof.
  split; [|reflexivity]. split; [lia|]. split; [lia|]. eexists. split; [|reflexivity].
  apply (obs_cons (Put [1] [2; 3]) [Delete [9]] [1; 1; 1; 2; 2; 3] [0; 1; 9]).
  - apply (ob_put [1] [2; 3] [1; 1] [2; 2; 3]); eexists; (split; [apply vint_last|reflexivity]); cbn; lia.
  - apply (obs_cons (Delete [9]) [] [0; 1; 9] []); [|constructor].
    apply (ob_del [9] [1; 9]). eexists; split; [apply vint_last; cbn; lia|reflexivity].
Qed.

(** C27: version edits. *)
Theorem C27_edits_decoded : forall utf8 es bs fuel,
  edits_bytes utf8 es bs -> (length bs <= fuel)%nat ->
  read_descriptor_record fuel utf8 bs = Done (Ok (map edit_report es)).
Proof.
  intros utf8 es bs fuel H Hf. apply (read_edits_ok utf8 es bs H [] [] fuel).
  apply edits_bytes_length in H. lia.
Qed.
Print Assumptions C27_edits_decoded.

Theorem C27_reports_differ : forall e e', edit_report e = edit_report e' -> e = e'.
Proof. intros [] []; cbn [edit_report]; congruence. Qed.
Print Assumptions C27_reports_differ.

Theorem C27_unknown_tag : forall utf8 es bs tag t rest fuel,
  edits_bytes utf8 es bs -> vint tag t -> ~ In tag [1; 2; 3; 4; 5; 6; 7; 9] ->
  (length bs < fuel)%nat ->
  read_descriptor_record fuel utf8 (bs ++ t ++ rest) = Done (Err ParseError).
Proof.
  intros utf8 es bs tag t rest fuel H Ht Hn Hf.
  apply (read_edits_bad_tag utf8 es bs H tag t rest [] [] fuel Ht).
  - unfold tag_values. cbn [In] in Hn.
    repeat match goal with |- context [tag =? ?k] => destruct (Z.eqb_spec tag k); [exfalso; apply Hn; subst; auto 10|] end.
    reflexivity.
  - apply edits_bytes_length in H. lia.
Qed.
Print Assumptions C27_unknown_tag.

Example C27_case :
  let utf8 := fun d => Ok d : result str in
  read_descriptor_record 50 utf8 ([1; 2; 97; 98] ++ [9; 0] ++ [7; 0; 5; 172; 2; 1; 10; 1; 20]) =
  Done (Ok (map edit_report [Comparator [97; 98]; PrevLogNumber 0; NewFile 0 5 300 [10] [20]])) /\
  read_descriptor_record 50 utf8 [9; 0; 8; 1] = Done (Err ParseError).
Proof. split; reflexivity. Qed.

(** C28: a table block with any choice of shared prefixes and restart points. *)
Theorem C28_block_decoded : forall es restarts bs fuel,
  block_bytes es restarts bs -> (length bs <= fuel)%nat -> read_table_data fuel bs = Done (Ok es).
Proof. exact read_table_data_ok. Qed.
Print Assumptions C28_block_decoded.

(** The block in a file: stored as it is or compressed. *)
Theorem C28_stored_block : forall snappy zstd content off size bs es restarts fuel,
  stored_block snappy zstd content off size bs -> block_bytes es restarts bs -> (length bs <= fuel)%nat ->
  read_table fuel snappy zstd content off size = Done (Ok es).
Proof. exact read_table_ok. Qed.
Print Assumptions C28_stored_block.

(** An unknown compression type is refused. *)
Theorem C28_unknown_compression : forall snappy zstd pre stored t crc post,
  0 <= crc < 2 ^ 32 -> 3 <= t < 256 ->
  read_block snappy zstd (pre ++ stored ++ le_enc 1 t ++ le_enc 4 crc ++ post)
    (len pre) (len stored) = Err ParseError.
Proof. exact read_block_method. Qed.
Print Assumptions C28_unknown_compression.

(** Two entries; the second shares two bytes of the user key. *)
Definition C28_entries := [mkte [1; 2; 3] 7 1 [50]; mkte [1; 2; 9] 8 0 []].
Definition C28_block : bytes :=
  [0; 11; 1; 1; 2; 3; 1; 7; 0; 0; 0; 0; 0; 0; 50] ++ [2; 9; 0; 9; 0; 8; 0; 0; 0; 0; 0; 0] ++
  [0; 0; 0; 0] ++ [1; 0; 0; 0].

Lemma C28_block_ok : block_bytes C28_entries [0] C28_block.
Proof.
  split; [discriminate|]. split; [cbn; lia|].
  exists ([0; 11; 1; 1; 2; 3; 1; 7; 0; 0; 0; 0; 0; 0; 50] ++ [2; 9; 0; 9; 0; 8; 0; 0; 0; 0; 0; 0]).
  split; [|reflexivity].
  apply (eb_cons [] (mkte [1; 2; 3] 7 1 [50]) _ 0 [0] [11] [1] [2; 9; 0; 9; 0; 8; 0; 0; 0; 0; 0; 0]);
    try (cbn; unfold entry_ok, is_byte; cbn; lia); try reflexivity; try (apply vint_last; cbn; lia).
  apply (eb_cons _ (mkte [1; 2; 9] 8 0 []) [] 2 [2] [9] [0] []);
    try (cbn; unfold entry_ok, is_byte; cbn; lia); try reflexivity; try (apply vint_last; cbn; lia).
  constructor.
Qed.

Example C28_case : read_table_data 40 C28_block = Done (Ok C28_entries).
Proof. reflexivity. Qed.

(** C29: footer, index block and data blocks. *)
Theorem C29_table_file : forall snappy zstd content blocks,
  table_file snappy zstd content blocks ->
  exists ix fuel0, table_open content = Ok ix /\
  forall fuel, (fuel0 <= fuel)%nat ->
  read_table_entries fuel snappy zstd content ix = Done (Ok (concat blocks, None)).
Proof. exact table_file_ok. Qed.
Print Assumptions C29_table_file.

(** A file with one data block, one index block and a footer. *)
Definition C29_index := [mkte [9] 8 1 [0; 35]].
Definition C29_index_block : bytes :=
  [0; 9; 2; 9; 1; 8; 0; 0; 0; 0; 0; 0; 0; 35] ++ [0; 0; 0; 0] ++ [1; 0; 0; 0].
Definition C29_file : bytes :=
  C28_block ++ [0; 0; 0; 0; 0] ++ C29_index_block ++ [0; 1; 2; 3; 4] ++
  ([0; 0] ++ [40; 22] ++ repeat 0 36) ++ [0x57; 0xfb; 0x80; 0x8b; 0x24; 0x75; 0x47; 0xdb].

Example C29_case :
  table_file (fun _ => Err OtherError) (fun _ => Err OtherError) C29_file [C28_entries] /\
  table_open C29_file = Ok (40, 22) /\
  read_table_entries 50 (fun _ => Err OtherError) (fun _ => Err OtherError) C29_file (40, 22) =
  Done (Ok (C28_entries, None)).
Proof.
  split; [|split; reflexivity].
  exists C29_index, 40, 22, [0], C29_index_block, 0, 0, [0], [0], [40], [22], (repeat 0 36),
    (C28_block ++ [0; 0; 0; 0; 0] ++ C29_index_block ++ [0; 1; 2; 3; 4]).
  split.
  { constructor; [|constructor]. exists 0, 35, [0], C28_block. split; [|split].
    - exists [0], [35], []. repeat split; apply vint_last; lia.
    - exact C28_block_ok.
    - exists [], C28_block, 0, 0. eexists. split; [reflexivity|]. repeat split; try lia. left. auto. }
  split.
  { split; [discriminate|]. split; [cbn; lia|]. exists [0; 9; 2; 9; 1; 8; 0; 0; 0; 0; 0; 0; 0; 35].
    split; [|reflexivity].
    apply (eb_cons [] (mkte [9] 8 1 [0; 35]) [] 0 [0] [9] [2] []);
      try (cbn; unfold entry_ok, is_byte; cbn; lia); try reflexivity; try (apply vint_last; cbn; lia).
    constructor. }
  split.
  { exists (C28_block ++ [0; 0; 0; 0; 0]), C29_index_block, 0, 67305985. eexists.
    split; [vm_compute; reflexivity|]. repeat split; try lia. left. auto. }
  repeat split; try lia; try (apply vint_last; lia); try (vm_compute; congruence).
  apply is_bytes_forallb. reflexivity.
Qed.

(** C30: identifiers of every size. *)
Theorem C30_key_prefix : forall nd no ni d o i rest, prefix_ok nd no ni d o i ->
  read_key_prefix (key_prefix nd no ni d o i ++ rest) = Ok (d, o, i, len (key_prefix nd no ni d o i)).
Proof. exact read_key_prefix_ok. Qed.
Print Assumptions C30_key_prefix.

Theorem C30_truncated : forall nd no ni d o i m, prefix_ok nd no ni d o i ->
  0 <= m < len (key_prefix nd no ni d o i) ->
  read_key_prefix (zfirstn m (key_prefix nd no ni d o i)) = Err IndexError.
Proof. exact read_key_prefix_truncated. Qed.
Print Assumptions C30_truncated.

Example C30_case :
  prefix_ok 2 1 4 300 5 16909060 /\
  read_key_prefix ([35; 44; 1; 5; 4; 3; 2; 1] ++ [77]) = Ok (300, 5, 16909060, 8) /\
  read_key_prefix [35; 44; 1; 5; 4; 3; 2] = Err IndexError.
Proof. repeat split; try lia; reflexivity. Qed.

(** C72: the key segments of an entry. *)
Theorem C72_key_segments : forall nd no ni d o i rest, prefix_ok nd no ni d o i ->
  key_segments (key_prefix nd no ni d o i ++ rest) =
  if (d =? 0) && (o =? 0) && (i =? 0) then
    match rest with
    | [] => Err IndexError
    | m :: r => Ok ([fmt_d d; fmt_d o; fmt_d i; fmt_d m] ++
                    match r with [] => [] | _ => [bytes_repr r] end)
    end
  else Ok ([fmt_d d; fmt_d o; fmt_d i] ++ match rest with [] => [] | _ => [bytes_repr rest] end).
Proof. exact key_segments_prefix. Qed.
Print Assumptions C72_key_segments.

(** Different keys with identifiers of the smallest size have different segments. *)
Theorem C72_segments_identify_key : forall nd no ni d o i rest nd' no' ni' d' o' i' rest' segs,
  small_prefix nd no ni d o i -> small_prefix nd' no' ni' d' o' i' -> is_bytes rest -> is_bytes rest' ->
  key_segments (key_prefix nd no ni d o i ++ rest) = Ok segs ->
  key_segments (key_prefix nd' no' ni' d' o' i' ++ rest') = Ok segs ->
  key_prefix nd no ni d o i ++ rest = key_prefix nd' no' ni' d' o' i' ++ rest'.
Proof. exact key_segments_inj. Qed.
Print Assumptions C72_segments_identify_key.

Example C72_case :
  small_prefix 1 1 1 1 2 3 /\
  key_segments (key_prefix 1 1 1 1 2 3 ++ [39; 65; 10; 200]) =
  Ok [s2z "1"; s2z "2"; s2z "3"; [34; 39; 65; 92; 110; 92; 120; 99; 56; 34]] /\
  key_segments [0; 0; 0; 0; 201] = Ok [s2z "0"; s2z "0"; s2z "0"; s2z "201"] /\
  key_segments [0; 0; 0; 0] = Err IndexError.
Proof. repeat split; try lia; try (left; reflexivity); reflexivity. Qed.

(** C73: reading batches, descriptor records and tables ends for every input. *)
Theorem C73_batch_terminates : forall data fuel,
  (length data <= fuel)%nat -> read_log_record fuel data <> OutOfFuel.
Proof.
  intros data fuel Hf. unfold read_log_record.
  destruct (struct_bs _ _) as [[|[s|] [|[c|] [|]]]|]; try discriminate.
  pose proof (read_ops_terminates data fuel 12 [] ltac:(lia)) as T.
  destruct (read_ops fuel data 12 []) as [[ops|]|]; try discriminate.
  intros _. apply T; [unfold len; lia|reflexivity].
Qed.
Print Assumptions C73_batch_terminates.

Theorem C73_descriptor_terminates : forall utf8 data fuel,
  (length data <= fuel)%nat -> read_descriptor_record fuel utf8 data <> OutOfFuel.
Proof. intros utf8 data fuel Hf. apply read_edits_terminates; [lia|unfold len; lia]. Qed.
Print Assumptions C73_descriptor_terminates.

(** The number of iterations is bounded whatever the file and the decompressors contain. *)
Theorem C73_table_terminates : forall snappy zstd content ix,
  is_bytes content -> decodes_bytes snappy -> decodes_bytes zstd ->
  exists fuel0 r, forall fuel, (fuel0 <= fuel)%nat ->
    read_table_entries fuel snappy zstd content ix = Done r.
Proof. exact read_table_entries_terminates. Qed.
Print Assumptions C73_table_terminates.

(** A table whose index entry is too short: the error ends the iteration. *)
Example C73_case :
  read_log_record 20 (repeat 0 12 ++ [1; 5]) = Done (Err IndexError) /\
  read_descriptor_record 5 (fun d => Ok d) [2] = Done (Err IndexError) /\
  read_table_data 9 [1; 0; 0; 0] = Done (Ok []) /\ read_table_data 9 [2; 0; 0; 0] = Done (Err ParseError) /\
  read_table_entries 40 (fun _ => Err OtherError) (fun _ => Err OtherError)
    ([0; 9; 1; 9; 1; 8; 0; 0; 0; 0; 0; 0; 0] ++ [0; 0; 0; 0] ++ [1; 0; 0; 0] ++ [0; 0; 0; 0; 0]) (0, 21) =
  Done (Ok ([], Some IndexError)).
Proof. repeat split. Qed.

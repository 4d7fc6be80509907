(** Properties of how the chunks of a tracev3 file are read. *)

From Verif Require Import Base BaseFacts CoreModel SeqSpec SeqFacts DictModel RdModel TvModel TvSpec TvProofs.
From Coq Require String.
Import String.StringSyntax.

(** *** C89: the chunks of a tracev3 file *)

(** Reading ends normally if and only if the chunks of the file reach its end; the log entries are those
    of the chunks, in the order of the chunks, and the firehose chunks see the oversize chunks before. *)
Theorem C89_entries {E S} lz4 (c : tv_calls E S) content pos st es st' : lz4_wf lz4 -> calls_wf c -> is_bytes content -> 0 <= pos ->
  (exists tell, tv_entries lz4 c content pos st = Some (es, Ok (st', tell))) <->
  (exists l stop hist, file_chunks lz4 content pos l stop /\ effects c st [] l stop es (Ok (st', hist))).
Proof.
  intros Wl W Hb Hp. split.
  - intros [tell H]. destruct (entries_sound lz4 c content pos st Wl W Hb Hp) as (l & stop & es1 & [[st1 hist]|e] & F & Ef & X).
    + destruct X as [tell1 X]. rewrite X in H. exists l, stop, hist. replace es with es1 by congruence. replace st' with st1 by congruence. auto.
    + congruence.
  - intros (l & stop & hist & F & Ef). exact (entries_complete lz4 c content pos l stop st es (Ok (st', hist)) Wl W Hb Hp F Ef).
Qed.
Print Assumptions C89_entries.

(** Reading ends with the first error of a chunk, or with the error of the layout behind the chunks that
    could be read; the log entries before are not lost. *)
Theorem C89_errors {E S} lz4 (c : tv_calls E S) content pos st es e : lz4_wf lz4 -> calls_wf c -> is_bytes content -> 0 <= pos ->
  tv_entries lz4 c content pos st = Some (es, Err e) <-> (exists l stop, file_chunks lz4 content pos l stop /\ effects c st [] l stop es (Err e)).
Proof.
  intros Wl W Hb Hp. split.
  - intros H. destruct (entries_sound lz4 c content pos st Wl W Hb Hp) as (l & stop & es1 & [[st1 hist]|e1] & F & Ef & X).
    + destruct X as [tell1 X]. congruence.
    + rewrite X in H. exists l, stop. replace es with es1 by congruence. replace e with e1 by congruence. auto.
  - intros (l & stop & F & Ef). exact (entries_complete lz4 c content pos l stop st es (Err e) Wl W Hb Hp F Ef).
Qed.
Print Assumptions C89_errors.

(** Reading always ends. *)
Theorem C89_ends {E S} lz4 (c : tv_calls E S) content pos st : lz4_wf lz4 -> calls_wf c -> is_bytes content -> 0 <= pos -> tv_entries lz4 c content pos st <> None.
Proof.
  intros Wl W Hb Hp. destruct (entries_sound lz4 c content pos st Wl W Hb Hp) as (l & stop & es1 & [[st1 hist]|e1] & F & Ef & X); [destruct X as [tell X]|]; congruence.
Qed.
Print Assumptions C89_ends.

(** All chunks of a file that is written as documented are read, none twice and nothing else. *)
Theorem C89_written lz4 pre l : Forall written_ok l -> (exists k, len pre = 8 * k) ->
  file_chunks lz4 (pre ++ concat (map written_bytes l)) (len pre) (written_list (len pre) l) None.
Proof. intros F Hk. apply written_chunks; [exact F|exact Hk| |rewrite len_app; lia]. exists pre, []. split; [now rewrite app_nil_r|reflexivity]. Qed.
Print Assumptions C89_written.

(** What an oversize chunk contains. *)
Theorem C89_oversize data o : is_bytes data -> (read_oversize data = Ok o <-> oversize_bytes o data).
Proof. apply read_oversize_iff. Qed.
Print Assumptions C89_oversize.

Theorem C89_oversize_errors data x : is_bytes data -> read_oversize data = Err x -> (data = [] /\ x = ValueError) \/ (data <> [] /\ x = ParseError).
Proof. apply read_oversize_errors. Qed.
Print Assumptions C89_oversize_errors.

(** The documentation says that the size of the data includes the data items. Of an oversize chunk with
    private data that is written this way neither the values data nor the private data is read as it was
    written. *)
Theorem C89_oversize_size_refuted o data : is_bytes data -> oversize_documented o data -> ov_private o <> [] ->
  exists o', read_oversize data = Ok o' /\ ov_values o' <> ov_values o /\ ov_private o' <> ov_private o.
Proof.
  intros Hb (h & i & Hh & Hi & ->) N. pose proof Hh as (A1 & A2 & A3 & A4 & A5 & A6 & A7 & A8). pose proof Hi as (u & ds & _ & _ & _ & Ei).
  assert (Li : 2 <= len i) by (rewrite Ei, len_app; pose proof (len_nonneg (concat ds)); change (len [u; len (ov_items o)]) with 2; lia).
  set (v := ov_values o) in *. set (p := ov_private o) in *. set (n := len i + len v) in *. assert (Lp : 0 < len p) by (destruct p; [congruence|rewrite len_cons; pose proof (len_nonneg p); lia]).
  pose proof (len_nonneg v).
  set (o' := mkov (ov_upper o) (ov_lower o) (ov_ttl o) (ov_time o) (ov_reference o) (ov_items o) (zfirstn n (v ++ p)) (zfirstn (len p) (zskipn n (v ++ p)))).
  exists o'. split; [|split].
  - apply C89_oversize; [exact Hb|]. exists n, (len p), h, i, (v ++ p). split; [repeat (split; [assumption|]); exact A8|]. split; [exact Hi|]. auto.
  - intros E. apply (f_equal len) in E. cbn [ov_values o'] in E. rewrite len_zfirstn, len_app in E. unfold n in E. lia.
  - intros E. apply (f_equal len) in E. cbn [ov_private o'] in E. rewrite len_zfirstn, len_zskipn, len_app in E. unfold n in E. lia.
Qed.
Print Assumptions C89_oversize_size_refuted.

(** A file object whose chunks are counted: every chunk gives its size as log entry. *)
Definition count_calls : tv_calls Z unit :=
  mkcalls (fun st off size => Ok (st, off + size)) (fun st _ data size => ([size], Ok st)) (fun st data size => ([size], Ok st)) (fun st data size => ([size], Ok st)).

Definition one_set : bytes := written_bytes (WSet 0 [(0x6004, 0, [1; 2; 3])]).

(** Log entries can be read only once: reading again begins inside the last chunk set. *)
Theorem C89_again_refuted : exists (content : bytes) tell,
  is_bytes content /\ tv_entries (fun _ _ => Err OtherError) count_calls content 0 tt = Some ([3], Ok (tt, tell)) /\
  tv_entries (fun _ _ => Err OtherError) count_calls content tell tt = Some ([], Err ParseError).
Proof.
  exists one_set, 28. split; [apply is_bytes_forallb; vm_compute; reflexivity|]. split; vm_compute; reflexivity.
Qed.
Print Assumptions C89_again_refuted.

(** Not all errors are ParseError: decompressed data that is shorter than the header says is a
    ValueError, a chunk set of 2^63 bytes an OverflowError. *)
Theorem C89_error_types_refuted : exists lz4 content1 content2, lz4_wf lz4 /\ is_bytes content1 /\ is_bytes content2 /\
  tv_entries lz4 count_calls content1 0 tt = Some ([], Err ValueError) /\ tv_entries lz4 count_calls content2 0 tt = Some ([], Err OverflowError).
Proof.
  exists (fun _ _ => Ok []), (enc_chunk 0x600d 0 (block_head 16 0 ++ marker)), (le_enc 4 0x600d ++ le_enc 4 0 ++ le_enc 8 (2 ^ 63)).
  split; [intros z n d [= <-]; constructor|]. split; [apply is_bytes_forallb; vm_compute; reflexivity|]. split; [apply is_bytes_forallb; vm_compute; reflexivity|].
  split; vm_compute; reflexivity.
Qed.
Print Assumptions C89_error_types_refuted.

Example C89_case :
  let over ref := le_enc 8 7 ++ le_enc 4 9 ++ [1; 0] ++ le_enc 2 0 ++ le_enc 8 5 ++ le_enc 4 ref ++ le_enc 2 2 ++ le_enc 2 1 ++ [0; 2] ++ [0; 4; 1; 0; 0; 0] ++ [34; 4; 0; 0; 2; 0] ++ [65; 66; 67] in
  let content := concat (map written_bytes [WCatalog 17 [1]; WSet 0 [(0x6003, 0, [1]); (0x6002, 0, over 3); (0x7000, 0, [9])]; WSet 0 [(0x6002, 0, over 4); (0x6001, 0, [1; 2])]]) in
  let calls := mkcalls (fun st off size => Ok (st, 0)) (fun st look data size => (match look 7 9 3 with Some o => ov_values o ++ ov_private o | None => [] end, Ok st))
    (fun st data size => (data, Ok st)) (fun st data size => ([], Ok st)) in
  tv_entries (fun _ _ => Err OtherError) calls content 0 tt = Some ([1; 65; 66; 67], Ok (tt, 176 + 28)) /\
  read_oversize (over 3) = Ok (mkov 7 9 1 5 3 [TInline 0 [1; 0; 0; 0]; TRange 34 0 2] [65; 66] [67]).
Proof. vm_compute. split; reflexivity. Qed.

(** Properties of the values and the backtrace of firehose tracepoints. *)

From Verif Require Import Base BaseFacts SeqSpec CoreModel StrModel RdModel RdSpec TvModel TvSpec CatModel CatSpec FhModel FhSpec FhProofs FvModel FvSpec FvProofs.
From Coq Require String.
Import String.StringSyntax.

(** *** C92: Values and backtraces of tracepoints *)

(** The values are those of the items, each with its index among the values; the first one that cannot be
    decoded ends reading. *)
Theorem C92_values decode values private poff items : Forall (item_wf poff) items ->
  (forall vs, read_items decode values private poff 0 items = Ok vs <-> values_of decode values private poff items vs) /\
  (forall x, read_items decode values private poff 0 items = Err x <-> values_fail decode values private poff items x).
Proof. intros W. exact (read_items_iff decode values private poff items W 0). Qed.
Print Assumptions C92_values.

(** The backtrace is the one that is stored at the start of the values data. *)
Theorem C92_backtrace flags values : is_bytes values ->
  (forall fs, read_backtrace flags values = Ok fs <-> backtrace_of flags values fs) /\
  (forall x, read_backtrace flags values = Err x <-> flag flags 12 /\
     ((values = [] /\ x = ValueError) \/
      (values <> [] /\ (forall ids offsets indexes d rest, values = d ++ rest -> ~ backtrace_bytes ids offsets indexes d) /\ x = ParseError) \/
      (exists ids offsets indexes d rest i, values = d ++ rest /\ backtrace_bytes ids offsets indexes d /\ In i indexes /\ image_of ids i None /\ x = IndexError))).
Proof. exact (backtrace_iff flags values). Qed.
Print Assumptions C92_backtrace.

Lemma data_items_selected oversize h b own ref poff values private : message h b own ref poff ->
  exists items values' private', selected oversize own ref values private items values' private' /\
    (forall i v p, selected oversize own ref values private i v p -> i = items /\ v = values' /\ p = private') /\
    private_offset h b = poff /\
    (forall decode chunk flags, chunk_private h chunk = private ->
       fh_values decode oversize h chunk flags b values =
         (do fs <- read_backtrace flags values'; do l <- read_items decode values' private' poff 0 items; Ok (fs, l))).
Proof.
  intros M.
  assert (P : private_offset h b = poff) by (destruct M; unfold private_offset; cbn [body_range fst]; rewrite ?land_4095; reflexivity).
  assert (B : body_ref b = ref /\ body_items b = Some own /\ forall decode chunk flags, fh_values decode oversize h chunk flags b values =
    (let '(items, values, private) := data_items oversize b values (chunk_private h chunk) in
      do fs <- read_backtrace flags values;
      do l <- (match items with
               | Some (i :: rest) => read_items decode values private (private_offset h b) 0 (i :: rest)
               | _ => Ok []
               end);
      Ok (fs, l))) by (destruct M; repeat split; reflexivity).
  destruct B as (B1 & B2 & B3). rewrite P in B3.
  assert (Own : ref = None \/ ref = Some 0 -> forall decode chunk flags, chunk_private h chunk = private -> fh_values decode oversize h chunk flags b values =
         (do fs <- read_backtrace flags values; do l <- read_items decode values private poff 0 own; Ok (fs, l))).
  { intros [R|R] decode chunk flags C; rewrite B3; unfold data_items; rewrite B1, R, B2, C; [|change (0 =? 0) with true; cbn iota]; destruct own; reflexivity. }
  destruct ref as [r|].
  - destruct (Z.eq_dec r 0) as [->|N].
    + exists own, values, private. split; [apply se_own; auto|]. split; [|split; [exact P|apply Own; auto]].
      intros i v p H. inversion H as [|r o E N|r E N]; subst; [auto| |]; exfalso; apply N; congruence.
    + destruct (oversize r) as [o|] eqn:O.
      * exists (ov_items o), (ov_values o), (ov_private o). split; [eapply se_oversize; eauto|]. split; [|split; [exact P|]].
        -- intros i v p H. inversion H as [[E'|E']|r' o' E' N' O'|r' E' N' O']; try congruence; assert (r' = r) by congruence; subst r'; try congruence. assert (o' = o) by congruence. subst o'. auto.
        -- intros decode chunk flags _. rewrite B3. unfold data_items. rewrite B1. destruct (Z.eqb_spec r 0); [contradiction|]. rewrite O. destruct (ov_items o); reflexivity.
      * exists [], values, private. split; [eapply se_missing; eauto|]. split; [|split; [exact P|]].
        -- intros i v p H. inversion H as [[E'|E']|r' o' E' N' O'|r' E' N' O']; try congruence; auto.
        -- intros decode chunk flags C. rewrite B3. unfold data_items. rewrite B1. destruct (Z.eqb_spec r 0); [contradiction|]. rewrite O. reflexivity.
  - exists own, values, private. split; [apply se_own; auto|]. split; [|split; [exact P|apply Own; auto]].
    intros i v p H. inversion H as [|r o E N|r E N]; subst; [auto| |]; discriminate.
Qed.

(** What is shown of a log message or a signpost: its items or those of the oversize chunk it refers to,
    with the values data and the private data they belong to. *)
Theorem C92_content decode oversize h b own ref poff chunk private flags values :
  message h b own ref poff -> private_of h chunk private ->
  (forall items values' private', selected oversize own ref values private items values' private' -> Forall (item_wf poff) items /\ is_bytes values') ->
  exists items values' private', selected oversize own ref values private items values' private' /\
    (forall fs vs, fh_values decode oversize h chunk flags b values = Ok (fs, vs) <->
       backtrace_of flags values' fs /\ values_of decode values' private' poff items vs) /\
    (forall x, fh_values decode oversize h chunk flags b values = Err x <->
       read_backtrace flags values' = Err x \/ ((exists fs, backtrace_of flags values' fs) /\ values_fail decode values' private' poff items x)).
Proof.
  intros M P W. destruct (data_items_selected oversize h b own ref poff values private M) as (items & values' & private' & S & U & _ & E).
  destruct (W _ _ _ S) as [W1 W2]. exists items, values', private'. split; [exact S|]. rewrite (E decode chunk flags) by (apply private_iff; exact P).
  destruct (C92_values decode values' private' poff items W1) as [V1 V2]. destruct (C92_backtrace flags values' W2) as [B1 _]. split.
  - intros fs vs. rewrite <- B1, <- V1. destruct (read_backtrace flags values') as [f|y]; cbn [bind]; [|split; [discriminate|intros [? _]; discriminate]].
    destruct (read_items _ _ _ _ _ _) as [l|y]; cbn [bind]; [|split; [discriminate|intros [_ ?]; discriminate]]. split; [intros H; split; congruence|]. intros [H1 H2]. congruence.
  - intros x. rewrite <- V2. destruct (read_backtrace flags values') as [f|y]; cbn [bind].
    + destruct (read_items _ _ _ _ _ _) as [l|y]; cbn [bind]; split.
      * discriminate.
      * intros [H|[_ H]]; discriminate.
      * intros H. right. split; [exists f; apply B1; reflexivity|congruence].
      * intros [H|[_ H]]; [discriminate|congruence].
    + split; [intros H; left; congruence|]. intros [H|[[fs H] _]]; [congruence|]. apply B1 in H. discriminate.
Qed.
Print Assumptions C92_content.

(** An activity has a backtrace and no values. *)
Theorem C92_activity decode oversize h chunk flags l n c o loc values fs vs : is_bytes values ->
  (fh_values decode oversize h chunk flags (Activity l n c o loc) values = Ok (fs, vs) <-> backtrace_of flags values fs /\ vs = []).
Proof.
  intros Hb. destruct (C92_backtrace flags values Hb) as [B _]. rewrite <- B. cbn [fh_values data_items body_ref body_items]. unfold data_items. cbn [body_ref body_items].
  destruct (read_backtrace flags values) as [f|x]; cbn [bind]; [|split; [discriminate|intros [? _]; discriminate]]. split; [intros H; split; congruence|]. intros [H ->]. congruence.
Qed.
Print Assumptions C92_activity.

(** A trace is shown with the values that were written: 4 or 8 bytes each, followed by their sizes and
    their number. *)
Theorem C92_trace decode oversize h chunk format thread low up lower vals fs vs :
  Forall (fun v => len v = 4 \/ len v = 8) vals -> is_bytes (concat vals) -> n8 (len vals) -> n32 lower ->
  let tp := mktp 3 0 2 format thread low up (le_enc 4 lower ++ concat vals ++ map len vals ++ [len vals]) in
  exists b n, tp_body tp = Ok (b, n) /\
    (fh_values decode oversize h chunk 2 b (pyslice_from (tp_data tp) n) = Ok (fs, vs) <->
     fs = [] /\ length vs = length vals /\ forall k v x, nth_error vals k = Some v -> nth_error vs k = Some x -> decode (Z.of_nat k) (Some v) = Ok x).
Proof.
  intros F Bv Nv N. cbv zeta. set (values := concat vals ++ map len vals ++ [len vals]).
  assert (Hb : is_bytes (le_enc 4 lower ++ values)).
  { apply Forall_app. split; [apply le_enc_bytes|]. apply Forall_app. split; [exact Bv|]. apply Forall_app. split; [|constructor; [exact Nv|constructor]].
    clear - F. induction F as [|v l H F IH]; cbn [map]; constructor; [unfold is_byte; lia|exact IH]. }
  exists (Trace (mkloc lower None None None None) (len vals)), 4.
  assert (L : last (le_enc 4 lower ++ values) 0 = len vals) by (unfold values; rewrite !app_assoc; apply last_last). split.
  - unfold tp_body. cbn [tp_record tp_log]. change (3 =? 2) with false. change (3 =? 3) with true. cbn iota. change (one_of 0 [0]) with true. cbn [guard bind]. unfold read_body. cbn [tp_flags tp_data].
    change (Z.land 2 (Z.lnot 2) =? 0) with true. cbn [guard bind]. destruct (Z.ltb_spec 0 (len (le_enc 4 lower ++ values))) as [_|H]; [|rewrite len_app, len_le_enc in H; pose proof (len_nonneg values); lia].
    cbn [guard bind]. unfold rd_trace. rewrite L. unfold rd_bind.
    rewrite (proj2 (proj1 (reads_i32 (le_enc 4 lower ++ values) 0 Hb ltac:(pose proof (len_nonneg (le_enc 4 lower ++ values)); lia)) lower 4)); [reflexivity|].
    exists (le_enc 4 lower). split; [split; [exact N|reflexivity]|]. split; [exists [], values; split; reflexivity|rewrite len_le_enc; reflexivity].
  - cbn [tp_data fh_values]. rewrite pyslice_from_nonneg by lia. rewrite zskipn_app_len by (rewrite len_le_enc; reflexivity).
    assert (R : (if len vals =? 0 then Ok [] else read_trace decode values (Z.to_nat (len vals)) 0 0) = read_trace decode values (length vals) 0 0).
    { replace (Z.to_nat (len vals)) with (length vals) by (unfold len; lia). destruct (Z.eqb_spec (len vals) 0) as [E|_]; [|reflexivity]. destruct vals; [reflexivity|unfold len in E; cbn [length] in E; lia]. }
    rewrite R. pose proof (read_trace_ok decode vals F [] [] (len vals) 0) as T. change ([] ++ concat vals ++ [] ++ map len vals ++ [len vals]) with values in T. change (len []) with 0 in T.
    split.
    + destruct (read_trace decode values (length vals) 0 0) as [l|x]; cbn [bind]; [|discriminate]. intros H. assert (fs = [] /\ vs = l) as [-> ->] by (split; congruence).
      destruct (proj1 (T l) eq_refl) as [A B]. split; [reflexivity|]. split; [exact A|]. intros k v x H1 H2. rewrite <- (B k v x H1 H2). reflexivity.
    + intros (-> & A & B). rewrite (proj2 (T vs)); [reflexivity|]. split; [exact A|]. intros k v x H1 H2. change (0 + Z.of_nat k) with (Z.of_nat k). exact (B k v x H1 H2).
Qed.
Print Assumptions C92_trace.

(** What is shown of the data in the following. *)
Definition shown_data (_ : Z) (d : option bytes) : result str := Ok (match d with Some d => d | None => [] end).

(** A trace of the 4 bytes of a location and nothing else is no trace without values: the last byte of the
    location is used as the number of values. *)
Theorem C92_location_refuted oversize h chunk : exists b, tp_body (mktp 3 0 2 0 0 0 0 [0; 0; 0; 1]) = Ok (b, 4) /\
  fh_values shown_data oversize h chunk 2 b [] = Err IndexError.
Proof. eexists. split; reflexivity. Qed.
Print Assumptions C92_location_refuted.

(** The value of a trace that says to have 8 bytes but has 4 is shown with bytes that are not its own. *)
Theorem C92_size_refuted oversize h chunk : exists b, tp_body (mktp 3 0 2 0 0 0 0 [0; 0; 0; 0; 1; 2; 3; 4; 8; 1]) = Ok (b, 4) /\
  fh_values shown_data oversize h chunk 2 b [1; 2; 3; 4; 8; 1] = Ok ([], [[1; 2; 3; 4; 8; 1]]).
Proof. eexists. split; reflexivity. Qed.
Print Assumptions C92_size_refuted.

(** A private value whose offset is before the private data is shown as bytes from the end of it: with
    private data of 8 bytes and an offset 4 bytes before, the 5th and the 6th byte. *)
Theorem C92_before_refuted oversize loc values : let h := mkfh 1 2 48 0x1ff8 0 in let chunk := repeat 0 48 ++ [1; 2; 3; 4; 5; 6; 7; 8] in
  private_of h chunk [1; 2; 3; 4; 5; 6; 7; 8] /\
  fh_values shown_data oversize h chunk 0x0100 (Log None (Some (0xff4, 2)) loc None None None [TRange 0x21 0 2]) values = Ok ([], [[5; 6]]) /\
  forall d, ~ part [1; 2; 3; 4; 5; 6; 7; 8] (0xff4 - 0xff8) 2 d.
Proof.
  cbv zeta. split; [|split].
  - apply private_iff. reflexivity.
  - reflexivity.
  - intros d [H _]. destruct H as [(pre & post & E & L) _]; [cbn; lia|]. pose proof (len_nonneg pre). lia.
Qed.
Print Assumptions C92_before_refuted.

(** A log message of a number, a private string, an empty private string, a precision and a string, with a
    backtrace of two frames. *)
Definition case_uuid : bytes := [1; 2; 3; 4; 5; 6; 7; 8; 9; 10; 11; 12; 13; 14; 15; 16].

Example C92_case :
  let values := [0; 0; 0; 1; 2; 0] ++ case_uuid ++ [0x10; 0; 0; 0; 0x20; 1; 0; 0] ++ [0; 0xff] ++ [104; 105; 0] in
  let h := mkfh 1 2 48 0x1ff8 0 in
  let items := [TInline 0 [7; 0; 0; 0]; TRange 0x21 0 3; TRange 0x21 3 0; TInline 0x10 [2; 0; 0; 0]; TRange 0x22 32 3] in
  fh_values (fun k d => Ok (k :: match d with Some d => d | None => [] end)) (fun _ => None) h (repeat 0 48 ++ [80; 81; 82; 83; 84; 85; 86; 87]) 0x1100
    (Log None (Some (0xffa, 6)) (mkloc 0 None None None None) None None None items) values =
  Ok ([(case_uuid, 0x10); (repeat 0 16, 0x120)], [[0; 7; 0; 0; 0]; [1; 82; 83; 84]; s2z "<private>"%string; [3; 104; 105; 0]]).
Proof. vm_compute. reflexivity. Qed.

(** Properties C34 - C37, C74 - C76: Chrome cache files. *)

From Verif Require Import Base BaseFacts CoreModel StrModel StrFacts TextModel StructFacts
  ChromeModel ChromeSpec ChromeProofs.

(** C34: the decoded fields are the documented bit fields. *)
Theorem C34_fields : forall v, 0 <= v < 2 ^ 32 ->
  let a := cache_address v in
  (ca_initialized a = true <-> doc_initialized v) /\ ca_type a = doc_type v /\ ca_value a = v /\
  (v = 0 \/ 4 < doc_type v -> ca_filename a = None /\ ca_block a = None) /\
  (v <> 0 -> doc_type v = 0 -> ca_block a = None /\
     exists name, ca_filename a = Some name /\ names_number (s2z "f_") 16 6 (doc_separate_number v) name) /\
  (forall bs, In (doc_type v, bs) doc_block_sizes ->
     (exists name, ca_filename a = Some name /\ names_number (s2z "data_") 10 0 (doc_file_number v) name) /\
     exists b, ca_block a = Some b /\ cb_number b = doc_block_number v /\
               cb_offset b = 8192 + doc_block_number v * bs).
Proof.
  intros v Hv a. pose proof (init_bit v Hv) as Hi. unfold a. clear a.
  destruct (type_cases v) as [Ht | [(bs & Hin & Hpos) | Ht]].
  - destruct (Z.eq_dec v 0) as [->|Hn].
    + rewrite cache_address_zero. cbn [ca_initialized ca_type ca_value ca_filename ca_block].
      split; [exact Hi|]. split; [reflexivity|]. split; [reflexivity|]. split; [auto|]. split; [congruence|].
      intros bs H. change (doc_type 0) with 0 in H. cbn [doc_block_sizes In] in H. intuition discriminate.
    + rewrite (cache_address_separate v Hn Ht). cbn [ca_initialized ca_type ca_value ca_filename ca_block].
      split; [exact Hi|]. split; [auto|]. split; [reflexivity|]. split; [lia|]. split.
      * intros _ _. split; [reflexivity|]. eexists. split; [reflexivity|]. apply fmt_names; [lia|].
        apply bits_bound. lia.
      * intros bs H. rewrite Ht in H. cbn [doc_block_sizes In] in H. intuition discriminate.
  - rewrite (cache_address_block v bs Hin). cbn [ca_initialized ca_type ca_value ca_filename ca_block].
    assert (Hr : 1 <= doc_type v <= 4).
    { unfold doc_block_sizes in Hin. cbn [In] in Hin.
      destruct Hin as [E | [E | [E | [E | []]]]]; injection E as <- <-; lia. }
    assert (v <> 0) by (intros ->; change (doc_type 0) with 0 in Hr; lia).
    split; [exact Hi|]. split; [reflexivity|]. split; [reflexivity|]. split; [lia|]. split; [lia|].
    intros bs' Hin'. assert (bs' = bs) as ->.
    { unfold doc_block_sizes in Hin, Hin'. cbn [In] in Hin, Hin'.
      destruct Hin as [E | [E | [E | [E | []]]]]; injection E as E1 E2;
      destruct Hin' as [E' | [E' | [E' | [E' | []]]]]; injection E' as E1' E2'; lia. }
    split; [|eexists; split; [reflexivity|]; auto].
    eexists. split; [reflexivity|]. apply fmt_names; [lia|]. apply bits_bound. lia.
  - rewrite (cache_address_unknown v Ht). cbn [ca_initialized ca_type ca_value ca_filename ca_block].
    split; [exact Hi|]. split; [reflexivity|]. split; [reflexivity|]. split; [auto|]. split; [lia|].
    intros bs H. exfalso. unfold doc_block_sizes in H. cbn [In] in H.
    destruct H as [E | [E | [E | [E | []]]]]; injection E as E _; lia.
Qed.
Print Assumptions C34_fields.

(** Together with the reserved bits the decoded fields determine the address: no information
    is lost for the documented file types. *)
Theorem C34_determined : forall v v', 0 <= v < 2 ^ 32 -> 0 <= v' < 2 ^ 32 ->
  let a := cache_address v in let a' := cache_address v' in
  ca_initialized a = ca_initialized a' -> ca_type a = ca_type a' -> ca_filename a = ca_filename a' ->
  ca_block a = ca_block a' -> doc_type v <= 4 -> doc_reserved v = doc_reserved v' -> v = v'.
Proof.
  intros v v' Hv Hv' a a' Ei Et Ef Eb Hd Er. unfold a, a' in *. clear a a'.
  assert (Ety : doc_type v = doc_type v').
  { destruct (C34_fields v Hv) as (_ & T & _). destruct (C34_fields v' Hv') as (_ & T' & _). cbn zeta in T, T'. congruence. }
  destruct (type_cases v) as [Ht | [(bs & Hin & Hpos) | Ht]]; [| |lia].
  - destruct (Z.eq_dec v 0) as [->|Hn]; destruct (Z.eq_dec v' 0) as [->|Hn']; [reflexivity| | |].
    + rewrite cache_address_zero, (cache_address_separate v' Hn') in Ef by congruence. discriminate.
    + rewrite cache_address_zero, (cache_address_separate v Hn) in Ef by congruence. discriminate.
    + rewrite (cache_address_separate v Hn), (cache_address_separate v' Hn') in Ef, Ei by congruence.
      cbn [ca_filename ca_initialized] in Ef, Ei. apply init_bit_eq in Ei; [|assumption|assumption].
      injection Ef as Ef. apply fmt_int_inj in Ef; [|lia]. unfold doc_type in *.
      rewrite (bits_split v Hv), (bits_split v' Hv'). unfold doc_separate_number in Ef. congruence.
  - assert (Hin' := Hin). rewrite Ety in Hin'.
    rewrite (cache_address_block v bs Hin), (cache_address_block v' bs Hin') in Ef, Ei, Eb.
    cbn [ca_filename ca_initialized ca_block] in Ef, Ei, Eb. apply init_bit_eq in Ei; [|assumption|assumption].
    injection Ef as Ef. apply fmt_int_inj in Ef; [|lia].
    assert (En : doc_block_number v = doc_block_number v') by congruence.
    assert (Es : bits 24 2 v * bs = bits 24 2 v' * bs) by congruence.
    apply Z.mul_cancel_r in Es; [|lia].
    rewrite (bits_split_block v Hv), (bits_split_block v' Hv').
    unfold doc_file_number, doc_block_number, doc_reserved, doc_type in *. congruence.
Qed.
Print Assumptions C34_determined.

(** The block size is never the documented one: it is one block short, and zero for a
    single block. *)
Theorem C34_block_size_refuted : forall v bs, 0 <= v < 2 ^ 32 -> In (doc_type v, bs) doc_block_sizes ->
  exists b, ca_block (cache_address v) = Some b /\ cb_size b = (doc_number_of_blocks v - 1) * bs /\
            cb_size b <> doc_number_of_blocks v * bs.
Proof.
  intros v bs Hv Hin. rewrite (cache_address_block v bs Hin). cbn [ca_block]. eexists. split; [reflexivity|].
  cbn [cb_size]. unfold doc_number_of_blocks. split; [f_equal; lia|].
  assert (0 < bs).
  { unfold doc_block_sizes in Hin. cbn [In] in Hin.
    destruct Hin as [E | [E | [E | [E | []]]]]; injection E as E1 E2; lia. }
  lia.
Qed.
Print Assumptions C34_block_size_refuted.

(** Formatting an address fails exactly for the file types 5 to 7. *)
Theorem C34_debug_string : forall v, 0 <= v < 2 ^ 32 ->
  (doc_type v <= 4 -> exists s, debug_string (cache_address v) = Ok s) /\
  (4 < doc_type v -> debug_string (cache_address v) = Err TypeError).
Proof.
  intros v Hv. destruct (type_cases v) as [Ht | [(bs & Hin & Hpos) | Ht]].
  - split; [intros _|lia]. destruct (Z.eq_dec v 0) as [->|Hn]; [rewrite cache_address_zero; eexists; reflexivity|].
    rewrite (cache_address_separate v Hn Ht). unfold debug_string. cbn [ca_value ca_filename ca_type].
    rewrite (proj2 (Z.eqb_neq v 0)) by assumption. eexists. reflexivity.
  - split.
    + intros _. rewrite (cache_address_block v bs Hin). unfold debug_string. cbn [ca_value ca_filename ca_type ca_block].
      destruct (v =? 0); [eexists; reflexivity|]. destruct (doc_type v =? 0); eexists; reflexivity.
    + intros C. unfold doc_block_sizes in Hin. cbn [In] in Hin.
      destruct Hin as [E | [E | [E | [E | []]]]]; injection E as E1 E2; lia.
  - split; [lia|]. intros _. rewrite (cache_address_unknown v Ht).
    assert (v <> 0) by (intros ->; change (doc_type 0) with 0 in Ht; lia).
    unfold debug_string. cbn [ca_value ca_filename]. rewrite (proj2 (Z.eqb_neq v 0)) by assumption. reflexivity.
Qed.
Print Assumptions C34_debug_string.

(** 0xa1010003: an initialised address of file type 2, two blocks in file data_1. *)
Example C34_case :
  cache_address 2701197315 =
  mkcaddr 2701197315 true 2 (Some (s2z "data_1")) (Some (mkcblock 3 256 8960)) /\
  doc_number_of_blocks 2701197315 = 2 /\ In (doc_type 2701197315, 256) doc_block_sizes /\
  cache_address 2147483653 = mkcaddr 2147483653 true 0 (Some (s2z "f_000005")) None /\
  doc_type 4026531840 = 7.
Proof. repeat split. cbn. auto. Qed.

(** C35 *)
Theorem C35_ranges_are_the_closed_runs : forall bitmap a b,
  In (a, b) (bitmap_ranges bitmap) <-> closed_run bitmap a b.
Proof. intros bitmap. apply bitmap_ranges_runs. Qed.
Print Assumptions C35_ranges_are_the_closed_runs.

Theorem C35_ranges_in_order : forall bitmap pre r mid r' post,
  bitmap_ranges bitmap = pre ++ r :: mid ++ r' :: post -> snd r < fst r'.
Proof.
  intros bitmap pre r mid r' post E. pose proof (proj2 (bitmap_ranges_runs bitmap)) as H. rewrite E in H. clear E.
  induction pre as [|x pre IH]; cbn [app ordered] in H.
  - destruct H as [H _]. apply H. apply in_or_app. right. left. reflexivity.
  - apply IH. apply H.
Qed.
Print Assumptions C35_ranges_in_order.

(** A run that reaches the end of the bitmap is not reported. *)
Theorem C35_last_run_refuted :
  exists bitmap i, allocated bitmap i /\
    ~ exists a b, In (a, b) (bitmap_ranges bitmap) /\ a <= i < b.
Proof.
  exists [4294967295], 5. split; [split; [cbn; lia|reflexivity]|].
  intros (a & b & H & _). vm_compute in H. exact H.
Qed.
Print Assumptions C35_last_run_refuted.

Example C35_case : bitmap_ranges [13; 3] = [(0, 1); (2, 4); (32, 34)] /\
  map range_text (bitmap_ranges [13; 3]) = [s2z "0 - 1 (1)"; s2z "2 - 4 (2)"; s2z "32 - 34 (2)"].
Proof. split; reflexivity. Qed.

(** C36: the index table behind the 368 bytes of headers; [t] is what the object held
    before. *)
Theorem C36_index_table : forall fuel t content version creation t',
  read_index_file fuel t content = Done (Ok (version, creation, t')) ->
  forall i, assoc_z i t' =
    match table_entry content 368 i with
    | Some v => if v =? 0 then assoc_z i t else Some (cache_address v)
    | None => assoc_z i t
    end.
Proof.
  intros fuel t content version creation t' H i. unfold read_index_file in H.
  destruct (do h <- read_index_header content; _) as [[v c]|]; [|discriminate].
  replace (Z.of_nat (struct_size index_header_layout + struct_size lru_layout)) with 368 in H by reflexivity.
  destruct (read_index_table fuel t 0 (zskipn 368 content)) as [[t0|]|] eqn:E; try discriminate.
  injection H as <- <- <-.
  rewrite (read_index_table_get content 368 ltac:(lia) fuel t 0 t0 ltac:(lia) E i).
  destruct (Z.ltb_spec i 0); [|reflexivity].
  unfold table_entry. rewrite (proj2 (Z.leb_gt 0 i)) by lia. reflexivity.
Qed.
Print Assumptions C36_index_table.

(** The first file read: exactly the entries with a non-zero value, in order. *)
Theorem C36_first_file : forall fuel content version creation t,
  read_index_file fuel [] content = Done (Ok (version, creation, t)) ->
  (forall i a, assoc_z i t = Some a <->
     exists v, table_entry content 368 i = Some v /\ v <> 0 /\ a = cache_address v) /\
  increasing (map fst t).
Proof.
  intros fuel content version creation t H. split.
  - intros i a. rewrite (C36_index_table _ _ _ _ _ _ H i). cbn [assoc_z].
    destruct (table_entry content 368 i) as [v|]; [|split; [discriminate|intros (v & E & _); discriminate]].
    destruct (Z.eqb_spec v 0) as [->|Hv].
    + split; [discriminate|]. intros (v & E & Hv & _). congruence.
    + split.
      * intros E. injection E as <-. eauto.
      * intros (v' & E & _ & ->). congruence.
  - unfold read_index_file in H.
    destruct (do h <- read_index_header content; _) as [[v c]|]; [|discriminate].
    destruct (read_index_table fuel [] 0 _) as [[t0|]|] eqn:E; try discriminate.
    injection H as <- <- <-. eapply read_index_table_increasing; [| |exact E]; [exact I|intros ? []].
Qed.
Print Assumptions C36_first_file.

(** A second file read with the same object keeps entries of the first. *)
Definition C36_file (entries : bytes) : bytes :=
  [195; 202; 3; 193; 1; 0; 2; 0] ++ repeat 0 360 ++ entries.

Theorem C36_reopened_object_refuted :
  exists fuel f1 f2 v1 c1 t1 v2 c2 t2 v3 c3 t3,
    read_index_file fuel [] f1 = Done (Ok (v1, c1, t1)) /\
    read_index_file fuel t1 f2 = Done (Ok (v2, c2, t2)) /\
    read_index_file fuel [] f2 = Done (Ok (v3, c3, t3)) /\ t2 <> t3.
Proof.
  exists 9%nat, (C36_file [3; 0; 1; 161]), (C36_file []).
  do 9 eexists. split; [vm_compute; reflexivity|]. split; [vm_compute; reflexivity|].
  split; [vm_compute; reflexivity|]. discriminate.
Qed.
Print Assumptions C36_reopened_object_refuted.

Example C36_case : exists v c t,
  read_index_file 9 [] (C36_file [3; 0; 1; 161; 0; 0; 0; 0; 5; 0; 0; 128; 7; 7]) = Done (Ok (v, c, t)) /\
  t = [(0, cache_address 2701197315); (2, cache_address 2147483653)] /\ v = s2z "2.1".
Proof. do 3 eexists. split; [vm_compute; reflexivity|]. split; reflexivity. Qed.

(** C37: with the file system helpers of the repository. *)
Theorem C37_parse_directory_fails : forall fuel decode fs path,
  parse_directory fuel actual_join2 decode fs path = ([], Done (Err TypeError)).
Proof. reflexivity. Qed.
Print Assumptions C37_parse_directory_fails.

(** Even with a helper that joined its two arguments no entry would ever be printed, and the
    call would fail unless the index table is empty: the key of an entry is already a string. *)
Theorem C37_prints_nothing : forall fuel join fs path,
  fst (parse_directory fuel join str_decode fs path) = [] /\
  (snd (parse_directory fuel join str_decode fs path) = Done (Ok tt) ->
   exists p content version creation, join path (Some (s2z "index")) = Ok p /\ fs p = Some content /\
     read_index_file fuel [] content = Done (Ok (version, creation, []))).
Proof.
  intros fuel join fs path. unfold parse_directory.
  destruct (join path (Some (s2z "index"))) as [p|]; [|split; [reflexivity|discriminate]].
  destruct (fs p) as [content|] eqn:Ef; [|split; [reflexivity|discriminate]].
  destruct (read_index_file fuel [] content) as [[[[version creation] t]|]|] eqn:Er;
    [|split; [reflexivity|discriminate]|split; [reflexivity|discriminate]].
  destruct (open_block_files join fs path (map snd t) [] true) as [[files [|]]|] eqn:Eo;
    [|split; [reflexivity|discriminate]|split; [reflexivity|discriminate]].
  pose proof (walk_chains_prints_nothing files (map snd t)) as Hn.
  destruct (walk_chains str_decode files (map snd t)) as [out r] eqn:Ew. cbn [fst snd] in *. split; [exact Hn|].
  intros H. injection H as ->. exists p, content, version, creation. split; [reflexivity|]. split; [exact Ef|].
  destruct t as [|[k a] t]; [exact Er|]. exfalso.
  apply open_block_files_have in Eo. destruct Eo as (_ & _ & Hall). cbn [map] in Hall. apply Forall_inv in Hall.
  assert (Hnz : ca_value a <> 0).
  { unfold read_index_file in Er. destruct (do h <- read_index_header content; _) as [[v c]|]; [|discriminate].
    destruct (read_index_table fuel [] 0 _) as [[t0|]|] eqn:E; try discriminate. injection Er as <- <- ->.
    apply read_index_table_nonzero in E; [|constructor]. apply Forall_inv in E. exact E. }
  destruct (walk_chains_fails files a (map snd t) Hnz Hall) as [e He]. cbn [map snd] in Ew. rewrite Ew in He. discriminate.
Qed.
Print Assumptions C37_prints_nothing.

(** A directory with an entry, a working helper and a key that could be decoded: printed. *)
Definition C37_block_file : bytes :=
  [195; 202; 4; 193; 0; 0; 2; 0] ++ repeat 0 (Z.to_nat 8184)
  ++ repeat 0 (Z.to_nat (256 * 3)) ++ repeat 0 96 ++ s2z "key" ++ repeat 0 157.
Definition C37_fs (p : str) : option bytes :=
  if list_eqb p (s2z "/index") then Some (C36_file [3; 0; 1; 161])
  else if list_eqb p (s2z "/data_1") then Some C37_block_file else None.
Definition C37_join : join2 := fun path name => match name with Some n => Ok (path ++ n) | None => Err TypeError end.

Example C37_case :
  parse_directory 9 C37_join str_decode C37_fs (s2z "/") = ([], Done (Err AttributeError)) /\
  parse_directory 9 C37_join (fun s => Ok s) C37_fs (s2z "/") = ([s2z "key"], Done (Ok tt)).
Proof. split; vm_compute; reflexivity. Qed.

(** C74: a cache entry is read from the 256 bytes at its offset. *)
Theorem C74_entry : forall content off, 0 <= off -> is_bytes content ->
  (len content < off + 256 -> read_cache_entry content (Some off) = Err ParseError) /\
  (off + 256 <= len content -> exists e key rest,
     read_cache_entry content (Some off) = Ok e /\
     ce_hash e = u_at content off 4 /\ ca_value (ce_next e) = u_at content (off + 4) 4 /\
     ca_value (ce_rankings e) = u_at content (off + 8) 4 /\ ce_creation e = u_at content (off + 24) 8 /\
     ~ In 0 key /\
     (zfirstn 160 (zskipn (off + 96) content) = key \/
      zfirstn 160 (zskipn (off + 96) content) = key ++ 0 :: rest) /\
     length (ce_key e) = length key /\
     (forall i c, nth_error key i = Some c ->
        nth_error (ce_key e) i = Some (if c <? 128 then c else 0xFFFD))).
Proof.
  intros content off Ho Hb. rewrite (read_cache_entry_spec content off Ho).
  destruct (Z.leb_spec (off + 256) (len content)); (split; [|]); try lia; [|reflexivity].
  intros _. destruct (before_nul_spec (zfirstn 160 (zskipn (off + 96) content))) as (rest & Hn & E).
  do 2 eexists. exists rest. split; [reflexivity|]. cbn [ce_hash ce_next ce_rankings ce_creation ce_key].
  rewrite !cache_address_value. do 4 (split; [reflexivity|]). split; [exact Hn|]. split; [exact E|].
  unfold ascii_replace. split; [apply map_length|]. intros i c Hc. rewrite nth_error_map, Hc. reflexivity.
Qed.
Print Assumptions C74_entry.

(** The key size of the entry is not used: a long key stored behind the entry is cut. *)
Theorem C74_long_key_refuted :
  exists content e, u_at content 32 4 = 200 /\ read_cache_entry content (Some 0) = Ok e /\
    ce_key e = repeat 97 160 /\ zfirstn 200 (zskipn 96 content) = repeat 97 200.
Proof.
  exists (repeat 0 32 ++ [200; 0; 0; 0] ++ repeat 0 60 ++ repeat 97 200 ++ repeat 0 216).
  eexists. split; [reflexivity|]. split; [vm_compute; reflexivity|]. split; reflexivity.
Qed.
Print Assumptions C74_long_key_refuted.

Example C74_case : exists e, read_cache_entry C37_block_file (Some 8960) = Ok e /\ ce_key e = s2z "key".
Proof. eexists. split; [vm_compute; reflexivity|reflexivity]. Qed.

(** C75: ParseFile accepts exactly the complete files with a known signature and version;
    anything else is a ParseError. *)
Theorem C75_parse_file : forall content fuel, is_bytes content -> (length content < 4 * fuel)%nat ->
  (parse_file fuel content = Done (Ok tt) /\ (block_file_ok content \/ index_file_ok content)) \/
  (parse_file fuel content = Done (Err ParseError) /\ ~ block_file_ok content /\ ~ index_file_ok content).
Proof.
  intros content fuel Hb Hf. unfold parse_file.
  assert (E0 : u_at content 0 4 = le_int (zfirstn 4 content)) by (unfold u_at; rewrite zskipn_0 by lia; reflexivity).
  destruct (Z.eqb_spec (len (zfirstn 4 content)) 4) as [E4|E4]; cbn [negb].
  - destruct (Z.eqb_spec (le_int (zfirstn 4 content)) 3238316739) as [Es|Es].
    + destruct (read_block_file_spec content Hb) as [[[r ->] H]|[-> H]]; [left; auto|right].
      split; [reflexivity|]. split; [exact H|]. unfold index_file_ok, header_ok. rewrite E0, Es. lia.
    + destruct (Z.eqb_spec (le_int (zfirstn 4 content)) 3238251203) as [Ei|Ei].
      * destruct (read_index_file_spec content fuel [] Hb Hf) as [[(v & c & t & -> & _) H]|[-> H]]; [left; auto|right].
        split; [reflexivity|]. split; [|exact H]. unfold block_file_ok, header_ok. rewrite E0, Ei. lia.
      * right. split; [reflexivity|]. unfold block_file_ok, index_file_ok, header_ok. rewrite E0. lia.
  - right. split; [reflexivity|]. rewrite len_zfirstn in E4. unfold block_file_ok, index_file_ok. lia.
Qed.
Print Assumptions C75_parse_file.

Example C75_case :
  block_file_ok C37_block_file /\ index_file_ok (C36_file []) /\
  parse_file (Z.to_nat 9999) C37_block_file = Done (Ok tt) /\ parse_file 99 (C36_file []) = Done (Ok tt) /\
  parse_file 9 [195; 202; 4; 193; 0; 0] = Done (Err ParseError) /\ parse_file 9 [1; 2; 3] = Done (Err ParseError).
Proof.
  split; [|split; [|repeat split; vm_compute; reflexivity]].
  - split; [vm_compute; discriminate|]. repeat split; try (vm_compute; reflexivity). left. vm_compute. reflexivity.
  - split; [vm_compute; discriminate|]. repeat split; try (vm_compute; reflexivity). right. vm_compute. reflexivity.
Qed.

(** C76: a chain of entries is followed for at most 64 entries, also when it is cyclic. *)
Theorem C76_chain_bounded : forall decode files a,
  (length (fst (walk_chain decode files 64 a)) <= 64)%nat.
Proof. intros. apply walk_chain_bounded. Qed.
Print Assumptions C76_chain_bounded.

(** All chains of a directory together: at most 64 entries for every table entry. *)
Theorem C76_directory_bounded : forall decode files l,
  (length (fst (walk_chains decode files l)) <= 64 * length l)%nat.
Proof.
  intros decode files l. induction l as [|a l IH]; [cbn; lia|]. cbn [walk_chains length].
  pose proof (walk_chain_bounded decode files 64 a) as B.
  destruct (walk_chain decode files 64 a) as [out [x|e]]; cbn [fst] in *; [|lia].
  destruct (walk_chains decode files l) as [out' res]; cbn [fst] in *. rewrite app_length. lia.
Qed.
Print Assumptions C76_directory_bounded.

(** An entry that is its own successor. *)
Example C76_case :
  length (fst (walk_chain (fun s => Ok s)
    [(Some (s2z "data_1"), repeat 0 (Z.to_nat 8960) ++ [0; 0; 0; 0; 3; 0; 1; 161] ++ repeat 0 248)]
    64 (cache_address 2701197315))) = 64%nat.
Proof. vm_compute. reflexivity. Qed.

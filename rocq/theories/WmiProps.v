(** * Properties of the WMI repository readers

    C51: the keys of the index; C52: object records; C53: opening a repository; C54: patterns for file names;
    C55: mapping files. The vocabulary is in WmiSpec. *)

From Verif Require Import Base BaseFacts CoreModel StrModel DictModel SeqSpec ClProofs WmiModel WmiSpec WmiMapProofs WmiIdxProofs WmiObjProofs WmiNameProofs.
From Coq Require String.
Import String.StringSyntax.

(** [d] filled with zeros to [n] bytes, for the examples. *)
Definition pad (n : Z) (d : bytes) : bytes := d ++ repeat 0 (Z.to_nat (n - len d)).

(** *** C51: WMI index traversal enumerates every key *)

(** The keys returned are those of the tree below the root page: the keys of a page, then those of its sub
    pages in order. *)
Theorem C51_keys v21 table content l : is_bytes content -> Forall is_u32 table ->
  ((exists fuel, index_keys fuel v21 table content = Done (Ok l)) <->
   exists root, root_number v21 table content root /\ tree_keys table content root l).
Proof. apply index_keys_iff. Qed.
Print Assumptions C51_keys.

(** These are exactly the keys of the pages that are reached. *)
Theorem C51_reached v21 table content l fuel : is_bytes content -> Forall is_u32 table ->
  index_keys fuel v21 table content = Done (Ok l) ->
  exists root, root_number v21 table content root /\
    forall k, In k l <-> exists n p, reaches table content root n /\ is_mapped_page table content n p /\ In k (wp_keys p).
Proof.
  intros Hb Hu H. destruct (proj1 (index_keys_iff v21 table content l Hb Hu) (ex_intro _ fuel H)) as (root & Hr & T).
  exists root. split; [exact Hr|]. apply (proj1 (tree_keys_in table content Hb Hu) _ _ T).
Qed.
Print Assumptions C51_reached.

(** No number of a page is 0 or 0xFFFFFFFF. *)
Theorem C51_ignored table content n p m : is_mapped_page table content n p -> In m (wp_subs p) -> is_page m.
Proof.
  intros (q & d & _ & _ & _ & _ & _ & _ & _ & body & _ & _ & _ & [(_ & -> & _)|(_ & stored & _ & drop & Hd & ->)]) I; [destruct I|].
  apply filter_In in I as [_ I]. specialize (Hd m). unfold is_page in *. destruct (drop m); [discriminate|].
  destruct (Z.eq_dec m 0), (Z.eq_dec m 0xffffffff); try tauto; exfalso; assert (false = true) by (apply Hd; tauto); discriminate.
Qed.
Print Assumptions C51_ignored.

(** Without a cycle the depth of the recursion is at most the number of mapped pages. *)
Theorem C51_ends v21 table content fuel : is_bytes content -> Forall is_u32 table ->
  (forall root n, root_number v21 table content root -> reaches table content root n -> ~ reaches1 table content n n) ->
  (length table <= fuel)%nat ->
  exists r, index_keys fuel v21 table content = Done r /\
    forall e, r = Err e -> In e [ParseError; ValueError; IndexError; OtherError; RuntimeError].
Proof.
  intros Hb Hu Ac Hf. pose proof (index_keys_ends v21 table content fuel Hb Hu Ac Hf) as H.
  destruct (index_keys fuel v21 table content) as [r|] eqn:E; [|contradiction]. exists r. split; [reflexivity|].
  intros e ->. exact (index_keys_err _ _ _ _ _ Hb E).
Qed.
Print Assumptions C51_ends.

(** A page that is reached from itself: the traversal never succeeds. *)
Theorem C51_cycle_refuted v21 table content root n : is_bytes content -> Forall is_u32 table ->
  root_number v21 table content root -> reaches table content root n -> reaches1 table content n n ->
  forall fuel l, index_keys fuel v21 table content <> Done (Ok l).
Proof.
  intros Hb Hu Hr R C fuel l H. destruct (proj1 (index_keys_iff v21 table content l Hb Hu) (ex_intro _ fuel H)) as (root' & Hr' & T).
  assert (root' = root) as ->.
  { unfold root_number in *. destruct v21; [|congruence]. destruct Hr as (p & M & _ & <-), Hr' as (p' & M' & _ & <-).
    rewrite (page_unique _ _ _ _ _ Hb Hu M M'). reflexivity. }
  apply (proj1 (tree_keys_acc table content Hb Hu)) in T. exact (acc_no_cycle _ _ _ (acc_reaches _ _ _ _ T R) C).
Qed.
Print Assumptions C51_cycle_refuted.

(** A page: a header, sub pages, the keys [a\b] and [a] and the values [a] and [b]. *)
Definition example_page (subs : list Z) : bytes :=
  pad 8192 (le_enc 4 0xaccc ++ le_enc 4 0 ++ le_enc 4 0 ++ le_enc 4 0 ++
    le_enc 4 2 ++ enc_ints (FU LE 4) [0; 0] ++ enc_ints (FU LE 4) subs ++ enc_ints (FU LE 2) [0; 3] ++
    le_enc 2 5 ++ enc_ints (FU LE 2) [2; 0; 1; 1; 0] ++ le_enc 2 2 ++ enc_ints (FU LE 2) [0; 2] ++ le_enc 2 4 ++ s2z "a" ++ [0] ++ s2z "b" ++ [0]).

Definition example_first : bytes := pad 8192 (le_enc 4 0xaddd ++ le_enc 4 0 ++ le_enc 4 0 ++ le_enc 4 2).

Example C51_case :
  index_keys 3 true [0; 1; 2] (example_first ++ example_page [0; 0xffffffff; 0] ++ example_page [1; 0; 7]) = Done (Err IndexError) /\
  index_keys 3 true [0; 1; 2; 3] (example_first ++ example_page [0; 0xffffffff; 0] ++ example_page [1; 0; 3]) =
    Done (Ok [s2z "\a\b"; s2z "\a"; s2z "\a\b"; s2z "\a"]) /\
  index_keys 3 false [0; 1; 2; 3] (example_first ++ example_page [0; 0xffffffff; 0] ++ example_page [1; 0; 3]) = Done (Ok [s2z "\a\b"; s2z "\a"]).
Proof. vm_compute. auto. Qed.

(** A page that refers to itself: no depth is enough. *)
Theorem C51_loop_refuted : forall fuel, index_keys fuel false [0; 1] (example_first ++ example_page [0; 1; 0]) = OutOfFuel.
Proof.
  set (c := example_first ++ example_page [0; 1; 0]).
  assert (M : mapped_index_page [0; 1] c 1 = Ok (Some (mkwpage 0xaccc 0 [1] [s2z "\a\b"; s2z "\a"]))) by (vm_compute; reflexivity).
  intros fuel. unfold index_keys, index_root. cbn [bind]. rewrite M. induction fuel as [|fuel IH]; [reflexivity|].
  rewrite page_keys_S. cbn [wp_subs subs_loop]. rewrite M, IH. reflexivity.
Qed.
Print Assumptions C51_loop_refuted.

(** *** C52: WMI object records are assembled exactly *)

(** A record that is spread over pages is read as it is stored. *)
Theorem C52_complete table content n id d q l dsc :
  mapped table n q -> descs_at content (q * 8192) l -> first_desc l id dsc -> wd_size dsc = len d ->
  spread table content n (wd_offset dsc) d -> object_record table content n id (len d) = Done (Ok d).
Proof. apply record_complete. Qed.
Print Assumptions C52_complete.

(** If the file consists of whole pages then every record that is read has the size asked for and is stored in the
    pages, unless the offset is 8193. *)
Theorem C52_sound table content n id size d : is_bytes content -> Forall is_u32 table -> len content mod 8192 = 0 ->
  0 <= n -> 0 < size -> object_record table content n id size = Done (Ok d) ->
  exists q l dsc, mapped table n q /\ descs_at content (q * 8192) l /\ first_desc l id dsc /\ wd_size dsc = size /\
    (wd_offset dsc = 8193 \/ spread table content n (wd_offset dsc) d /\ len d = size).
Proof. apply record_sound. Qed.
Print Assumptions C52_sound.

(** Reading a record always ends. *)
Theorem C52_ends table content n id size : is_bytes content -> Forall is_u32 table ->
  exists r, object_record table content n id size = Done r /\
    forall e, r = Err e -> In e [ParseError; ValueError; IndexError; AttributeError].
Proof. apply record_ends. Qed.
Print Assumptions C52_ends.

(** The last segment of a key names the type, the page, the identifier and the size of the record. *)
Theorem C52_key pyint lower table content path type hash n id size :
  (forall k, 0 <= k -> pyint (fmt_d k) = Some k) ->
  (forall c, In c [46; 92; 95] -> ~ In c type) -> (forall c, In c [46; 92] -> ~ In c hash) -> 0 <= n -> 0 <= id -> 0 <= size ->
  record_by_key pyint lower table content
    (path ++ s2z "\" ++ type ++ s2z "_" ++ hash ++ s2z "." ++ fmt_d n ++ s2z "." ++ fmt_d id ++ s2z "." ++ fmt_d size) =
  rdo d <- object_record table content n id size; Done (Ok (type, d)).
Proof.
  intros Hp Ht Hh Hn Hi Hs. unfold record_by_key. cbn [s2z String.list_ascii_of_string map app].
  change (Z.of_N (Ascii.N_of_ascii _)) with 92 at 1.
  match goal with |- context [split_on 92 ?k] => change k with (path ++ 92 :: (type ++ 95 :: hash ++ 46 :: fmt_d n ++ 46 :: fmt_d id ++ 46 :: fmt_d size)) end.
  rewrite split_last.
  - rewrite key_values; [reflexivity|exact Hp|apply Ht; cbn; auto|apply Ht; cbn; auto|apply Hh; cbn; auto|exact Hn|exact Hi|exact Hs].
  - assert (D : forall k, 0 <= k -> ~ In 92 (fmt_d k)) by (intros k Hk; apply digit_not; [exact Hk|cbn; auto]).
    intros I. repeat (rewrite in_app_iff in I; cbn [In] in I).
    destruct I as [I|[I|[I|[I|[I|[I|[I|I]]]]]]]; try discriminate; revert I; try (apply D; assumption).
    + apply Ht. cbn. auto.
    + apply Hh. cbn. auto.
    + destruct 1 as [I|I]; [discriminate|]. revert I. apply D. exact Hs.
Qed.
Print Assumptions C52_key.

(** Without such a descriptor, or with another size, the result is an AttributeError. *)
Theorem C52_missing_refuted table content n id size q l : mapped table n q -> descs_at content (q * 8192) l -> 0 < size ->
  (forall d, first_desc l id d -> wd_size d <> size) -> object_record table content n id size = Done (Err AttributeError).
Proof. apply record_missing. Qed.
Print Assumptions C52_missing_refuted.

Definition example_objects : bytes :=
  pad 8190 (desc_bytes (mkwdesc 5 40 3 0) ++ desc_bytes (mkwdesc 6 8190 5 0) ++ repeat 0 16) ++ s2z "ab" ++ pad 8192 (s2z "cde").

Example C52_case :
  object_record [7; 0; 1] example_objects 1 6 5 = Done (Ok (s2z "abcde")) /\
  object_record [7; 0; 1] example_objects 1 5 4 = Done (Err AttributeError) /\
  object_record [7; 0; 9] example_objects 1 6 5 = Done (Err ParseError) /\
  object_record [7; 0] example_objects 1 6 5 = Done (Err IndexError).
Proof. vm_compute. auto. Qed.

(** The last page is cut off: the record goes on in the next mapped page although bytes are missing. *)
Theorem C52_truncated_refuted :
  exists content, stored_at content 8192 (desc_bytes (mkwdesc 1 32 5 0) ++ repeat 0 16 ++ s2z "ab") /\ len content = 8226 /\
    object_record [1; 0] content 0 1 5 = Done (Ok (s2z "abxyz")).
Proof.
  exists (pad 8192 (s2z "xyz") ++ desc_bytes (mkwdesc 1 32 5 0) ++ repeat 0 16 ++ s2z "ab"). split; [|split].
  - exists (pad 8192 (s2z "xyz")), []. split; [rewrite app_nil_r; reflexivity|vm_compute; reflexivity].
  - vm_compute. reflexivity.
  - vm_compute. reflexivity.
Qed.
Print Assumptions C52_truncated_refuted.

(** With the offset 8193 the whole rest of the file is the record. *)
Theorem C52_offset_refuted :
  exists content d, descs_at content 0 [mkwdesc 1 8193 2 0] /\ len content = 24576 /\
    object_record [0] content 0 1 2 = Done (Ok d) /\ len d = 16383.
Proof.
  exists (pad 24576 (desc_bytes (mkwdesc 1 8193 2 0))), (repeat 0 (Z.to_nat 16383)). split; [|split; [|split]].
  - split; [repeat constructor; cbn; try lia; discriminate|].
    exists [], (repeat 0 (Z.to_nat (24576 - 32))). split; vm_compute; reflexivity.
  - vm_compute. reflexivity.
  - vm_compute. reflexivity.
  - vm_compute. reflexivity.
Qed.
Print Assumptions C52_offset_refuted.

(** *** C53: Opening a WMI repository always fails *)

(** Whatever the path, the files and the character tables are. *)
Theorem C53_open isalpha upper lower basename cont : repository_open isalpha upper lower basename cont = Err ValueError.
Proof. apply repository_fails. Qed.
Print Assumptions C53_open.

(** The same for every single file. *)
Theorem C53_file A isalpha upper lower name (rest : Z -> result A) : 3 <= len name -> open_file isalpha upper lower name rest = Err ValueError.
Proof. apply open_fails. Qed.
Print Assumptions C53_file.

(** A name of two characters that are not letters is the only kind that would not fail. *)
Example C53_case :
  open_file (fun c => (65 <=? c) && (c <=? 122)) (fun c => [c]) (fun c => [c]) (s2z "12") (fun c => Ok c) = Ok 49 /\
  open_file (fun c => (65 <=? c) && (c <=? 122)) (fun c => [c]) (fun c => [c]) (s2z "cim.rep") (fun c => Ok c) = Err ValueError.
Proof. vm_compute. auto. Qed.

(** *** C54: WMI glob patterns match case-insensitively *)

(** For an ASCII name without special characters. *)
Theorem C54_glob isalpha upper lower name s : ascii_case isalpha upper lower ->
  Forall (fun c => 0 <= c < 128 /\ ~ In c [42; 63; 91]) name ->
  (gmatch (glob_of isalpha upper lower name) s <-> Forall2 same_letter name s).
Proof. intros Hc F. apply glob_match; assumption. Qed.
Print Assumptions C54_glob.

Definition ascii_isalpha (c : Z) : bool := (65 <=? c) && (c <=? 90) || (97 <=? c) && (c <=? 122).
Definition ascii_up (c : Z) : str := if (97 <=? c) && (c <=? 122) then [c - 32] else [c].
Definition ascii_low (c : Z) : str := if (65 <=? c) && (c <=? 90) then [c + 32] else [c].

Example C54_case :
  ascii_case ascii_isalpha ascii_up ascii_low /\
  glob_of ascii_isalpha ascii_up ascii_low (s2z "Cim.rep") = s2z "[Cc][Ii][Mm].[Rr][Ee][Pp]" /\
  gmatch (glob_of ascii_isalpha ascii_up ascii_low (s2z "Cim.rep")) (s2z "cIM.REP") /\
  ~ gmatch (glob_of ascii_isalpha ascii_up ascii_low (s2z "Cim.rep")) (s2z "cIM_REP").
Proof.
  assert (H : ascii_case ascii_isalpha ascii_up ascii_low).
  { intros c Hc. unfold ascii_isalpha, ascii_up, ascii_low, ascii_alpha, ascii_upper, ascii_lower.
    destruct (Z.leb_spec 65 c), (Z.leb_spec c 90), (Z.leb_spec 97 c), (Z.leb_spec c 122); cbn; repeat split; intros; try lia; try reflexivity; try discriminate. }
  split; [exact H|]. split; [vm_compute; reflexivity|].
  assert (F : Forall (fun c => 0 <= c < 128 /\ ~ In c [42; 63; 91]) (s2z "Cim.rep")) by (repeat constructor; cbn; lia).
  split.
  - apply C54_glob; [exact H|exact F|]. unfold same_letter, ascii_upper. repeat constructor; cbn; lia.
  - intros G. apply C54_glob in G; [|exact H|exact F]. unfold same_letter, ascii_upper in G.
    change (s2z "Cim.rep") with [67; 105; 109; 46; 114; 101; 112] in G. change (s2z "cIM_REP") with [99; 73; 77; 95; 82; 69; 80] in G.
    do 3 (apply F2_cc in G as [_ G]). apply F2_cc in G as [G _]. lia.
Qed.

(** A special character in a name is one in the pattern, and a letter with a longer upper case form matches others. *)
Theorem C54_special_refuted isalpha upper lower : isalpha 42 = false -> isalpha 223 = true -> upper 223 = [83; 83] -> lower 223 = [223] ->
  gmatch (glob_of isalpha upper lower [42]) (s2z "other") /\ gmatch (glob_of isalpha upper lower [223]) (s2z "S").
Proof.
  intros H1 H2 H3 H4. unfold glob_of. cbn [flat_map]. rewrite H1, H2, H3, H4. split.
  - change (s2z "other") with (s2z "other" ++ []). constructor. constructor.
  - change (([91] ++ [83; 83] ++ [223] ++ [93]) ++ []) with (91 :: [83; 83; 223] ++ 93 :: []). constructor; try (cbn; lia); try discriminate. cbn. auto. constructor.
Qed.
Print Assumptions C54_special_refuted.

(** *** C55: WMI page number mapping *)

(** Reading a mapping file succeeds exactly for the files with the documented layout. *)
Theorem C55_file content m : is_bytes content -> (read_map content = Ok m <-> map_file m content).
Proof. intros Hb. split; [apply read_map_sound, Hb|apply read_map_complete, Hb]. Qed.
Print Assumptions C55_file.

Theorem C55_errors content e : is_bytes content -> read_map content = Err e -> e = ParseError.
Proof. apply read_map_err. Qed.
Print Assumptions C55_errors.

(** Every number in range is mapped to the stored page number, others fail. *)
Theorem C55_resolve table n q : 0 <= n ->
  (resolve table n = Ok q <-> mapped table n q) /\ (len table <= n -> resolve table n = Err IndexError).
Proof.
  intros Hn. split; [apply mapped_iff, Hn|]. intros H. destruct (resolve table n) as [x|e] eqn:E.
  - apply mapped_iff in E as [_ E]; [|exact Hn]. assert (Z.to_nat n < length table)%nat by (apply nth_error_Some; congruence). unfold len in H. lia.
  - unfold resolve, pyindex in E. destruct (_ <? 0); [congruence|]. destruct (znth_error _ _); congruence.
Qed.
Print Assumptions C55_resolve.

(** A page that is not available is reported in files of less than 32 TiB. *)
Theorem C55_unavailable table content n : mapped table n 0xffffffff -> len content <= 0xffffffff * 8192 ->
  mapped_index_page table content n = Ok None /\ objects_page table content n = Err ParseError.
Proof.
  intros M L. split.
  - apply mapped_page_none; [exact (proj1 M)|]. exists 0xffffffff. auto.
  - unfold objects_page. rewrite (proj2 (mapped_iff table n 0xffffffff (proj1 M)) M). cbn [bind]. destruct (Z.ltb_spec (0xffffffff * 8192) (len content)); [lia|reflexivity].
Qed.
Print Assumptions C55_unavailable.

Definition v1_section (pages : Z) (l u : list Z) : bytes :=
  le_enc 4 0xabcd ++ le_enc 4 9 ++ le_enc 4 pages ++ le_enc 4 (len l) ++ enc_ints (FU LE 4) l ++ le_enc 4 (len u) ++ enc_ints (FU LE 4) u ++ le_enc 4 0xdcba.

Definition v2_section (l : list Z) : bytes :=
  le_enc 4 0xabcd ++ le_enc 4 9 ++ le_enc 4 2 ++ le_enc 4 1 ++ le_enc 4 7 ++
  le_enc 4 (len l) ++ flat_map (fun n => le_enc 4 n ++ repeat 8 20) l ++ le_enc 4 0 ++ le_enc 4 0xdcba.

Example C55_case :
  read_map (v1_section 2 [4; 5] [1]) = Ok (mkmapfile 1 9 [4; 5] None) /\
  read_map (v1_section 2 [4; 5] [1] ++ v1_section 1 [6] [] ++ [1]) = Ok (mkmapfile 1 9 [4; 5] (Some [6])) /\
  read_map (v1_section 2 [4; 5] [1] ++ [0xcd; 0xab; 0; 0; 1; 2; 3]) = Ok (mkmapfile 1 9 [4; 5] None) /\
  read_map (v2_section [4; 5] ++ v2_section [3]) = Ok (mkmapfile 2 9 [4; 5] (Some [3])) /\
  read_map (v2_section [4; 5]) = Err ParseError.
Proof. vm_compute. auto. Qed.

(** A file of version 1 is taken for one of version 2 if the number of pages is the number of entries plus one. *)
Theorem C55_version_refuted :
  (forall sequence n x rest m, is_u32 sequence -> is_u32 (n + 1) -> is_u32 n -> is_u32 x ->
     let content := le_enc 4 0xabcd ++ le_enc 4 sequence ++ le_enc 4 (n + 1) ++ le_enc 4 n ++ le_enc 4 x ++ rest in
     is_bytes content -> read_map content = Ok m -> mf_version m = 2) /\
  map_head 1 9 (le_enc 4 0xabcd ++ le_enc 4 9 ++ le_enc 4 3) /\
  map_tables 1 [4; 5] (zskipn 12 (v1_section 3 [4; 5] [1])) /\
  read_map (v1_section 3 [4; 5] [1]) = Err ParseError.
Proof.
  split; [|split; [|split]].
  - intros sequence n x rest m Hs Hn1 Hn Hx content Hb H. apply read_map_sound in H; [|exact Hb].
    destruct H as (h & t & r & _ & _ & _ & [[V _]|[_ V]] & _); [exact V|]. exfalso. apply V. exists sequence, n, x, rest. auto.
  - split; [cbn; unfold is_u32; lia|]. exists (le_enc 4 3). split; reflexivity.
  - exists (le_enc 4 2 ++ enc_ints (FU LE 4) [4; 5]), (le_enc 4 1 ++ enc_ints (FU LE 4) [1]), [1]. split; [vm_compute; reflexivity|].
    split; (split; [vm_compute; split; [discriminate|reflexivity]|]).
    + exists (le_enc 4 4 ++ [] ++ le_enc 4 5 ++ [] ++ []). split; [reflexivity|]. repeat (constructor; [unfold is_u32; lia|reflexivity|]). constructor.
    + exists (le_enc 4 1 ++ [] ++ []). split; [reflexivity|]. repeat (constructor; [unfold is_u32; lia|reflexivity|]). constructor.
  - vm_compute. reflexivity.
Qed.
Print Assumptions C55_version_refuted.

(** The documentation has no unknown table in the second section of a combined file of version 1; the reader expects one. *)
Theorem C55_second_refuted :
  read_map (v1_section 2 [4; 5] [1] ++ le_enc 4 0xabcd ++ le_enc 4 9 ++ le_enc 4 1 ++ le_enc 4 1 ++ le_enc 4 6 ++ le_enc 4 0xdcba) = Err ParseError.
Proof. vm_compute. reflexivity. Qed.
Print Assumptions C55_second_refuted.

(** The second table of the file that was read before stays. *)
Theorem C55_again_refuted old content m : read_map content = Ok m -> mf_table2 m = None ->
  exists m', read_map_again (Some old) content = Ok m' /\ index_table m' = old /\ objects_table m' = mf_table1 m.
Proof.
  unfold read_map, read_map_again. destruct (map_version content) as [v|]; cbn [bind]; [|discriminate].
  destruct (read_map_header v content 0) as [[|[s|] r]|]; cbn [bind]; try discriminate.
  destruct (read_map_tables v content (map_header_size v)) as [[l pos]|]; cbn [bind]; [|discriminate].
  destruct ((v =? 2) || (pos <? len content)).
  - destruct (read_map_header v content pos) as [r2|e].
    + destruct (read_map_tables v content (pos + map_header_size v)) as [[l2 p2]|]; cbn [bind]; [|discriminate]. intros [= <-]. discriminate.
    + destruct e; try discriminate. destruct (v =? 2); [discriminate|]. intros [= <-] _. eexists. split; [reflexivity|]. split; reflexivity.
  - intros [= <-] _. eexists. split; [reflexivity|]. split; reflexivity.
Qed.
Print Assumptions C55_again_refuted.

(** Negative numbers, which a key can contain, count from the end of the table. *)
Theorem C55_negative_refuted table q : resolve (table ++ [q]) (-1) = Ok q.
Proof.
  unfold resolve, pyindex. change (-1 <? 0) with true. cbv iota. rewrite len_app. change (len [q]) with 1.
  pose proof (len_nonneg table). destruct (Z.ltb_spec (-1 + (len table + 1)) 0); [lia|]. rewrite znth_error_nth by lia.
  rewrite nth_error_app2 by (unfold len; lia). replace (Z.to_nat (-1 + (len table + 1)) - length table)%nat with 0%nat by (unfold len; lia). reflexivity.
Qed.
Print Assumptions C55_negative_refuted.

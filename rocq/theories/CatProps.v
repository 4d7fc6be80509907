(** Properties of the catalog of a tracev3 file. *)

From Verif Require Import Base BaseFacts CoreModel SeqSpec DictModel RdModel RdSpec RdFacts TvSpec CatModel CatSpec CatProofs.

(** *** C90: the catalog of a tracev3 file *)

(** A catalog is loaded if and only if it is stored at the offset, the UUID indexes of its process
    information exist and no two entries have the same proc_id. *)
Theorem C90_load utf8 content off c : is_bytes content -> 0 <= off ->
  (exists cs, load_catalog utf8 content off = Ok cs /\ cs_catalog cs = c) <->
  (exists ss d, catalog_bytes utf8 c ss d /\ stored_at content off d /\ processes_ok (ca_uuids c) (ca_processes c)).
Proof.
  intros Hb Ho. pose proof (load_sound utf8 content off Hb Ho) as L. split.
  - intros (cs & E & <-). rewrite E in L. destruct L as (ss & d & A & B & C & _). eauto 6.
  - intros (ss & d & A & B & C). destruct (reads_at _ _ content off (reads_catalog utf8) (solid_catalog utf8) Hb Ho) as [R1 _].
    assert (Rd : rd_catalog utf8 content off = Ok (c, off + len d)) by (apply R1; exists d; eauto).
    unfold load_catalog. rewrite Rd. cbn [bind].
    pose proof (build_follows (ca_uuids c) (ca_processes c) [] [] (holds_nil _) (processes_range _ _ _ _ A) ltac:(split; constructor)) as F. cbn [app] in F.
    destruct (build_processes _ _ _) as [t|e]; cbn [bind]; [eexists; split; reflexivity|]. apply bad_not_ok in F. contradiction.
Qed.
Print Assumptions C90_load.

(** A catalog that is written as documented is loaded. *)
Theorem C90_documented utf8 content off c ss d : is_bytes content -> 0 <= off -> catalog_documented utf8 c ss d -> stored_at content off d ->
  processes_ok (ca_uuids c) (ca_processes c) -> exists cs, load_catalog utf8 content off = Ok cs /\ cs_catalog cs = c.
Proof. intros Hb Ho D S O. apply C90_load; [exact Hb|exact Ho|]. exists ss, d. split; [apply documented_bytes; exact D|]. auto. Qed.
Print Assumptions C90_documented.

(** Why a catalog is not loaded: there is none at the offset, or the first process information entry
    that cannot be used has an index without UUID or the proc_id of an entry before it. *)
Theorem C90_errors utf8 content off e : is_bytes content -> 0 <= off ->
  load_catalog utf8 content off = Err e <->
  (e = ParseError /\ forall c ss d, catalog_bytes utf8 c ss d -> ~ stored_at content off d) \/
  (exists c ss d, catalog_bytes utf8 c ss d /\ stored_at content off d /\ processes_bad (ca_uuids c) (ca_processes c) e).
Proof.
  intros Hb Ho. pose proof (load_sound utf8 content off Hb Ho) as L. split.
  - intros E. rewrite E in L. exact L.
  - intros H. destruct (load_catalog utf8 content off) as [cs|e'] eqn:E.
    + exfalso. destruct L as (ss & d & A & B & C & _). destruct H as [[_ N]|(c' & ss' & d' & A' & B' & Bad)]; [exact (N _ _ _ A B)|].
      destruct (reads_at _ _ content off (reads_catalog utf8) (solid_catalog utf8) Hb Ho) as [R1 _].
      assert (R : rd_catalog utf8 content off = Ok (cs_catalog cs, off + len d)) by (apply R1; exists d; eauto).
      assert (R' : rd_catalog utf8 content off = Ok (c', off + len d')) by (apply R1; exists d'; eauto).
      replace c' with (cs_catalog cs) in Bad by congruence. exact (bad_not_ok _ _ _ Bad C).
    + f_equal. destruct L as [[-> N]|(c & ss & d & A & B & C)], H as [[-> N']|(c' & ss' & d' & A' & B' & Bad)].
      * reflexivity.
      * exfalso. exact (N _ _ _ A' B').
      * exfalso. exact (N' _ _ _ A B).
      * destruct (reads_at _ _ content off (reads_catalog utf8) (solid_catalog utf8) Hb Ho) as [R1 _].
        assert (R : rd_catalog utf8 content off = Ok (c, off + len d)) by (apply R1; exists d; eauto).
        assert (R' : rd_catalog utf8 content off = Ok (c', off + len d')) by (apply R1; exists d'; eauto).
        replace c' with c in Bad by congruence. exact (bad_fun _ _ _ _ C Bad).
Qed.
Print Assumptions C90_errors.

(** The process information of a proc_id is the entry with that proc_id and the UUIDs at its indexes;
    there is none for other numbers. *)
Theorem C90_process utf8 content off cs : is_bytes content -> 0 <= off -> load_catalog utf8 content off = Ok cs ->
  forall u w k, 0 <= u -> 0 <= w ->
    (find_process cs u w = Some k <->
     In (kn_process k) (ca_processes (cs_catalog cs)) /\ pr_upper (kn_process k) = u /\ pr_lower (kn_process k) = w /\
     uuid_of (ca_uuids (cs_catalog cs)) (pr_main (kn_process k)) (kn_main k) /\ uuid_of (ca_uuids (cs_catalog cs)) (pr_dsc (kn_process k)) (kn_dsc k)).
Proof.
  intros Hb Ho E u w k Hu Hw. pose proof (load_sound utf8 content off Hb Ho) as L. rewrite E in L. destruct L as (ss & d & _ & _ & _ & _ & H).
  unfold find_process. rewrite (H u w Hu Hw k). unfold id_of. split.
  - intros (I & X & M & D). split; [exact I|]. split; [congruence|]. split; [congruence|]. auto.
  - intros (I & <- & <- & M & D). auto.
Qed.
Print Assumptions C90_process.

(** The sub system and category of an identifier are the strings at the offsets of the last entry with
    the identifier, as long as every character of the strings of the catalog has one byte; there are none
    if there is no such entry, or no string begins at the offset. *)
Theorem C90_sub_system utf8 content off cs ss d : is_bytes content -> 0 <= off -> load_catalog utf8 content off = Ok cs ->
  catalog_bytes utf8 (cs_catalog cs) ss d -> stored_at content off d -> plain_strings (ca_strings (cs_catalog cs)) ss ->
  forall k id,
    (forall x, last_entry (pr_subs (kn_process k)) id x -> exists category system, sub_system cs (Some k) (Some id) = (category, system) /\
       string_or_none (ca_strings (cs_catalog cs)) ss (se_cat x) category /\ string_or_none (ca_strings (cs_catalog cs)) ss (se_sub x) system) /\
    (Forall (fun y => se_id y <> id) (pr_subs (kn_process k)) -> sub_system cs (Some k) (Some id) = (None, None)).
Proof.
  intros Hb Ho E B S P k id. pose proof (load_sound utf8 content off Hb Ho) as L. rewrite E in L. destruct L as (ss' & d' & _ & _ & _ & M & _).
  assert (G : forall o, string_or_none (ca_strings (cs_catalog cs)) ss o (zget o (cs_strings cs))).
  { intros o. rewrite M. pose proof (fun t => strings_get _ _ P 0 o t) as H. rewrite Z.add_0_l in H. destruct (zget o _) as [t|] eqn:Z; cbn [string_or_none].
    - apply H. reflexivity.
    - intros t X. apply H in X. discriminate. }
  unfold sub_system. destruct (fold_last (fun e => (zget (se_cat e) (cs_strings cs), zget (se_sub e) (cs_strings cs))) id (pr_subs (kn_process k)) (None, None)) as [F1 F2]. split.
  - intros x X. rewrite (F1 x X). eexists _, _. split; [reflexivity|]. split; apply G.
  - exact F2.
Qed.
Print Assumptions C90_sub_system.

(** The image of a process is the uuidtext file of its main UUID, if there is one; a process that is not
    in the catalog has none. *)
Theorem C90_image utf8 content off cs file u w : is_bytes content -> 0 <= off -> load_catalog utf8 content off = Ok cs -> 0 <= u -> 0 <= w ->
  (forall p x, In p (ca_processes (cs_catalog cs)) -> pr_upper p = u -> pr_lower p = w -> uuid_of (ca_uuids (cs_catalog cs)) (pr_main p) (Some x) ->
     (forall path, file x = Some path -> process_image file (find_process cs u w) = Ok (Some x, Some path)) /\
     (file x = None -> process_image file (find_process cs u w) = Ok (None, None))) /\
  ((forall p, In p (ca_processes (cs_catalog cs)) -> pr_upper p <> u \/ pr_lower p <> w) -> process_image file (find_process cs u w) = Ok (None, None)).
Proof.
  intros Hb Ho E Hu Hw. pose proof (C90_process utf8 content off cs Hb Ho E) as F. pose proof (load_sound utf8 content off Hb Ho) as L. rewrite E in L.
  destruct L as (ss & d & _ & _ & [O _] & _). split.
  - intros p x I Pu Pw X. rewrite Forall_forall in O. destruct (O p I) as [_ O2]. destruct (uuid_of_ex _ _ O2) as [dsc D].
    rewrite (proj2 (F u w (mkkn p (Some x) dsc) Hu Hw)) by auto. cbn [process_image kn_main]. split; [intros path ->; reflexivity|intros ->; reflexivity].
  - intros N. destruct (find_process cs u w) as [k|] eqn:G; [|reflexivity]. apply F in G; [|exact Hu|exact Hw]. destruct G as (I & A & B & _). destruct (N _ I); contradiction.
Qed.
Print Assumptions C90_image.

(** A catalog with two UUIDs, three strings and a process without entries. *)
Definition test_catalog (main : Z) (first : bytes) : bytes :=
  le_enc 2 32 ++ le_enc 2 (32 + len first + 9) ++ le_enc 2 1 ++ le_enc 2 0 ++ le_enc 2 0 ++ repeat 0 6 ++ le_enc 8 5 ++
  repeat 1 16 ++ repeat 2 16 ++ (first ++ [0]) ++ [97; 98; 99; 0] ++ [120; 121; 122; 0] ++
  le_enc 2 0 ++ le_enc 2 0 ++ le_enc 2 (main mod 2 ^ 16) ++ le_enc 2 65535 ++ le_enc 8 7 ++ le_enc 4 9 ++ le_enc 4 500 ++ le_enc 4 501 ++ le_enc 4 0 ++
  le_enc 4 0 ++ le_enc 4 0 ++ le_enc 4 1 ++ le_enc 4 0 ++ (le_enc 2 3 ++ le_enc 2 (len first + 1) ++ le_enc 2 (len first + 5)) ++ [0; 0].

(** The offsets of the strings are counted in characters: behind a string with other characters than
    ASCII no sub system is found. *)
Theorem C90_characters_refuted : forall utf8 : bytes -> option str,
  utf8 [195; 169] = Some [233] -> utf8 [97; 98; 99] = Some [97; 98; 99] -> utf8 [120; 121; 122] = Some [120; 121; 122] ->
  exists cs k, load_catalog utf8 (test_catalog 0 [195; 169]) 0 = Ok cs /\ find_process cs 7 9 = Some k /\
    string_at (ca_strings (cs_catalog cs)) [[195; 169; 0]; [97; 98; 99; 0]; [120; 121; 122; 0]] 3 [97; 98; 99] /\
    se_sub (hd (mkse 0 0 0) (pr_subs (kn_process k))) = 3 /\ sub_system cs (Some k) (Some 3) = (None, None).
Proof.
  intros utf8 U1 U2 U3.
  assert (R : rd_catalog utf8 (test_catalog 0 [195; 169]) 0 =
    Ok (mkcat 5 [repeat 1 16; repeat 2 16] [[233]; [97; 98; 99]; [120; 121; 122]] [mkpr 0 (-1) 7 9 500 501 [] [mkse 3 3 7]], 123)).
  { assert (Hb : is_bytes (test_catalog 0 [195; 169])) by (apply is_bytes_forallb; vm_compute; reflexivity).
    destruct (reads_at _ _ (test_catalog 0 [195; 169]) 0 (reads_catalog utf8) (solid_catalog utf8) Hb ltac:(lia)) as [R1 _]. apply R1.
    exists (test_catalog 0 [195; 169]). split; [|split; [exists [], []; split; [now rewrite app_nil_r|reflexivity]|vm_compute; reflexivity]].
    exists [[195; 169; 0]; [97; 98; 99; 0]; [120; 121; 122; 0]], 32, 43, 0. eexists _, [_], []. cbn [ca_processes ca_uuids ca_strings ca_earliest].
    split; [|split; [|split; [reflexivity|split; [lia|split; [|split; [|split; [|split; [constructor|]]]]]]]].
    - unfold catalog_head, n16, n64. repeat (split; [vm_compute; split; congruence|]). exists (repeat 0 6). split; reflexivity.
    - repeat constructor.
    - constructor; [exists [195; 169]; split; [cbn; lia|auto]|]. constructor; [exists [97; 98; 99]; split; [cbn; lia|auto]|]. constructor; [exists [120; 121; 122]; split; [cbn; lia|auto]|]. constructor.
    - split; [vm_compute; congruence|]. intros init last E. destruct init as [|a [|b [|c [|x init]]]]; cbn [app] in E; try discriminate; injection E as; subst; reflexivity.
    - constructor; [|constructor]. eexists _, [0; 0]. split; [|split; [reflexivity|]].
      + cbn [pr_upper pr_lower pr_pid pr_euid pr_uuids pr_subs pr_main pr_dsc]. unfold n64, n32. repeat (split; [vm_compute; split; congruence|]).
        exists 0, 0, 0, 0, 0, (le_enc 2 0), (le_enc 2 65535), [], [le_enc 2 3 ++ le_enc 2 3 ++ le_enc 2 7].
        unfold n16, n32. repeat (split; [vm_compute; split; congruence|]). split; [split; [lia|reflexivity]|]. split; [split; [lia|reflexivity]|]. split; [constructor|].
        split; [|reflexivity]. constructor; [|constructor]. unfold sub_entry_bytes, n16. cbn [se_id se_sub se_cat]. split; [lia|]. split; [lia|]. split; [lia|]. reflexivity.
      + split; [vm_compute; split; congruence|]. exists 7. vm_compute. reflexivity.
    - vm_compute. reflexivity. }
  unfold load_catalog. rewrite R. cbn [bind ca_uuids ca_processes ca_strings]. eexists _, _. split; [vm_compute; reflexivity|]. split; [vm_compute; reflexivity|].
  split; [|split; vm_compute; reflexivity]. exists [[195; 169; 0]], [97; 98; 99; 0], [[120; 121; 122; 0]], [[233]], [[120; 121; 122]]. repeat split; reflexivity.
Qed.
Print Assumptions C90_characters_refuted.

(** An index without UUID is an IndexError instead of a ParseError; a process without main UUID is
    accepted, asking for its image then is an AttributeError. *)
Theorem C90_index_refuted : load_catalog Some (test_catalog 2 [104; 105]) 0 = Err IndexError /\
  exists cs k, load_catalog Some (test_catalog (-1) [104; 105]) 0 = Ok cs /\ find_process cs 7 9 = Some k /\ process_image (fun _ => Some []) (Some k) = Err AttributeError.
Proof. split; [vm_compute; reflexivity|]. eexists _, _. split; [vm_compute; reflexivity|]. split; vm_compute; reflexivity. Qed.
Print Assumptions C90_index_refuted.

Example C90_case : exists cs k, load_catalog Some (repeat 9 5 ++ test_catalog 1 [104; 105] ++ [8]) 5 = Ok cs /\ find_process cs 7 9 = Some k /\ find_process cs 9 7 = None /\
  k = mkkn (mkpr 1 (-1) 7 9 500 501 [] [mkse 3 3 7]) (Some (repeat 2 16)) None /\
  sub_system cs (Some k) (Some 3) = (Some [120; 121; 122], Some [97; 98; 99]) /\ sub_system cs (Some k) (Some 4) = (None, None) /\
  process_image (fun u => Some (firstn 1 u)) (Some k) = Ok (Some (repeat 2 16), Some [2]).
Proof. eexists _, _. split; [vm_compute; reflexivity|]. split; [vm_compute; reflexivity|]. vm_compute. repeat split. Qed.

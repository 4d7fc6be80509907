(** Properties of the Jump List readers. *)

From Verif Require Import Base BaseFacts CoreModel CoreProofs StrModel TextModel SeqModel SeqSpec SeqFacts DictModel Utf16Spec RdModel JlModel JlSpec JlProofs.
From Coq Require String.
Import String.StringSyntax.

(** *** C88: Windows Jump List files *)

(** A DestList stream is read exactly if it has the documented layout; all entries are read. *)
Theorem C88_dest_list : forall content fuel h l, is_bytes content -> len content < Z.of_nat fuel ->
  (read_dest_list fuel (Some content) = Done (Ok (Some (h, l))) <-> dest_list h l content).
Proof. intros content fuel h l. apply dest_list_iff. Qed.
Print Assumptions C88_dest_list.

(** The read of the DestList stream ends, all errors are ParseError. *)
Theorem C88_dest_list_ends : forall fuel stream, (forall content, stream = Some content -> is_bytes content /\ len content < Z.of_nat fuel) ->
  exists x, read_dest_list fuel stream = Done x /\ (forall y, x = Err y -> y = ParseError).
Proof. apply dest_list_ends. Qed.
Print Assumptions C88_dest_list_ends.

(** An empty DestList stream is accepted, a missing one is not. *)
Theorem C88_dest_list_empty : forall fuel, read_dest_list fuel (Some []) = Done (Ok None) /\ read_dest_list fuel None = Done (Err ParseError).
Proof. intros fuel. split; reflexivity. Qed.
Print Assumptions C88_dest_list_empty.

Definition dest_case_header (version count : Z) : bytes := le_enc 4 version ++ le_enc 4 count ++ le_enc 4 1 ++ le_enc 4 0 ++ le_enc 4 7 ++ le_enc 4 0 ++ le_enc 4 9 ++ le_enc 4 0.
Definition dest_case_head : bytes :=
  le_enc 8 5 ++ repeat 1 16 ++ repeat 2 16 ++ repeat 3 16 ++ repeat 4 16 ++ s2z "host"%string ++ repeat 0 12 ++ le_enc 4 7 ++ le_enc 4 0 ++ le_enc 4 0 ++ le_enc 8 130000000000000000 ++ repeat 255 4.
Definition dest_case_path : bytes := [3; 0; 67; 0; 58; 0; 92; 0].
Definition dest_case (more : option (Z * Z * Z * Z)) : dest_entry :=
  mkdest 5 (repeat 1 16) (repeat 2 16) (repeat 3 16) (repeat 4 16) (s2z "host"%string ++ repeat 0 12) 7 0 0 130000000000000000 (-1) more (s2z "C:\"%string).

(** The documentation allows for unpaired surrogates in the path, such a stream is refused. *)
Theorem C88_surrogates_refuted :
  exists content, content = dest_case_header 1 1 ++ dest_case_head ++ le_enc 2 1 ++ le_enc 2 0xd800 /\
    read_dest_list 300 (Some content) = Done (Err ParseError).
Proof. eexists. split; [reflexivity|vm_compute; reflexivity]. Qed.
Print Assumptions C88_surrogates_refuted.

(** The number of entries in the header of the stream is not compared with the entries. *)
Theorem C88_dest_count_refuted : forall count, n32 count -> read_dest_list 300 (Some (dest_case_header 1 count ++ dest_case_head ++ dest_case_path)) =
  Done (Ok (Some ([1; count; 1; 0; 7; 0; 9; 0], [dest_case None]))).
Proof.
  intros count Hc. assert (n32 1 /\ n32 0 /\ n32 7 /\ n32 9) as (A & B & C & D) by (unfold n32; lia).
  assert (Bx : is_bytes (dest_case_head ++ dest_case_path)) by (apply is_bytes_forallb; vm_compute; reflexivity).
  apply dest_list_iff.
  - unfold dest_case_header. rewrite <- !app_assoc. do 8 (apply Forall_app; split; [apply le_enc_bytes|]). exact Bx.
  - rewrite !len_app. unfold dest_case_header. rewrite !len_app, !len_le_enc. change (len dest_case_head) with 112. change (len dest_case_path) with 8. cbn; lia.
  - exists 1, count, 1, 0, 7, 0, 9, 0, [dest_case_head ++ dest_case_path]. split; [reflexivity|]. split; [repeat (apply Forall_cons; [assumption|]); constructor|]. split; [cbn; auto|].
    split; [|unfold dest_case_header; cbn [concat]; rewrite app_nil_r, <- !app_assoc; reflexivity]. constructor; [|constructor].
    exists dest_case_head, dest_case_path. split; [|split; [|left; auto]].
    + unfold dest_head, dest_case. cbn [de_unknown1 de_volume de_file de_birth_volume de_birth_file de_hostname de_number de_unknown2 de_unknown3 de_time de_pin].
      repeat match goal with |- n64 _ /\ _ => split; [unfold n64; lia|] | |- n32 _ /\ _ => split; [assumption|] | |- len _ = _ /\ _ => split; [reflexivity|] end.
      split; [apply Forall_forall; intros c Hi; cbn in Hi; repeat destruct Hi as [<-|Hi]; try lia; contradiction|].
      repeat match goal with |- n64 _ /\ _ => split; [unfold n64; lia|] | |- n32 _ /\ _ => split; [assumption|] end.
      exists (repeat 255 4). split; [split; [lia|reflexivity]|reflexivity].
    + exists 3, [67; 0; 58; 0; 92; 0]. split; [unfold n16; lia|]. split; [reflexivity|]. split; [|reflexivity].
      apply (u_one 67 [58; 92] [58; 0; 92; 0]); [lia|]. apply (u_one 58 [92] [92; 0]); [lia|]. apply (u_one 92 [] []); [lia|]. constructor.
Qed.
Print Assumptions C88_dest_count_refuted.

(** All streams other than DestList are given as entries under their names, in their order; the first
    one that is no LNK file ends the entries with ParseError. *)
Theorem C88_streams : forall lnk items l x, auto_entries lnk items = (l, x) ->
  (exists n, l = map (fun i => mkjl (fst i) (snd i)) (firstn n (filter (fun i => negb (list_eqb (fst i) (s2z "DestList"%string))) items))) /\
  Forall (fun e => lnk (jl_data e) <> None) l /\
  (x = None -> l = map (fun i => mkjl (fst i) (snd i)) (filter (fun i => negb (list_eqb (fst i) (s2z "DestList"%string))) items)) /\ (x = None \/ x = Some ParseError).
Proof. apply auto_iff. Qed.
Print Assumptions C88_streams.

(** A custom destinations file with the given numbers of entries gives all its LNK files, behind the
    entries the object has. *)
Theorem C88_custom : forall lnk es content cs l, is_bytes content -> (forall d n, lnk d = Some n -> 0 <= n) -> custom_file eq lnk content cs l ->
  exists es', read_custom lnk es content = (es ++ es', Ok cs) /\ map jl_data es' = l.
Proof.
  intros lnk es content cs l Hb Hl (u & rest & Hn & Hu & E & C). exists (map custom_entry l). split; [|apply custom_data]. apply custom_complete; [assumption..|].
  exists u, rest. repeat (split; [assumption|]). eapply categories_weaken; [|exact C]. unfold at_most. intros k n ->. lia.
Qed.
Print Assumptions C88_custom.

(** Conversely, a file is accepted exactly if every category has at most the given number of entries and
    ends with its signature, and the entries are its LNK files. *)
Theorem C88_custom_iff : forall lnk content cs l, is_bytes content -> (forall d n, lnk d = Some n -> 0 <= n) ->
  ((exists es, read_custom lnk [] content = (es, Ok cs) /\ map jl_data es = l) <-> custom_file Z.le lnk content cs l).
Proof.
  intros lnk content cs l Hb Hl. split.
  - intros (es & E & <-). destruct (custom_sound lnk [] content es _ Hb Hl E) as (l & -> & _ & _ & C). exact (C cs eq_refl).
  - intros H. exists (map custom_entry l). split; [|apply custom_data]. apply (custom_complete lnk [] content cs l Hb Hl H).
Qed.
Print Assumptions C88_custom_iff.

(** All errors are ParseError; the entries the object has stay in front. *)
Theorem C88_custom_errors : forall lnk es content es' r, is_bytes content -> (forall d n, lnk d = Some n -> 0 <= n) -> read_custom lnk es content = (es', r) ->
  (exists l, es' = es ++ l) /\ (forall x, r = Err x -> x = ParseError).
Proof. intros lnk es content es' r Hb Hl E. destruct (custom_sound lnk es content es' r Hb Hl E) as (l & -> & _ & A & _). eauto. Qed.
Print Assumptions C88_custom_errors.

(** The identifier of an entry should be its offset: all entries have the same one. *)
Theorem C88_identifier_refuted : forall lnk content es r e, is_bytes content -> (forall d n, lnk d = Some n -> 0 <= n) -> read_custom lnk [] content = (es, r) -> In e es ->
  jl_identifier e = s2z "0x00000000"%string.
Proof.
  intros lnk content es r e Hb Hl E I. destruct (custom_sound lnk [] content es r Hb Hl E) as (l & -> & F & _). cbn [app] in I. rewrite Forall_forall in F. exact (F e I).
Qed.
Print Assumptions C88_identifier_refuted.

(** A LNK file of the case: a byte with its size and that number of bytes. *)
Definition lnk_case (d : bytes) : option Z := match d with n :: _ => if (0 <=? n) && (n <? len d) then Some (1 + n) else None | [] => None end.
Definition custom_case_header (n : Z) : bytes := le_enc 4 2 ++ le_enc 4 n ++ le_enc 4 0.
Definition custom_case_category (n : Z) : bytes := le_enc 4 0 ++ [2; 0; 72; 0; 105; 0] ++ le_enc 4 n.
Definition custom_case_entry (d : bytes) : bytes := lnk_class ++ [len d] ++ d.

(** A second file is added to the entries of the first one. *)
Theorem C88_again_refuted :
  let file := custom_case_header 1 ++ custom_case_category 1 ++ custom_case_entry [9] ++ signature in
  let (es, r) := read_custom lnk_case [] file in r = Ok [mkcat 0 (Some (s2z "Hi"%string)) (Some 1) None] /\ len es = 1 /\ len (fst (read_custom lnk_case es file)) = 2.
Proof. vm_compute. auto. Qed.
Print Assumptions C88_again_refuted.

(** A category with fewer entries than its number of entries is accepted. *)
Theorem C88_count_refuted :
  exists es, read_custom lnk_case [] (custom_case_header 1 ++ custom_case_category 3 ++ custom_case_entry [9] ++ signature) = (es, Ok [mkcat 0 (Some (s2z "Hi"%string)) (Some 3) None]) /\ len es = 1.
Proof. eexists. split; vm_compute; reflexivity. Qed.
Print Assumptions C88_count_refuted.

(** The sizes and types as they are shown. *)
Theorem C88_texts :
  (forall n, path_size_text n = fmt_d n ++ s2z " characters ("%string ++ fmt_d (2 * n) ++ s2z " bytes)"%string) /\ category_type_text 0 = s2z "0 (Custom category)"%string /\ category_type_text 1 = s2z "1 (Known category)"%string /\
  category_type_text 2 = s2z "2 (User tasks)"%string /\ (forall n, n < 0 \/ 2 < n -> category_type_text n = fmt_d n ++ s2z " (UNKNOWN)"%string).
Proof.
  split; [intros n; unfold path_size_text; rewrite (Z.mul_comm n 2); reflexivity|]. repeat (split; [vm_compute; reflexivity|]). intros n H. unfold category_type_text.
  destruct (Z.eqb_spec n 0); [lia|]. destruct (Z.eqb_spec n 1); [lia|]. destruct (Z.eqb_spec n 2); [lia|]. reflexivity.
Qed.
Print Assumptions C88_texts.

Example C88_case :
  read_dest_list 300 (Some (dest_case_header 3 1 ++ dest_case_head ++ repeat 255 4 ++ le_enc 4 6 ++ le_enc 8 0 ++ dest_case_path ++ le_enc 4 8)) =
    Done (Ok (Some ([3; 1; 1; 0; 7; 0; 9; 0], [dest_case (Some (-1, 6, 0, 8))]))) /\
  (let file := custom_case_header 3 ++ custom_case_category 2 ++ custom_case_entry [9; 8] ++ custom_case_entry [7] ++ signature ++ le_enc 4 1 ++ le_enc 4 2 ++ signature ++
     le_enc 4 2 ++ le_enc 4 1 ++ custom_case_entry [] ++ signature in
   exists es, read_custom lnk_case [] file = (es, Ok [mkcat 0 (Some (s2z "Hi"%string)) (Some 2) None; mkcat 1 None None (Some 2); mkcat 2 None (Some 1) None]) /\
     map (fun e => len file - len (jl_data e)) es = [42; 61; 103]) /\
  auto_entries lnk_case [(s2z "1"%string, [0]); (s2z "DestList"%string, [7]); (s2z "a"%string, [1; 5])] = ([mkjl (s2z "1"%string) [0]; mkjl (s2z "a"%string) [1; 5]], None).
Proof. split; [vm_compute; reflexivity|]. split; [eexists; split; vm_compute; reflexivity|vm_compute; reflexivity]. Qed.

(** Properties of the USN change journal reader. *)

From Verif Require Import Base BaseFacts CoreModel CoreProofs VarModel VarFacts UsnModel UsnSpec UsnProofs.

(** *** C58: USN change journals *)

Lemma usn_block_S k utf16 content s : usn_block (S k) utf16 content s =
  if ust_block s <=? 60 then ([], Some (Ok s))
  else if list_eqb (zfirstn 60 (zskipn (ust_pos s) content)) (repeat 0 60)
       then ([], Some (Ok (mkust (ust_pos s + len (zfirstn 60 (zskipn (ust_pos s) content))) (ust_offset s) (ust_block s))))
       else if ust_pos s + len (zfirstn 60 (zskipn (ust_pos s) content)) - 60 <? 0 then ([], Some (Err OSError))
       else match usn_read_record utf16 content (ust_pos s + len (zfirstn 60 (zskipn (ust_pos s) content)) - 60) with
            | Err e => ([], Some (Err e))
            | Ok (r, n) =>
                let (rs, end_) := usn_block k utf16 content (mkust (ust_pos s + len (zfirstn 60 (zskipn (ust_pos s) content)) - 60 + n) (ust_offset s + n) (ust_block s - n)) in
                (r :: rs, end_)
            end.
Proof. reflexivity. Qed.

Lemma usn_blocks_run utf16 single rs d : usn_journal utf16 single rs d -> forall fuel pre,
  (single = true -> pre = []) -> (single = false -> 4096 <= len pre) -> len d <= 4096 * (Z.of_nat fuel - 1) ->
  usn_blocks fuel 69 utf16 (pre ++ d) (len pre) (len pre) = (rs, Some (Ok tt)).
Proof.
  induction 1 as [single rs d n Hs Hn|single rs d rs' d' Hs Hd Hj IH]; intros fuel pre Ht Hp Hf.
  - pose proof (usn_stored_count _ _ _ Hs) as Hc. rewrite len_app, len_repeat in Hf. pose proof (len_nonneg d). pose proof (len_nonneg rs). pose proof (len_nonneg pre).
    destruct fuel as [|fuel]; [lia|]. cbn [usn_blocks]. rewrite !len_app, len_repeat.
    destruct (Z.leb_spec (len pre + (len d + Z.of_nat n)) (len pre)) as [L|L].
    + rewrite (len_zero rs) by lia. reflexivity.
    + assert (Eb : Z.min 4096 (len pre + (len d + Z.of_nat n)) = len d + Z.of_nat n).
      { destruct single; [rewrite Ht by reflexivity; change (len (@nil Z)) with 0|specialize (Hp eq_refl)]; destruct Hn as [Hn|[E Hn]]; try discriminate; lia. }
      rewrite Eb. rewrite (usn_block_run utf16 rs d Hs).
      * cbn [ust_pos ust_offset ust_block]. destruct fuel as [|fuel]; [lia|]. cbn [usn_blocks]. rewrite !len_app, len_repeat.
        destruct (Z.leb_spec (len pre + (len d + Z.of_nat n)) (len pre + len d + (len d + Z.of_nat n - len d))); [|lia].
        rewrite app_nil_r. reflexivity.
      * unfold len in *. lia.
      * lia.
      * destruct (Z.le_gt_cases (Z.of_nat n) 60); [left; lia|right].
        rewrite zfirstn_firstn. replace n with (60 + (n - 60))%nat by lia. rewrite repeat_app.
        rewrite firstn_app. rewrite repeat_length. change (Z.to_nat 60 - 60)%nat with 0%nat. rewrite firstn_O, app_nil_r. reflexivity.
  - pose proof (usn_stored_count _ _ _ Hs) as Hc. pose proof (len_nonneg d'). pose proof (len_nonneg pre). rewrite len_app in Hf.
    destruct fuel as [|fuel]; [lia|]. cbn [usn_blocks]. rewrite !len_app.
    destruct (Z.leb_spec (len pre + (len d + len d')) (len pre)); [lia|].
    replace (Z.min 4096 (len pre + (len d + len d'))) with (len d) by lia.
    rewrite (usn_block_run utf16 rs d Hs); [|unfold len in *; lia|lia|left; lia].
    rewrite Z.sub_diag. cbn [Z.leb Z.compare ust_pos ust_offset ust_block]. rewrite !Z.add_0_r.
    replace (len pre + len d) with (len (pre ++ d)) by apply len_app. rewrite app_assoc.
    rewrite IH; [reflexivity|discriminate|rewrite len_app; lia|lia].
Qed.

(** If no block has unused space, apart from the last one, exactly the records are yielded. *)
Theorem C58_journal : forall utf16 rs content fuel, usn_journal utf16 true rs content -> len content <= 4096 * (Z.of_nat fuel - 1) ->
  usn_records fuel 69 utf16 content = (rs, Some (Ok tt)).
Proof.
  intros utf16 rs content fuel H Hf. unfold usn_records. change content with ([] ++ content). change 0 with (len (@nil Z)).
  apply (usn_blocks_run utf16 true); [exact H|reflexivity|discriminate|exact Hf].
Qed.
Print Assumptions C58_journal.

(** Reading always ends, with a ParseError or without; the bounds are the numbers of rounds of
    the loops. *)
Theorem C58_ends : forall utf16 content fuel, is_bytes content -> len content <= 4096 * (Z.of_nat fuel - 1) ->
  exists rs r, usn_records fuel 69 utf16 content = (rs, Some r) /\ (r = Ok tt \/ r = Err ParseError).
Proof.
  intros utf16 content fuel Hb Hf. unfold usn_records.
  assert (Hi : forall fuel s rs e, 60 < len content \/ ust_block s <= 60 -> 0 <= ust_pos s -> usn_block fuel utf16 content s = (rs, Some (Err e)) -> e = ParseError).
  { clear Hf. induction fuel0 as [|k IH]; intros s rs e Hl Hp; cbn [usn_block]; [congruence|].
    destruct (Z.leb_spec (ust_block s) 60); [congruence|]. destruct (list_eqb _ _); [congruence|].
    assert (P : 60 <= ust_pos s + len (zfirstn 60 (zskipn (ust_pos s) content))) by (rewrite len_zfirstn, len_zskipn; lia).
    destruct (Z.ltb_spec (ust_pos s + len (zfirstn 60 (zskipn (ust_pos s) content)) - 60) 0); [lia|].
    destruct (usn_read_record _ _ _) as [[r n]|x] eqn:E.
    - apply usn_record_size in E. match goal with |- context [usn_block k utf16 content ?s'] => destruct (usn_block k utf16 content s') as [rs' en] eqn:E2 end.
      intros X. assert (en = Some (Err e)) by congruence. subst en. eapply IH; [| |exact E2]; cbn [ust_pos ust_block]; lia.
    - apply usn_record_errors in E; [|exact Hb|lia]. congruence. }
  assert (Hk : forall fuel s rs s', 0 <= ust_pos s -> 60 < len content \/ ust_block s <= 60 -> usn_block fuel utf16 content s = (rs, Some (Ok s')) -> 0 <= ust_pos s').
  { clear Hf. induction fuel0 as [|k IH]; intros s rs s' Hp Hl; cbn [usn_block]; [congruence|].
    destruct (Z.leb_spec (ust_block s) 60); [intros X; assert (s' = s) by congruence; subst; exact Hp|].
    destruct (list_eqb _ _).
    - intros X. assert (E : s' = mkust (ust_pos s + len (zfirstn 60 (zskipn (ust_pos s) content))) (ust_offset s) (ust_block s)) by congruence. rewrite E. cbn [ust_pos].
      pose proof (len_nonneg (zfirstn 60 (zskipn (ust_pos s) content))). lia.
    - assert (P : 60 <= ust_pos s + len (zfirstn 60 (zskipn (ust_pos s) content))) by (rewrite len_zfirstn, len_zskipn; lia).
      destruct (Z.ltb_spec (ust_pos s + len (zfirstn 60 (zskipn (ust_pos s) content)) - 60) 0); [lia|].
      destruct (usn_read_record _ _ _) as [[r n]|x] eqn:E; [|congruence]. apply usn_record_size in E.
      match goal with |- context [usn_block k utf16 content ?s'] => destruct (usn_block k utf16 content s') as [rs' en] eqn:E2 end.
      intros X. assert (en = Some (Ok s')) by congruence. subst en. eapply IH; [| |exact E2]; cbn [ust_pos ust_block]; lia. }
  assert (G : forall fuel pos off, 0 <= pos -> 0 <= off -> (1 <= fuel)%nat -> len content - off <= 4096 * (Z.of_nat fuel - 1) ->
    exists rs r, usn_blocks fuel 69 utf16 content pos off = (rs, Some r) /\ (r = Ok tt \/ r = Err ParseError)).
  { clear fuel Hf. induction fuel as [|k IH]; intros pos off Hp Ho Hk1 Hf; [lia|]. cbn [usn_blocks]. pose proof (len_nonneg content).
    destruct (Z.leb_spec (len content) off); [eauto 6|].
    destruct (usn_block_ends utf16 content 69 (mkust pos off (Z.min 4096 (len content)))) as (rs & r & E & P); [cbn [ust_block]; lia|lia|].
    assert (Q : 60 < len content \/ Z.min 4096 (len content) <= 60) by lia.
    rewrite E. destruct r as [s|e].
    - cbn [ust_offset ust_block] in P. destruct (IH (ust_pos s) (ust_offset s + ust_block s)) as (rs' & r' & E' & P').
      + eapply Hk; [| |exact E]; cbn [ust_pos ust_block]; assumption.
      + lia.
      + lia.
      + lia.
      + rewrite E'. do 2 eexists. split; [reflexivity|exact P'].
    - do 2 eexists. split; [reflexivity|]. right. f_equal. eapply Hi; [| |exact E]; cbn [ust_block ust_pos]; assumption. }
  pose proof (len_nonneg content). apply G; lia.
Qed.
Print Assumptions C58_ends.

(** If the unused space at the end of the first block is at least two empty headers, the second
    block is not read: all its records are missing. *)
Theorem C58_unused_space_refuted : forall utf16 rs d n block fuel, usn_stored utf16 rs d -> len d + Z.of_nat n = 4096 -> (120 <= n)%nat ->
  len block = 4096 -> (3 <= fuel)%nat ->
  usn_records fuel 69 utf16 (d ++ repeat 0 n ++ block) = (rs, Some (Ok tt)).
Proof.
  intros utf16 rs d n block fuel Hs Hd Hn Hb Hf. unfold usn_records. pose proof (usn_stored_count _ _ _ Hs) as Hc.
  destruct fuel as [|[|[|fuel]]]; try lia. cbn [usn_blocks]. rewrite !len_app, len_repeat, Hb.
  destruct (Z.leb_spec (len d + (Z.of_nat n + 4096)) 0); [lia|].
  assert (Z60 : forall m l, (60 <= m)%nat -> zfirstn 60 (repeat 0 m ++ l) = repeat 0 60).
  { intros m l Hm. rewrite zfirstn_firstn. replace m with (60 + (m - 60))%nat by lia. rewrite repeat_app, <- app_assoc.
    rewrite firstn_app. rewrite repeat_length. change (Z.to_nat 60 - 60)%nat with 0%nat. rewrite firstn_O, app_nil_r. reflexivity. }
  replace (Z.min 4096 (len d + (Z.of_nat n + 4096))) with 4096 by lia.
  pose proof (usn_block_run utf16 rs d Hs 69 [] (repeat 0 n ++ block) 0 4096) as R. cbn [app] in R. change (len (@nil Z)) with 0 in R. rewrite Z.add_0_l in R.
  rewrite R; [|unfold len in *; lia|lia|right; apply Z60; lia]. clear R.
  destruct (Z.leb_spec (4096 - len d) 60); [lia|]. cbn [ust_pos ust_offset ust_block].
  destruct (Z.leb_spec (len d + (Z.of_nat n + 4096)) (len d + (4096 - len d))); [lia|].
  (* the second round starts behind the first empty header *)
  pose proof (usn_block_run utf16 [] [] (uss_nil utf16) 69 (d ++ repeat 0 60) (repeat 0 (n - 60) ++ block) (len d + (4096 - len d)) 4096) as R.
  rewrite !len_app, len_repeat in R. cbn [app] in R. rewrite <- app_assoc in R. rewrite app_assoc in R.
  replace ((d ++ repeat 0 60) ++ repeat 0 (n - 60) ++ block) with (d ++ repeat 0 n ++ block) in R.
  2:{ rewrite <- app_assoc. f_equal. rewrite app_assoc. f_equal. rewrite <- repeat_app. f_equal. lia. }
  change (Z.of_nat 60) with 60 in R. rewrite R; [|cbn; lia|cbn; lia|right; apply Z60; lia]. clear R.
  rewrite len_nil. rewrite Z.sub_0_r. cbn [ust_pos ust_offset ust_block].
  destruct (Z.leb_spec (len d + (Z.of_nat n + 4096)) (len d + (4096 - len d) + 0 + 4096)); [|lia].
  cbn [app]. rewrite !app_nil_r. reflexivity.
Qed.
Print Assumptions C58_unused_space_refuted.

(** If less than an empty header is unused, the record that follows is not found. *)
Theorem C58_small_unused_space_refuted : forall utf16 rs d n block fuel, usn_stored utf16 rs d -> len d + Z.of_nat n = 4096 -> (8 <= n < 60)%nat ->
  is_bytes d -> is_bytes block -> len block = 4096 -> (exists i, 0 <= i < 60 - Z.of_nat n /\ znth_error block i <> Some 0) -> (3 <= fuel)%nat ->
  usn_records fuel 69 utf16 (d ++ repeat 0 n ++ block) = (rs, Some (Err ParseError)).
Proof.
  intros utf16 rs d n block fuel Hs Hd Hn Bd Bb Hb (i & Hi & Ei) Hf. unfold usn_records. pose proof (usn_stored_count _ _ _ Hs) as Hc.
  destruct fuel as [|[|[|fuel]]]; try lia. cbn [usn_blocks]. rewrite !len_app, len_repeat, Hb.
  destruct (Z.leb_spec (len d + (Z.of_nat n + 4096)) 0); [lia|].
  replace (Z.min 4096 (len d + (Z.of_nat n + 4096))) with 4096 by lia.
  pose proof (usn_block_run utf16 rs d Hs 69 [] (repeat 0 n ++ block) 0 4096) as R. cbn [app] in R. change (len (@nil Z)) with 0 in R. rewrite Z.add_0_l in R.
  rewrite R; [|unfold len in *; lia|lia|left; lia]. clear R.
  destruct (Z.leb_spec (4096 - len d) 60); [|lia]. cbn [ust_pos ust_offset ust_block]. rewrite Z.add_0_r.
  destruct (Z.leb_spec (len d + (Z.of_nat n + 4096)) (len d + (4096 - len d))); [lia|].
  set (content := d ++ repeat 0 n ++ block).
  assert (Bz : is_bytes (repeat 0 n)) by (apply Forall_forall; intros x Hx; apply repeat_spec in Hx; subst x; unfold is_byte; lia).
  assert (Es : zskipn (len d) content = repeat 0 n ++ block) by (apply zskipn_app_len; reflexivity).
  assert (Lc : len content = len d + (Z.of_nat n + 4096)) by (unfold content; rewrite !len_app, len_repeat, Hb; reflexivity).
  rewrite usn_block_S. cbn [ust_pos ust_offset ust_block]. destruct (Z.leb_spec 4096 60); [lia|]. rewrite Es.
  assert (L60 : len (zfirstn 60 (repeat 0 n ++ block)) = 60) by (rewrite len_zfirstn, len_app, len_repeat; lia).
  rewrite L60. rewrite (proj2 (list_eqb_neq _ _)).
  2:{ intros E. apply (f_equal (fun l => znth_error l (Z.of_nat n + i))) in E. apply Ei.
      assert (X1 : znth_error (zfirstn 60 (repeat 0 n ++ block)) (Z.of_nat n + i) = znth_error block i).
      { rewrite !znth_error_nth by lia. rewrite zfirstn_firstn. rewrite nth_error_firstn by lia.
        rewrite nth_error_app2 by (rewrite repeat_length; lia). rewrite repeat_length. f_equal. lia. }
      rewrite <- X1, E. rewrite znth_error_nth by lia. apply nth_error_repeat. lia. }
  replace (len d + 60 - 60) with (len d) by lia. pose proof (len_nonneg d). destruct (Z.ltb_spec (len d) 0); [lia|].
  assert (Ee : usn_read_record utf16 content (len d) = Err ParseError).
  { destruct (usn_read_record utf16 content (len d)) as [[r m]|e] eqn:E.
    - exfalso. assert (Bc : is_bytes content) by (unfold content; rewrite !is_bytes_app; auto).
      unfold usn_read_record in E. destruct (read_var content usn_layout usn_ext (len d)) as [[[vs dd] mm]|] eqn:E2; [|discriminate]. clear E.
      unfold read_var in E2. destruct (read_struct content usn_layout (len d)) as [vs'|] eqn:E3; [|discriminate]. cbn [bind] in E2.
      apply read_struct_vals in E3; [|exact Bc|repeat (apply Forall_cons; [exact I|]); apply Forall_nil]. destruct E3 as (F & _ & E3).
      rewrite Es in E3. change (Z.of_nat (struct_size usn_layout)) with (4 + 56) in E3.
      destruct vs' as [|v vs']; [inversion F|]. destruct v as [z|]; [|apply Forall2_cons_iff in F; destruct F as [[] _]].
      apply Forall2_cons_iff in F. destruct F as [Fz _]. cbn [fval_ok] in Fz.
      destruct (0 <=? usn_ext (VI z :: vs')) eqn:G in E2; [|discriminate]. cbn [usn_ext] in G.
      replace (repeat 0 n) with (repeat 0 4 ++ repeat 0 (n - 4)) in E3 by (rewrite <- repeat_app; f_equal; lia).
      rewrite <- app_assoc in E3. cbn [enc_struct enc_field enc_int] in E3. unfold usn_layout in E3. cbn [enc_struct enc_field enc_int] in E3.
      rewrite zfirstn_firstn in E3. rewrite firstn_app in E3. rewrite repeat_length in E3. rewrite firstn_all2 in E3 by (rewrite repeat_length; lia).
      symmetry in E3. apply le4_nonzero in E3; [exact E3|]. change (2 ^ 32) with (256 ^ Z.of_nat 4). lia.
    - apply usn_record_errors in E; [now rewrite E| |lia]. unfold content; rewrite !is_bytes_app; auto. }
  rewrite Ee. rewrite app_nil_r. reflexivity.
Qed.
Print Assumptions C58_small_unused_space_refuted.

Definition ex_usn (file : Z) : usn_record := mkusn file 5 100 133500000000000000 256 0 0 32 60 (s2z "ab") [0; 0; 0; 0].
Definition ex_utf16 (d : bytes) : option str :=
  (fix go d := match d with a :: b :: r => match go r with Some s => Some (a + 256 * b :: s) | None => None end | [] => Some [] | _ => None end) d.
Definition ex_usn_bytes (file : Z) : bytes := usn_bytes (ex_usn file) [97; 0; 98; 0].

(** Two records in a file of one block; a full file of two blocks; two blocks with unused space
    in the first one. A record without name that ends a partial block is yielded once more for
    every 60 bytes that the block lacks. *)
Example C58_case :
  usn_records 3 69 ex_utf16 (ex_usn_bytes 1 ++ ex_usn_bytes 2 ++ repeat 0 200) = ([ex_usn 1; ex_usn 2], Some (Ok tt)) /\
  (let (l, e) := usn_records 3 69 ex_utf16 (concat (map (fun i => usn_bytes (mkusn i 5 100 0 256 0 0 32 60 (s2z "ab") []) [97; 0; 98; 0]) (map Z.of_nat (seq 0 64))) ++
                   ex_usn_bytes 99 ++ repeat 0 (Z.to_nat (4096 - 68))) in
   (map us_file l, e)) = (map Z.of_nat (seq 0 64) ++ [99], Some (Ok tt)) /\
  usn_records 3 69 ex_utf16 (ex_usn_bytes 1 ++ repeat 0 (Z.to_nat (4096 - 68)) ++ ex_usn_bytes 2 ++ repeat 0 (Z.to_nat (4096 - 68))) =
    ([ex_usn 1], Some (Ok tt)) /\
  (let (l, e) := usn_records 3 69 ex_utf16 (concat (map (fun i => usn_bytes (mkusn i 5 100 0 256 0 0 32 60 (s2z "ab") []) [97; 0; 98; 0]) (map Z.of_nat (seq 0 64))) ++
                   usn_bytes (mkusn 99 5 100 0 256 0 0 32 60 [] []) []) in
   (map us_file l, e)) = (map Z.of_nat (seq 0 64) ++ repeat 99 68, Some (Ok tt)).
Proof. vm_compute. repeat split. Qed.

(** Whatever the file is, every record that is yielded is stored somewhere in it: version 2.0, with
    its name, padding and all its values. *)
Theorem C58_sound : forall utf16 content fuel inner r, is_bytes content -> In r (fst (usn_records fuel inner utf16 content)) -> usn_found utf16 content r.
Proof. intros utf16 content fuel inner r Hb. apply usn_blocks_sound, Hb. Qed.
Print Assumptions C58_sound.

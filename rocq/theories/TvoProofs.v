From Verif Require Import Base BaseFacts CoreModel CoreProofs StrModel StrFacts TextModel TextProofs SeqModel SeqSpec SeqFacts RdModel RdSpec RdFacts RpProofs BookSpec BookProofs TvModel TvSpec TvProofs CatProofs FhModel FhSpec FhProofs AulModel AulSpec SdModel SdSpec SdProofs TvoModel TvoSpec.
From Coq Require String.
Import String.StringSyntax.

(** ** Paths *)

Lemma join_abs l : l <> [] -> join_path l = abs_path l.
Proof.
  unfold join_path. induction l as [|s l IH]; intros N; [congruence|]. destruct l as [|t l]; [cbn [join abs_path]; now rewrite app_nil_r|].
  change (join [47] (s :: t :: l)) with (s ++ [47] ++ join [47] (t :: l)). cbn [abs_path] in *. f_equal. f_equal. apply IH. discriminate.
Qed.

Lemma abs_snoc l s : join_path (l ++ [s]) = abs_path (l ++ [s]).
Proof. apply join_abs. now destruct l. Qed.

Lemma split_abs l : Forall name_ok l -> split_path (abs_path l) = l.
Proof.
  intros F. destruct l as [|s l]; [reflexivity|]. rewrite <- join_abs by discriminate. apply split_join_path. exact F.
Qed.

Lemma is_archive_iff lower s : is_archive lower s = true <-> archive_name lower s.
Proof.
  unfold is_archive, archive_name, ends_with. rewrite andb_true_iff. set (x := lower s). set (y := s2z ".logarchive"%string). split.
  - intros [E _]. apply list_eqb_eq in E. exists (zfirstn (len x - len y) x). rewrite <- E at 2. symmetry. apply zfirstn_zskipn.
  - intros (b & E). rewrite E, len_app. replace (len b + len y - len y) with (len b) by lia. split; [|apply Z.leb_le; pose proof (len_nonneg b); lia].
    apply list_eqb_eq. now rewrite zskipn_app_len.
Qed.

Lemma is_archive_false lower s : is_archive lower s = false <-> ~ archive_name lower s.
Proof. rewrite <- is_archive_iff. now destruct (is_archive lower s). Qed.

Lemma archive_dec lower s : archive_name lower s \/ ~ archive_name lower s.
Proof. rewrite <- is_archive_iff. destruct (is_archive lower s); [left; reflexivity|right; discriminate]. Qed.

Lemma pop_snoc l s : pop_last (l ++ [s]) = Ok l.
Proof. unfold pop_last. rewrite removelast_last. now destruct l. Qed.
Lemma last_snoc l s : get_last (l ++ [s]) = Ok s.
Proof. unfold get_last. now rewrite rev_unit. Qed.

(** The second part of [locate], in the directory [l]. *)
Definition text_in (lower : str -> str) (there : str -> bool) (p : place) (l : list str) (name : str) : list str * option str :=
  if is_archive lower name then
    if there (join_path (l ++ [s2z "dsc"%string])) then (l, Some (join_path l)) else (l ++ [s2z "dsc"%string], pl_text p)
  else
    let t := join_path (l ++ [s2z "uuidtext"%string]) in (l, if there t then Some t else pl_text p).
Definition sync_in (there : str -> bool) (p : place) (l : list str) : option str :=
  let t := join_path (l ++ [s2z "timesync"%string]) in
  let t := if there t then t else join_path (l ++ [s2z "diagnostics"%string; s2z "timesync"%string]) in
  if there t then Some t else pl_sync p.

Lemma locate_eq lower there path p : locate lower there path p =
  do l <- pop_last (split_path path); do name <- get_last l; do x <- climb lower (l, name); do (l, name) <- climb lower x;
  let (l, text) := text_in lower there p l name in Ok (mkplace text (sync_in there p l)).
Proof. reflexivity. Qed.

Lemma climb_archive lower l s : archive_name lower s -> climb lower (l, s) = Ok (l, s).
Proof. intros A. unfold climb. apply is_archive_iff in A. now rewrite A. Qed.
Lemma climb_up lower l t s : ~ archive_name lower s -> climb lower (l ++ [t; s], s) = Ok (l ++ [t], t).
Proof.
  intros A. unfold climb. apply is_archive_false in A. rewrite A. change (l ++ [t; s]) with (l ++ [t] ++ [s]). rewrite app_assoc, pop_snoc. cbn [bind]. now rewrite rev_unit.
Qed.
Lemma climb_top lower s : ~ archive_name lower s -> climb lower ([s], s) = Ok ([], s).
Proof. intros A. unfold climb. apply is_archive_false in A. now rewrite A. Qed.
Lemma climb_nil lower s : ~ archive_name lower s -> climb lower ([], s) = Err IndexError.
Proof. intros A. unfold climb. apply is_archive_false in A. now rewrite A. Qed.

(** Where [locate] ends up. *)
Lemma home_archive lower dirs base d : in_archive lower dirs base -> get_last dirs = Ok d ->
  exists pre a, base = pre ++ [a] /\ archive_name lower a /\ (do x <- climb lower (dirs, d); climb lower x) = Ok (pre ++ [a], a).
Proof.
  intros (pre & a & below & -> & -> & A & L & N) E. exists pre, a. split; [reflexivity|]. split; [exact A|].
  destruct below as [|b1 [|b2 [|b3 below]]]; [| | |cbn in L; lia].
  - rewrite last_snoc in E. injection E as <-. rewrite climb_archive by exact A. cbn [bind]. apply climb_archive, A.
  - inversion N; subst. change (pre ++ [a; b1]) with (pre ++ [a] ++ [b1]) in *. rewrite app_assoc, last_snoc in E. injection E as <-.
    change (pre ++ [a] ++ [b1]) with (pre ++ [a; b1]). rewrite climb_up by assumption. cbn [bind]. apply climb_archive, A.
  - inversion N as [|? ? N1 N']; subst. inversion N' as [|? ? N2 _]; subst. change (pre ++ [a; b1; b2]) with (pre ++ [a] ++ [b1] ++ [b2]) in *. rewrite !app_assoc, last_snoc in E. injection E as <-.
    replace (pre ++ [a] ++ [b1] ++ [b2]) with ((pre ++ [a]) ++ [b1; b2]) by now rewrite <- app_assoc. rewrite climb_up by assumption. cbn [bind]. rewrite <- app_assoc. change ([a] ++ [b1]) with [a; b1]. apply climb_up. assumption.
Qed.

Lemma home_database lower dirs base d : in_database lower dirs base -> get_last dirs = Ok d ->
  exists s, ~ archive_name lower s /\ (do x <- climb lower (dirs, d); climb lower x) = Ok (base, s).
Proof.
  intros (d1 & d2 & -> & N1 & N2 & N) E. change (base ++ [d1; d2]) with (base ++ [d1] ++ [d2]) in E. rewrite app_assoc, last_snoc in E. injection E as <-.
  rewrite climb_up by exact N2. cbn [bind]. destruct base as [|a pre] using rev_ind; [|clear IHpre].
  - exists d1. split; [exact N1|]. apply climb_top, N1.
  - exists a. split; [exact (N pre a eq_refl)|]. rewrite <- app_assoc. apply climb_up, N1.
Qed.

(** Every path is of one of the three kinds. *)
Lemma home_cases lower dirs : (exists base, in_archive lower dirs base) \/ (exists base, in_database lower dirs base) \/ (Forall (fun s => ~ archive_name lower s) dirs /\ (length dirs < 2)%nat).
Proof.
  destruct dirs as [|d2 dirs] using rev_ind; [right; right; split; [constructor|cbn; lia]|clear IHdirs].
  destruct (archive_dec lower d2) as [A|N2]. { left. exists (dirs ++ [d2]), dirs, d2, []. repeat split; [exact A|cbn; lia|constructor]. }
  destruct dirs as [|d1 dirs] using rev_ind; [right; right; split; [constructor; [exact N2|constructor]|cbn; lia]|clear IHdirs].
  destruct (archive_dec lower d1) as [A|N1]. { left. exists (dirs ++ [d1]), dirs, d1, [d2]. rewrite <- app_assoc. repeat split; [exact A|cbn; lia|constructor; [exact N2|constructor]]. }
  destruct dirs as [|d0 dirs] using rev_ind.
  { right; left. exists [], d1, d2. repeat split; [exact N1|exact N2|]. intros pre a E. now destruct pre. }
  clear IHdirs. destruct (archive_dec lower d0) as [A|N0].
  - left. exists (dirs ++ [d0]), dirs, d0, [d1; d2]. rewrite <- !app_assoc. repeat split; [exact A|cbn; lia|constructor; [exact N1|constructor; [exact N2|constructor]]].
  - right; left. exists (dirs ++ [d0]), d1, d2. rewrite <- !app_assoc. repeat split; [exact N1|exact N2|]. intros pre a E. apply app_inj_tail in E as [_ <-]. exact N0.
Qed.

Lemma home_short lower dirs : Forall (fun s => ~ archive_name lower s) dirs -> (length dirs < 2)%nat ->
  (do name <- get_last dirs; do x <- climb lower (dirs, name); climb lower x) = Err IndexError.
Proof.
  intros F L. destruct dirs as [|d [|]]; [reflexivity| |cbn in L; lia]. inversion F; subst. cbn [get_last rev app bind]. rewrite climb_top by assumption. cbn [bind]. now apply climb_nil.
Qed.

Lemma sync_in_first there p l : first_there there (pl_sync p) (timesync_of l) (sync_in there p l).
Proof.
  unfold sync_in, timesync_of. cbv zeta. rewrite !join_abs by (destruct l; discriminate). unfold str in *.
  match goal with |- first_there _ _ [?a; ?b] _ => assert (forall x y, x = abs_path a -> y = abs_path b -> first_there there (pl_sync p) [a; b] (if there (if there x then x else y) then Some (if there x then x else y) else pl_sync p)) as H; [|apply H; reflexivity] end.
  intros x y Ex Ey. destruct (there x) eqn:E; [rewrite E, Ex; apply ft_here; congruence|]. apply ft_next; [congruence|].
  destruct (there y) eqn:E2; [rewrite Ey; apply ft_here; congruence|apply ft_next; [congruence|apply ft_none]].
Qed.

Lemma first_fun there old l a b : first_there there old l a -> first_there there old l b -> a = b.
Proof. intros A. revert b. induction A; intros b B; inversion B; subst; try congruence. now apply IHA. Qed.

Lemma locate_archive lower there path p dirs name base : split_path path = dirs ++ [name] -> in_archive lower dirs base -> there (abs_path (base ++ [s2z "dsc"%string])) = true ->
  locate lower there path p = Ok (mkplace (Some (abs_path base)) (sync_in there p base)).
Proof.
  intros Hp H D. rewrite locate_eq, Hp, pop_snoc. cbn [bind]. destruct (get_last dirs) as [d|] eqn:E.
  2:{ destruct H as (pre & a & below & -> & _). unfold get_last in E. destruct (rev (pre ++ a :: below)) eqn:R; [|discriminate]. apply (f_equal (@length _)) in R. rewrite rev_length, app_length in R. cbn in R. lia. }
  cbn [bind]. destruct (home_archive _ _ _ _ H E) as (pre & a & -> & A & X). destruct (climb lower (dirs, d)) as [x|]; [|discriminate]. cbn [bind] in X |- *. rewrite X. cbn [bind].
  unfold text_in. rewrite (proj2 (is_archive_iff lower a) A), abs_snoc.
  match goal with |- context [if there ?x then _ else _] => replace (there x) with true by (symmetry; exact D) end. now rewrite abs_snoc.
Qed.

Lemma locate_archive_none lower there path p dirs name base : split_path path = dirs ++ [name] -> in_archive lower dirs base -> there (abs_path (base ++ [s2z "dsc"%string])) = false ->
  locate lower there path p = Ok (mkplace (pl_text p) (sync_in there p (base ++ [s2z "dsc"%string]))).
Proof.
  intros Hp H D. rewrite locate_eq, Hp, pop_snoc. cbn [bind]. destruct (get_last dirs) as [d|] eqn:E.
  2:{ destruct H as (pre & a & below & -> & _). unfold get_last in E. destruct (rev (pre ++ a :: below)) eqn:R; [|discriminate]. apply (f_equal (@length _)) in R. rewrite rev_length, app_length in R. cbn in R. lia. }
  cbn [bind]. destruct (home_archive _ _ _ _ H E) as (pre & a & -> & A & X). destruct (climb lower (dirs, d)) as [x|]; [|discriminate]. cbn [bind] in X |- *. rewrite X. cbn [bind].
  unfold text_in. rewrite (proj2 (is_archive_iff lower a) A), abs_snoc.
  match goal with |- context [if there ?x then _ else _] => replace (there x) with false by (symmetry; exact D) end. reflexivity.
Qed.

Lemma locate_database lower there path p dirs name base : split_path path = dirs ++ [name] -> in_database lower dirs base ->
  exists text, first_there there (pl_text p) [base ++ [s2z "uuidtext"%string]] text /\ locate lower there path p = Ok (mkplace text (sync_in there p base)).
Proof.
  intros Hp H. rewrite locate_eq, Hp, pop_snoc. cbn [bind]. destruct (get_last dirs) as [d|] eqn:E.
  2:{ destruct H as (d1 & d2 & -> & _). unfold get_last in E. destruct (rev (base ++ [d1; d2])) eqn:R; [|discriminate]. apply (f_equal (@length _)) in R. rewrite rev_length, app_length in R. cbn in R. lia. }
  cbn [bind]. destruct (home_database _ _ _ _ H E) as (s & A & X). destruct (climb lower (dirs, d)) as [x|]; [|discriminate]. cbn [bind] in X |- *. rewrite X. cbn [bind].
  unfold text_in. rewrite (proj2 (is_archive_false lower s) A). cbv zeta. rewrite abs_snoc. eexists. split; [|reflexivity].
  destruct (there _) eqn:T; [apply ft_here, T|apply ft_next; [exact T|apply ft_none]].
Qed.

Lemma locate_short lower there path p : (forall dirs name, split_path path = dirs ++ [name] -> Forall (fun s => ~ archive_name lower s) dirs /\ (length dirs < 2)%nat) ->
  locate lower there path p = Err IndexError.
Proof.
  intros H. rewrite locate_eq. destruct (split_path path) as [|name dirs] eqn:E using rev_ind; [reflexivity|]. clear IHdirs. destruct (H _ _ eq_refl) as [F L]. rewrite pop_snoc. cbn [bind].
  pose proof (home_short _ _ F L) as X. destruct (get_last dirs) as [d|]; cbn [bind] in X |- *; [|congruence]. destruct (climb lower (dirs, d)) as [x|]; cbn [bind] in X |- *; [|congruence].
  rewrite X. reflexivity.
Qed.

(** ** The header chunk *)

Lemma reads_si32 : reads (rd_int (FS LE 4)) si32.
Proof.
  eapply reads_iff; [apply (reads_sle 4); lia|]. intros v d _. unfold sle, si32. change (8 * Z.of_nat 4 - 1) with 31. change (256 ^ Z.of_nat 4) with (2 ^ 32).
  assert (E : - 2 ^ 31 <= v < 2 ^ 31 -> v mod 2 ^ 32 = if v <? 0 then v + 2 ^ 32 else v).
  { intros H. change (2 ^ 31) with 2147483648 in H. change (2 ^ 32) with 4294967296. destruct (Z.ltb_spec v 0); [|rewrite Z.mod_small; lia].
    symmetry. apply Z.mod_unique with (-1); lia. }
  split; intros [H ->]; rewrite E by exact H; auto.
Qed.

Lemma reads_sub {A} tag (r : reader A) e : reads r e -> reads (rd_sub tag r) (fun a d => sub_chunk tag (e a) d).
Proof.
  intros R. unfold rd_sub. eapply reads_iff; [eapply reads_bind; [apply reads_i32|intros t; eapply reads_bind; [apply reads_guard|intros ?; eapply reads_bind; [apply reads_i32|intros s; exact R]]]|].
  intros a d _. cbv beta. unfold sub_chunk. split.
  - intros (t & d1 & ? & H1 & (u & ? & ? & [T ->] & (s & d3 & d4 & H3 & H4 & ->) & ->) & ->). apply Z.eqb_eq in T. subst t. cbn [app].
    apply fields_more; [exact H1|]. apply fields_more; [exists s; exact H3|]. apply fields_cons. exists d4, []. rewrite app_nil_r. split; [exact H4|]. split; [now apply fields_nil|reflexivity].
  - intros H. f_out. destruct H0 as [s H0]. exists tag. do 2 eexists. split; [exact H|]. split; [|reflexivity]. exists tt, []. eexists. split; [split; [apply Z.eqb_refl|reflexivity]|]. split; [|reflexivity].
    exists s. do 2 eexists. split; [exact H0|]. split; [|reflexivity]. rewrite app_nil_r. assumption.
Qed.

Lemma reads_system utf8 : reads (rd_system utf8) (fun x d => fields [any i32; any i32; text_bytes utf8 16 (fst x); text_bytes utf8 32 (snd x)] d).
Proof.
  unfold rd_system. eapply reads_iff; [fh_reads ltac:(apply reads_text)|]. intros [b m] d _. cbv beta. cbn [fst snd]. split.
  - intros (a1 & ? & ? & H1 & (a2 & ? & ? & H2 & (a3 & ? & ? & H3 & (a4 & ? & ? & H4 & [[= -> ->] ->] & ->) & ->) & ->) & ->). f_in.
  - intros H. f_out. repeat match goal with H : any _ _ |- _ => destruct H as [? H] end. r_in. split; reflexivity.
Qed.

Lemma reads_generation : reads rd_generation (fun u d => fields [uuid_bytes u; any i32; any i32] d).
Proof.
  unfold rd_generation. eapply reads_iff; [fh_reads fail|]. intros u d _. cbv beta. split.
  - intros (a1 & ? & ? & [H1 ->] & (a2 & ? & ? & H2 & (a3 & ? & ? & H3 & [-> ->] & ->) & ->) & ->). assert (uuid_bytes a1 a1) by (split; [exact H1|reflexivity]). f_in.
  - intros H. f_out. repeat match goal with H : any _ _ |- _ => destruct H as [? H] end. destruct H as [L ->]. exists u, u. eexists. split; [auto|]. split; [|reflexivity]. r_in. split; reflexivity.
Qed.

Lemma sub_chunk_iff tag (P Q : bytes -> Prop) d : (forall x, P x <-> Q x) -> (sub_chunk tag P d <-> sub_chunk tag Q d).
Proof. intros H. unfold sub_chunk. split; intros X; f_out; apply fields_more; [assumption| |assumption|]; apply fields_more; try assumption; apply fields_more; try (apply H; assumption); now apply fields_nil. Qed.

Lemma reads_rdheader utf8 : reads (rd_header utf8) (header_bytes utf8).
Proof.
  unfold rd_header. eapply reads_iff.
  { fh_reads ltac:(first [apply reads_si32 | apply reads_sub; first [apply reads_i64 | apply reads_system | apply reads_generation | apply reads_text]]). }
  intros h d _. cbv beta. unfold header_bytes.
  assert (S1 : forall x, sub_chunk 0x6101 (fields [any i32; any i32; some_text utf8 16; some_text utf8 32]) x <-> exists s, sub_chunk 0x6101 (fields [any i32; any i32; text_bytes utf8 16 (fst s); text_bytes utf8 32 (snd s)]) x).
  { intros x. unfold sub_chunk. split.
    - intros X. f_out. repeat match goal with H : some_text _ _ _ |- _ => destruct H as [? H] end. eexists (_, _). cbn [fst snd]. apply fields_more; [eassumption|]. apply fields_more; [eassumption|]. apply fields_more; [|now apply fields_nil].
      repeat (apply fields_more; [eassumption|]). now apply fields_nil.
    - intros [[b m] X]. cbn [fst snd] in X. f_out. apply fields_more; [eassumption|]. apply fields_more; [eassumption|]. apply fields_more; [|now apply fields_nil].
      repeat (apply fields_more; [first [eassumption | eexists; eassumption]|]). now apply fields_nil. }
  assert (S2 : forall x, sub_chunk 0x6103 (some_text utf8 48) x <-> exists s, sub_chunk 0x6103 (text_bytes utf8 48 s) x).
  { intros x. unfold sub_chunk. split.
    - intros X. f_out. repeat match goal with H : some_text _ _ _ |- _ => destruct H as [? H] end. eexists. repeat (apply fields_more; [eassumption|]). now apply fields_nil.
    - intros [s X]. f_out. repeat (apply fields_more; [first [eassumption | eexists; eassumption]|]). now apply fields_nil. }
  split.
  - intros (a1 & ? & ? & H1 & (a2 & ? & ? & H2 & (a3 & ? & ? & H3 & (a4 & ? & ? & H4 & (a5 & ? & ? & H5 & (a6 & ? & ? & H6 & (a7 & ? & ? & H7 & (a8 & ? & ? & H8 & (a9 & ? & ? & H9 & (a10 & ? & ? & H10 & (a11 & ? & ? & H11 & (a12 & ? & ? & H12 & (a13 & ? & ? & H13 & [-> ->] & ->) & ->) & ->) & ->) & ->) & ->) & ->) & ->) & ->) & ->) & ->) & ->) & ->).
    cbn [hd_num hd_den hd_start hd_time hd_flags hd_continuous hd_boot].
    match type of H11 with sub_chunk _ _ ?x => assert (T1 : sub_chunk 0x6101 (fields [any i32; any i32; some_text utf8 16; some_text utf8 32]) x) by (apply S1; exists a11; exact H11) end.
    match type of H13 with sub_chunk _ _ ?x => assert (T2 : sub_chunk 0x6103 (some_text utf8 48) x) by (apply S2; exists a13; exact H13) end. clear H11 H13.
    repeat (apply fields_more; [first [eassumption | eexists; eassumption]|]). now apply fields_nil.
  - destruct h as [num den start time flags cont boot]. cbn [hd_num hd_den hd_start hd_time hd_flags hd_continuous hd_boot]. intros H. f_out.
    repeat match goal with H : any _ _ |- _ => destruct H as [? H] end.
    repeat match goal with H : sub_chunk 0x6101 _ _ |- _ => apply S1 in H as [? H] | H : sub_chunk 0x6103 (some_text _ _) _ |- _ => apply S2 in H as [? H] end.
    r_in. split; reflexivity.
Qed.

Lemma solid_rdheader utf8 : solid (rd_header utf8).
Proof. unfold rd_header. apply solid_bind, solid_int. cbn. lia. Qed.

Lemma land_one f : Z.land f 1 = f mod 2.
Proof. change 1 with (Z.ones 1). now rewrite Z.land_ones by lia. Qed.

Lemma flag_odd f : negb (Z.land f 1 =? 0) = Z.odd f.
Proof. rewrite land_one, Zmod_odd. now destruct (Z.odd f). Qed.

Lemma chunk_head_len tag size c : chunk_head tag size c -> len c = 16.
Proof. intros (_ & _ & sub & _ & ->). rewrite !len_app. unfold len. rewrite !le_enc_length. reflexivity. Qed.

Lemma read_start utf8 content h next : is_bytes content ->
  (exists tag size, rd_chunk content 0 = Ok ((tag, size), 16) /\ read_header utf8 content 16 = Ok h /\ tv_align (16 + size) = next) <-> (begins utf8 content h next /\ Z.odd (hd_flags h) = true).
Proof.
  intros Hb. destruct (reads_at rd_chunk _ content 0 reads_chunk solid_chunk Hb ltac:(lia)) as [C1 _]. destruct (reads_at _ _ content 16 (reads_rdheader utf8) (solid_rdheader utf8) Hb ltac:(lia)) as [R1 _]. split.
  - intros (tag & size & C & R & N). apply C1 in C as (c & Hc & Sc & _). cbn [fst snd] in Hc. unfold read_header in R. destruct (rd_header utf8 content 16) as [[h' p]|] eqn:E; [|discriminate]. cbn [bind] in R.
    rewrite flag_odd in R. destruct (Z.odd (hd_flags h')) eqn:O; [|discriminate]. cbn [guard bind] in R. injection R as ->. destruct (proj1 (R1 h p) eq_refl) as (d & Hd & Sd & _). split; [|exact O].
    destruct Sc as (pre & rest & Ec & Lp). destruct pre; [|rewrite len_cons in Lp; pose proof (len_nonneg pre); lia]. cbn [app] in Ec. destruct Sd as (pre & rest' & Ed & Lp'). rewrite Ec in Ed.
    assert (L : len c = 16) by (eapply chunk_head_len; exact Hc). rewrite <- L in Lp'.
    assert (X : c = pre /\ rest = d ++ rest'). { apply app_split; [unfold len in Lp'; lia|exact Ed]. }
    destruct X as [<- ->]. exists tag, size, c, d, rest'. split; [exact Hc|]. split; [exact Hd|]. split; [exact Ec|]. now apply align_iff.
  - intros ((tag & size & c & d & rest & Hc & Hd & E & N) & O). exists tag, size. pose proof (chunk_head_len _ _ _ Hc) as L. split; [|split].
    + apply C1. exists c. split; [exact Hc|]. split; [exists [], (d ++ rest); split; [exact E|reflexivity]|]. rewrite L. reflexivity.
    + unfold read_header. assert (X : rd_header utf8 content 16 = Ok (h, 16 + len d)).
      { apply R1. exists d. split; [exact Hd|]. split; [|reflexivity]. exists c, rest. split; [exact E|exact L]. }
      rewrite X. cbn [bind]. rewrite flag_odd, O. reflexivity.
    + now apply align_iff.
Qed.

Lemma start_errors utf8 content x : is_bytes content -> (do ((tag, size), _) <- rd_chunk content 0; do h <- read_header utf8 content 16; Ok (tag, size, h)) = Err x -> x = ParseError.
Proof.
  intros Hb. destruct (reads_at rd_chunk _ content 0 reads_chunk solid_chunk Hb ltac:(lia)) as [_ C2]. destruct (reads_at _ _ content 16 (reads_rdheader utf8) (solid_rdheader utf8) Hb ltac:(lia)) as [_ R2].
  destruct (rd_chunk content 0) as [[[tag size] p]|e]; [|intros [= <-]; now apply C2]. cbn [bind]. unfold read_header. destruct (rd_header utf8 content 16) as [[h q]|e]; [|intros [= <-]; now apply R2].
  cbn [bind]. destruct (negb _); cbn [guard bind]; [discriminate|]. now intros [= <-].
Qed.

Lemma chunk_pos content tag size p : is_bytes content -> rd_chunk content 0 = Ok ((tag, size), p) -> p = 16.
Proof.
  intros Hb E. destruct (reads_at rd_chunk _ content 0 reads_chunk solid_chunk Hb ltac:(lia)) as [C1 _]. apply C1 in E as (c & Hc & _ & ->). now rewrite (chunk_head_len _ _ _ Hc).
Qed.

Lemma begins_fun utf8 content h next h' next' : is_bytes content -> Z.odd (hd_flags h) = true -> Z.odd (hd_flags h') = true -> begins utf8 content h next -> begins utf8 content h' next' -> h = h' /\ next = next'.
Proof.
  intros Hb O O' A B. destruct (proj2 (read_start utf8 content h next Hb) (conj A O)) as (t & s & C & R & N). destruct (proj2 (read_start utf8 content h' next' Hb) (conj B O')) as (t' & s' & C' & R' & N').
  split; congruence.
Qed.

(** The directory with the timesync files. *)
Definition sync_dir (w : world) (p : place) : result (option (list (str * bytes))) :=
  match pl_sync p with None => Ok None | Some d => do l <- w_list w d; Ok (Some l) end.

Lemma open_eq fuel w path content p c p' h next dir : is_bytes content -> locate (w_lower w) (w_there w) path p = Ok p' -> begins (w_utf8 w) content h next -> Z.odd (hd_flags h) = true ->
  w_seek w next = Ok tt -> hd_den h <> 0 -> sync_dir w p' = Ok dir ->
  open_trace fuel w path content p c = match open_clock fuel (w_lower w) (hd_time h) (hd_num h) (hd_den h) (hd_boot h) dir c with
    | OutOfFuel => OutOfFuel | Done (Err e) => Done (Err e) | Done (Ok c) => Done (Ok (mktrace p' (hd_boot h) c next)) end.
Proof.
  intros Hb L B O Sk D Dir. destruct (proj2 (read_start (w_utf8 w) content h next Hb) (conj B O)) as (t & s & C & R & N). unfold open_trace. rewrite L. cbn [bind]. rewrite C. cbn [bind]. rewrite R. cbn [bind]. cbv zeta. rewrite N, Sk. cbn [bind].
  unfold fl_div at 1. destruct (Z.eqb_spec (hd_den h) 0); [contradiction|]. cbn [bind]. unfold sync_dir in Dir. rewrite Dir. reflexivity.
Qed.

Lemma open_inv fuel w path content p c t : is_bytes content -> open_trace fuel w path content p c = Done (Ok t) ->
  exists p' h next dir c', locate (w_lower w) (w_there w) path p = Ok p' /\ begins (w_utf8 w) content h next /\ Z.odd (hd_flags h) = true /\ w_seek w next = Ok tt /\ hd_den h <> 0 /\ sync_dir w p' = Ok dir /\
    open_clock fuel (w_lower w) (hd_time h) (hd_num h) (hd_den h) (hd_boot h) dir c = Done (Ok c') /\ t = mktrace p' (hd_boot h) c' next.
Proof.
  intros Hb. unfold open_trace. destruct (locate _ _ path p) as [p'|]; [|discriminate]. cbn [bind]. destruct (rd_chunk content 0) as [[[tag size] q]|] eqn:C; [|discriminate]. cbn [bind].
  destruct (read_header _ content 16) as [h|] eqn:R; [|discriminate]. cbn [bind]. cbv zeta. destruct (w_seek w _) as [[]|] eqn:Sk; [|discriminate]. cbn [bind].
  unfold fl_div at 1. destruct (Z.eqb_spec (hd_den h) 0) as [|D]; [discriminate|]. cbn [bind]. fold (sync_dir w p'). destruct (sync_dir w p') as [dir|] eqn:Dir; [|discriminate]. cbn [bind].
  destruct (open_clock _ _ _ _ _ _ _ _) as [[c'|]|] eqn:Cl; try discriminate. intros [= <-]. pose proof (chunk_pos _ _ _ _ Hb C) as ->.
  destruct (proj1 (read_start (w_utf8 w) content h (tv_align (16 + size)) Hb)) as [B O]; [exists tag, size; auto|]. exists p', h, (tv_align (16 + size)), dir, c'. auto 10.
Qed.

(** Properties of the Safari cookies reader. *)

From Verif Require Import Base BaseFacts CoreModel CoreProofs VarModel VarFacts SeqModel SeqSpec SeqFacts GzipModel SafariModel SafariSpec SafariProofs.

(** *** C57: Safari cookies files *)

(** A file is read exactly if it has the layout of the format, and then the records of every
    page are the ones stored at the offsets that the page lists, in that order. *)
Theorem C57_file : forall content pages, is_bytes content ->
  (read_cookies content = Ok pages <-> ck_file content pages).
Proof.
  intros content pages Hb. unfold read_cookies.
  assert (Wf : Forall fkind_wf [FB 8]) by (repeat (apply Forall_cons; [exact I|]); apply Forall_nil).
  split.
  - destruct (ck_read_header content) as [[sizes p]|] eqn:E; [|discriminate]. cbn [bind].
    apply cook_iff in E; [|exact Hb]. destruct E as (Ln & Ll & G & St & ->).
    pose proof (stored_at_inside _ _ _ St) as [_ I0].
    assert (Le : len (s2z "cook" ++ be_enc 4 (len sizes) ++ concat (map (be_enc 4) sizes)) = 8 + 4 * len sizes).
    { rewrite !len_app, len_be_enc. change (concat (map (be_enc 4) sizes)) with (enc_ints (FU BE 4) sizes). rewrite (len_enc_ints (FU BE 4)) by exact G.
      change (len (s2z "cook")) with 4. cbn [fsize]. lia. }
    rewrite Le in I0. pose proof (len_nonneg sizes).
    destruct (ck_read_pages content _ sizes) as [[ls p]|] eqn:E2; [|discriminate]. cbn [bind].
    apply ck_read_pages_iff in E2; [|exact Hb| |lia].
    2:{ eapply Forall_impl; [|exact G]. cbv beta. lia. }
    destruct E2 as (data & Ed & St2 & -> & F).
    destruct (read_struct content [FB 8] _) as [vs|] eqn:E3; [|discriminate]. cbn [bind]. injection 1 as <-.
    apply read_struct_iff in E3; [|assumption..|cbn; lia]. destruct E3 as [St3 F3]. inv2 F3. destruct v as [z|footer]; [contradiction|].
    cbn [fval_ok] in Hv. cbn [enc_struct enc_field] in St3. rewrite app_nil_r in St3.
    assert (Lw : len data = len sizes) by (rewrite <- Ed, len_map; reflexivity).
    assert (Es : concat (map (be_enc 4) sizes) = concat (map (fun d => be_enc 4 (len d)) data)) by (rewrite <- Ed, map_map; reflexivity).
    assert (All : stored_at content 0 ((s2z "cook" ++ be_enc 4 (len data) ++ concat (map (fun d => be_enc 4 (len d)) data)) ++ concat data ++ footer)).
    { apply stored_at_app. rewrite Lw, <- Es. split; [exact St|]. rewrite Le. apply stored_at_app. split; [exact St2|exact St3]. }
    destruct All as (pre & rest & E & Lp). apply len_zero in Lp. subst pre. exists data, footer, rest.
    split; [rewrite E; rewrite <- !app_assoc; reflexivity|]. split; [intros ->; apply Ln; rewrite <- Ed; reflexivity|].
    split; [lia|]. split; [|split; [tauto|exact F]].
    apply Forall_forall. intros d Hd. rewrite Forall_forall in G. apply (G (len d)). rewrite <- Ed. apply in_map. exact Hd.
  - intros (data & footer & rest & E & Ln & Ll & Ls & Lf & F).
    assert (H1 : ck_read_header content = Ok (map len data, 8 + 4 * len data)).
    { apply cook_iff; [exact Hb|]. rewrite len_map. split; [destruct data; [contradiction|discriminate]|]. split; [exact Ll|].
      split; [|split; [|reflexivity]].
      - apply Forall_forall. intros n Hn. apply in_map_iff in Hn. destruct Hn as (d & <- & Hd). rewrite Forall_forall in Ls. 
        split; [apply len_nonneg|apply Ls; exact Hd].
      - exists [], (concat data ++ footer ++ rest). rewrite E, map_map. rewrite <- !app_assoc. split; reflexivity. }
    rewrite H1. cbn [bind].
    assert (Le : len (s2z "cook" ++ be_enc 4 (len data) ++ concat (map (fun d => be_enc 4 (len d)) data)) = 8 + 4 * len data).
    { rewrite !len_app, len_be_enc. change (len (s2z "cook")) with 4. 
      assert (len (concat (map (fun d : list Z => be_enc 4 (len d)) data)) = 4 * len data); [|lia].
      clear. induction data as [|d data IH]; [reflexivity|]. cbn [map concat]. rewrite len_app, IH, len_be_enc, len_cons. lia. }
    assert (Sd : stored_at content (8 + 4 * len data) (concat data)).
    { exists (s2z "cook" ++ be_enc 4 (len data) ++ concat (map (fun d => be_enc 4 (len d)) data)), (footer ++ rest).
      rewrite <- !app_assoc. split; [exact E|rewrite app_assoc in Le; rewrite app_assoc; exact Le]. }
    pose proof (stored_at_inside _ _ _ Sd) as [_ I1]. pose proof (len_nonneg data). pose proof (len_nonneg (concat data)).
    assert (H2 : ck_read_pages content (8 + 4 * len data) (map len data) = Ok (pages, 8 + 4 * len data + len (concat data))).
    { apply ck_read_pages_iff; [exact Hb| |lia|exists data; auto]. apply Forall_forall. intros n Hn. apply in_map_iff in Hn.
      destruct Hn as (d & <- & _). apply len_nonneg. }
    rewrite H2. cbn [bind].
    assert (H3 : read_struct content [FB 8] (8 + 4 * len data + len (concat data)) = Ok [VB footer]).
    { apply read_struct_iff; [assumption..|cbn; lia|].
      assert (Sf : stored_at content (8 + 4 * len data + len (concat data)) footer).
      { exists (s2z "cook" ++ be_enc 4 (len data) ++ concat (map (fun d => be_enc 4 (len d)) data) ++ concat data), rest.
        rewrite <- !app_assoc. split; [exact E|]. rewrite !len_app in *. lia. }
      split; [cbn [enc_struct enc_field]; rewrite app_nil_r; exact Sf|]. apply Forall2_cons; [|apply Forall2_nil].
      split; [exact Lf|]. eapply is_bytes_stored; eassumption. }
    rewrite H3. reflexivity.
Qed.
Print Assumptions C57_file.

(** Everything else is a ParseError. *)
Theorem C57_errors : forall content e, is_bytes content -> read_cookies content = Err e -> e = ParseError.
Proof.
  intros content e Hb. unfold read_cookies.
  assert (Ps : forall page off e, 0 <= off -> ck_string page off = Err e -> e = ParseError).
  { intros page off e' _. unfold ck_string. destruct (zskipn off page); [cbn; congruence|]. destruct (cstring_end _); [|cbn; congruence].
    destruct (forallb _ _); cbn; congruence. }
  assert (Pv : forall page ro off e, ck_value_string page ro off = Err e -> e = ParseError).
  { intros page ro off e'. unfold ck_value_string. destruct (off =? 0); [discriminate|]. unfold ck_string. destruct (zskipn _ page); [cbn; congruence|].
    destruct (cstring_end _); [|cbn; congruence]. destruct (forallb _ _); cbn; congruence. }
  assert (Pr : forall page off e, is_bytes page -> ck_read_record page off = Err e -> e = ParseError).
  { intros page off e' Hp. unfold ck_read_record. destruct (struct_bs _ _) as [vs|x] eqn:E.
    - cbn [as_parse_error bind]. apply struct_bs_iff in E; [|apply is_bytes_zskipn; exact Hp|apply ck_layout_wf|cbn; lia].
      destruct E as (r & _ & F). destruct (ck_record_vals vs F) as (a & b & c & d & u & f & g & h & i & j & k & -> & _).
      destruct (ck_value_string page off u) eqn:E1; cbn [bind]; [|injection 1 as <-; eapply Pv; eassumption].
      destruct (ck_value_string page off f) eqn:E2; cbn [bind]; [|injection 1 as <-; eapply Pv; eassumption].
      destruct (ck_value_string page off g) eqn:E3; cbn [bind]; [|injection 1 as <-; eapply Pv; eassumption].
      destruct (ck_value_string page off h) eqn:E4; cbn [bind]; [|injection 1 as <-; eapply Pv; eassumption]. discriminate.
    - apply struct_bs_errors in E. destruct E as [->|[-> _]]; cbn; congruence. }
  assert (Pg : forall pos n e, ck_read_page content pos n = Err e -> e = ParseError).
  { intros pos n e'. unfold ck_read_page. unfold read_next. set (d := zfirstn n (zskipn pos content)).
    destruct (len d =? n); [|cbn; congruence]. cbn [bind].
    assert (Hd : is_bytes d) by (apply is_bytes_zfirstn, is_bytes_zskipn, Hb).
    unfold struct_seq_bs. destruct (struct_bs _ d) as [vs|x] eqn:E.
    - cbn [bind]. destruct (map_struct _ _) as [l|]; [|cbn; congruence]. cbn [as_parse_error bind].
      destruct (mapr _ _) as [cs|x] eqn:E2; cbn [bind]; [discriminate|]. injection 1 as <-.
      apply mapr_errors in E2. destruct E2 as (o & _ & Eo). eapply Pr; eassumption.
    - apply struct_bs_errors in E. destruct E as [->|[-> _]]; cbn; congruence. }
  assert (Pgs : forall sizes pos e, ck_read_pages content pos sizes = Err e -> e = ParseError).
  { induction sizes as [|n sizes IH]; intros pos e'; cbn [ck_read_pages]; [discriminate|].
    destruct (ck_read_page content pos n) as [[l p]|x] eqn:E; cbn [bind]; [|injection 1 as <-; eapply Pg; eassumption].
    destruct (ck_read_pages content p sizes) as [[ls p']|x] eqn:E2; cbn [bind]; [discriminate|]. injection 1 as <-. eapply IH; eassumption. }
  destruct (ck_read_header content) as [[sizes p]|x] eqn:E; cbn [bind].
  - apply cook_iff in E; [|exact Hb]. destruct E as (_ & _ & G & _ & ->).
    destruct (ck_read_pages content _ sizes) as [[ls p]|x] eqn:E2; cbn [bind]; [|injection 1 as <-; eapply Pgs; eassumption].
    destruct (read_struct content [FB 8] p) eqn:E3; cbn [bind]; [discriminate|]. injection 1 as <-.
    apply read_struct_errors in E3. destruct E3 as [[_ E3]|[E3 _]]; [|exact E3]. exfalso.
    assert (X : forall sizes pos ls p, Forall (fun z => 0 <= z < 2 ^ 32) sizes -> 0 <= pos -> ck_read_pages content pos sizes = Ok (ls, p) -> 0 <= p).
    { clear. induction sizes as [|n sizes IH]; intros pos ls p G Hp; cbn [ck_read_pages]; [intros H; assert (p = pos) by congruence; lia|].
      pose proof (Forall_inv G) as Gn. cbv beta in Gn.
      destruct (ck_read_page content pos n) as [[l q]|] eqn:E; [|discriminate]. cbn [bind].
      unfold ck_read_page, read_next in E. destruct (_ =? n) in E; [|discriminate]. cbn [bind] in E.
      destruct (as_parse_error _) as [[? ?]|] in E; [|discriminate]. cbn [bind] in E. destruct (mapr _ _) in E; [|discriminate]. cbn [bind] in E.
      assert (q = pos + n) by congruence.
      destruct (ck_read_pages content q sizes) as [[ls' p']|] eqn:E2; [|discriminate]. cbn [bind]. intros H1. assert (p' = p) by congruence. subst p'.
      eapply IH; [exact (Forall_inv_tail G)| |exact E2]. lia. }
    pose proof (len_nonneg sizes). specialize (X sizes (8 + 4 * len sizes) ls p G ltac:(lia) E2). lia.
  - injection 1 as <-. unfold ck_read_header in E. destruct (read_struct content [FB 4; FU BE 4] 0) as [vs|y] eqn:E0.
    + apply read_struct_iff in E0; [|exact Hb|repeat (apply Forall_cons; [exact I|]); apply Forall_nil|cbn; lia].
      destruct E0 as [_ F]. inv2 F. destruct v; [contradiction|]. destruct v0; [|contradiction]. cbn [bind] in E.
      destruct (list_eqb _ _) in E; cbn [guard bind] in E; [|congruence].
      destruct (as_parse_error _) as [l|y] eqn:E1 in E; cbn [bind] in E; [discriminate|]. apply seq_bs_errors in E1. congruence.
    + cbn [bind] in E. apply read_struct_errors in E0. destruct E0 as [[_ E0]|[E0 _]]; [lia|congruence].
Qed.
Print Assumptions C57_errors.

(** A file of the format without pages (no cookies) is rejected. *)
Theorem C57_no_pages_refuted : forall rest, read_cookies (s2z "cook" ++ be_enc 4 0 ++ rest) = Err ParseError.
Proof.
  intros rest. unfold read_cookies, ck_read_header.
  change (s2z "cook" ++ be_enc 4 0 ++ rest) with ([] ++ enc_struct [FB 4; FU BE 4] [VB (s2z "cook"); VI 0] ++ rest).
  rewrite read_struct_enc; [|repeat (apply Forall2_cons; [cbn; repeat split; try lia; repeat (apply Forall_cons; [cbv; split; congruence|]); apply Forall_nil|]); apply Forall2_nil|reflexivity].
  cbn [bind guard]. rewrite list_eqb_refl. cbn [guard bind]. rewrite zfirstn_0 by lia. reflexivity.
Qed.
Print Assumptions C57_no_pages_refuted.

(** A page with two records; the first has no path, the second shares the first one's name. *)
Definition ex_cookie (url name path value : Z) : bytes :=
  le_enc 4 56 ++ le_enc 4 0 ++ le_enc 4 5 ++ le_enc 4 0 ++ le_enc 4 url ++ le_enc 4 name ++ le_enc 4 path ++ le_enc 4 value ++ le_enc 8 0 ++ repeat 0 16.
Definition ex_cookie_page : bytes :=
  le_enc 4 256 ++ le_enc 4 2 ++ le_enc 4 16 ++ le_enc 4 80 ++
  ex_cookie 56 60 0 62 ++ s2z "a.b" ++ [0] ++ s2z "n" ++ [0] ++ s2z "v" ++ [0] ++
  ex_cookie 56 60 58 62 ++ s2z "c" ++ [0] ++ s2z "/" ++ [0] ++ s2z "m" ++ [0] ++ s2z "w" ++ [0] ++ le_enc 4 0.

Example C57_case :
  read_cookies (s2z "cook" ++ be_enc 4 2 ++ be_enc 4 (len ex_cookie_page) ++ be_enc 4 12 ++ ex_cookie_page ++
                le_enc 4 256 ++ le_enc 4 0 ++ le_enc 4 0 ++ repeat 7 8) =
    Ok [[mkcookie (s2z "a.b") (s2z "n") [] (s2z "v"); mkcookie (s2z "c") (s2z "m") (s2z "/") (s2z "w")]; []] /\
  read_cookies (s2z "cook" ++ be_enc 4 1 ++ be_enc 4 8 ++ le_enc 4 256 ++ le_enc 4 1 ++ repeat 7 8) = Err ParseError.
Proof. vm_compute. repeat split. Qed.

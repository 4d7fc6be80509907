From Verif Require Import Base BaseFacts CoreModel CoreProofs VarModel VarFacts SeqModel SeqSpec SeqFacts StructFacts StrModel StrFacts DictModel TextModel RdModel.
From Verif Require Import GzipModel WmiModel WmiSpec WmiMapProofs WmiIdxProofs WcdModel WcmModel WciModel WcrModel WdbModel WdbSpec.

(** ** Numbers *)

Lemma unpack_len s : len s <> 2 -> unpack s = Err ValueError.
Proof.
  intros H. unfold unpack. destruct s as [|a [|b [|c s]]]; try reflexivity. contradiction H. reflexivity.
Qed.

Lemma fmt_d_small n : 0 <= n < 100 -> (n < 10 /\ len (fmt_d n) = 1) \/ (10 <= n /\ fmt_d n = [48 + n / 10; 48 + n mod 10]).
Proof.
  intros H.
  assert (T : forallb (fun k => let n := Z.of_nat k in if n <? 10 then len (fmt_d n) =? 1 else list_eqb (fmt_d n) [48 + n / 10; 48 + n mod 10]) (seq 0 100) = true)
    by (vm_compute; reflexivity).
  rewrite forallb_forall in T. specialize (T (Z.to_nat n) ltac:(apply in_seq; lia)). cbn zeta in T. rewrite Z2Nat.id in T by lia.
  destruct (Z.ltb_spec n 10); [left|right]; (split; [lia|]).
  - apply Z.eqb_eq, T.
  - apply list_eqb_eq, T.
Qed.

Lemma fmt_d_big n : 100 <= n -> 2 < len (fmt_d n).
Proof.
  intros H. unfold fmt_d, fmt_int. destruct (Z.ltb_spec n 0); [lia|]. rewrite Z.abs_eq by lia. cbn [app].
  destruct (digits_spec 10 n ltac:(lia) ltac:(lia)) as (F & V & N). rewrite len_app, len_map.
  assert (2 < len (digits 10 n)).
  { destruct (digits 10 n) as [|a [|b [|c l]]]; [contradiction| | |rewrite !len_cons; pose proof (len_nonneg l); lia].
    - apply Forall_inv in F. cbv [dig_value fold_left] in V. lia.
    - pose proof (Forall_inv F) as F1. pose proof (Forall_inv (Forall_inv_tail F)) as F2. cbv [dig_value fold_left] in V. cbv beta in *. lia. }
  match goal with |- context [repeat ?a ?b] => pose proof (len_nonneg (repeat a b)) end. lia.
Qed.

Lemma unavailable_text n : unpack (s2z "0x"%string ++ fmt_x 8 n ++ s2z " (unavailable)"%string) = Err ValueError.
Proof.
  apply unpack_len. rewrite !len_app. pose proof (len_nonneg (fmt_x 8 n)). change (len (s2z "0x"%string)) with 2. change (len (s2z " (unavailable)"%string)) with 14. lia.
Qed.

Lemma number_ok u n : 0 <= n -> (forall m, In m u -> ~ two_digits m) -> two_digits n -> unpack (page_number_text u n) = Ok [48 + n / 10].
Proof.
  intros Hn Hu [A B]. unfold page_number_text. destruct (existsb (Z.eqb n) u) eqn:E.
  { exfalso. apply existsb_exists in E as (m & Hm & Em). apply Z.eqb_eq in Em as <-. apply (Hu n Hm). split; assumption. }
  destruct (fmt_d_small n ltac:(lia)) as [[C _]|[_ ->]]; [lia|]. reflexivity.
Qed.

Lemma number_bad u n : 0 <= n -> ~ two_digits n -> unpack (page_number_text u n) = Err ValueError.
Proof.
  intros Hn N. unfold two_digits in N. unfold page_number_text. destruct (existsb (Z.eqb n) u); [apply unavailable_text|]. apply unpack_len.
  destruct (Z_lt_ge_dec n 100) as [L|L].
  - destruct (fmt_d_small n ltac:(lia)) as [[_ ->]|[C _]]; lia.
  - pose proof (fmt_d_big n ltac:(lia)). lia.
Qed.

Lemma offset_bad n : unpack (format_offset n) = Err ValueError.
Proof.
  apply unpack_len. unfold format_offset. rewrite !len_app. pose proof (len_nonneg (fmt_d n)). pose proof (len_nonneg (fmt_x 8 n)).
  change (len [32; 40; 48; 120]) with 4. change (len [41]) with 1. lia.
Qed.

Lemma debug_offset_bad d n : debug_offset d n = Err ValueError.
Proof. unfold debug_offset. rewrite offset_bad. reflexivity. Qed.

Definition number_line (d : str) (n : Z) : str := d ++ alignment_string d ++ [58; 32] ++ [48 + n / 10] ++ [10].

Definition no_two (u : list Z) : Prop := forall m, In m u -> ~ two_digits m.

Lemma two_dec n : two_digits n \/ ~ two_digits n.
Proof. unfold two_digits. lia. Qed.

Lemma debug_number_ok u d n : no_two u -> two_digits n -> debug_number u d n = Ok (number_line d n).
Proof. intros Hu H. unfold debug_number. rewrite (number_ok u n ltac:(unfold two_digits in H; lia) Hu H). reflexivity. Qed.

Lemma debug_number_bad u d n : 0 <= n -> ~ two_digits n -> debug_number u d n = Err ValueError.
Proof. intros Hn H. unfold debug_number. rewrite (number_bad u n Hn H). reflexivity. Qed.

Lemma no_two_index : no_two [0; 0xffffffff].
Proof. intros m [<-|[<-|[]]]; unfold two_digits; lia. Qed.

Lemma no_two_map : no_two [0xffffffff].
Proof. intros m [<-|[]]; unfold two_digits; lia. Qed.

(** ** Lists *)

Lemma enum_bad {A B} (f : Z -> A -> result B) e i x l : (forall i x, In x l -> f i x = Err e \/ exists y, f i x = Ok y) -> In x l -> (forall i, f i x = Err e) ->
  enum f i l = Err e.
Proof.
  revert i. induction l as [|z l IH]; intros i H Hx Hf; [contradiction|]. cbn [enum].
  destruct (H i z (or_introl eq_refl)) as [->|(y & Hy)]; [reflexivity|]. rewrite Hy. cbn [bind].
  destruct Hx as [->|Hx]; [rewrite Hf in Hy; discriminate|]. rewrite IH; auto. intros j w Hw. apply H. right. exact Hw.
Qed.

Lemma enum_offsets (f : Z -> str) l : l <> [] -> enum (fun i => debug_offset (f i)) 0 l = Err ValueError.
Proof. intros N. destruct l as [|x l]; [contradiction|]. cbn [enum]. rewrite debug_offset_bad. reflexivity. Qed.

Lemma enum_numbers u (f : Z -> str) i l : no_two u -> Forall (fun n => 0 <= n) l ->
  (Forall two_digits l /\ exists s, enum (fun i => debug_number u (f i)) i l = Ok s /\ length s = length l) \/
  (~ Forall two_digits l /\ enum (fun i => debug_number u (f i)) i l = Err ValueError).
Proof.
  intros Hu. revert i. induction l as [|n l IH]; intros i F.
  - left. split; [constructor|]. exists []. split; reflexivity.
  - pose proof (Forall_inv F) as Fn. apply Forall_inv_tail in F. cbn beta in Fn. destruct (two_dec n) as [T|T].
    + destruct (IH (i + 1) F) as [[G (s & E & L)]|[G E]].
      * left. split; [constructor; assumption|]. exists (number_line (f i) n :: s). cbn [enum]. rewrite (debug_number_ok u (f i) n Hu T). cbn [bind]. rewrite E. cbn [bind length]. rewrite L. split; reflexivity.
      * right. split; [intros X; apply G; inversion X; assumption|]. cbn [enum]. rewrite (debug_number_ok u (f i) n Hu T). cbn [bind]. rewrite E. reflexivity.
    + right. split; [intros X; apply T; inversion X; assumption|]. cbn [enum]. rewrite (debug_number_bad u (f i) n Fn T). reflexivity.
Qed.

(** ** Pages *)

Definition sub_line (n : Z) : str := number_line (s2z "Sub page: 0 mapped page number"%string) n.

Lemma debug_body_cases subs ko vo : Forall is_u32 subs -> len subs = len ko + 1 ->
  (exists n, two_digits n /\ subs = [n] /\ ko = [] /\ vo = [] /\ debug_body subs ko vo = Ok [sub_line n]) \/
  ((ko <> [] \/ vo <> [] \/ ~ Forall two_digits subs) /\ debug_body subs ko vo = Err ValueError).
Proof.
  intros F L. unfold debug_body.
  assert (F0 : Forall (fun n => 0 <= n) subs) by (eapply Forall_impl; [|exact F]; unfold is_u32; intros; lia).
  destruct (enum_numbers [0; 0xffffffff] (fun i => s2z "Sub page: "%string ++ fmt_d i ++ s2z " mapped page number"%string) 0 subs no_two_index F0) as [[G (s & E & _)]|[G E]].
  2: { right. split; [tauto|]. rewrite E. reflexivity. }
  destruct ko as [|k ko].
  2: { right. split; [left; discriminate|]. rewrite E. cbn [bind]. rewrite enum_offsets by discriminate. reflexivity. }
  destruct vo as [|v vo].
  2: { right. split; [right; left; discriminate|]. rewrite E. cbn [bind enum]. rewrite debug_offset_bad. reflexivity. }
  left. destruct subs as [|n [|m subs]]; [discriminate L| |rewrite !len_cons in L; pose proof (len_nonneg subs); change (len (@nil Z)) with 0 in L; lia].
  apply Forall_inv in G. exists n. repeat (split; [first [exact G|reflexivity]|]). cbn [enum] in *. rewrite (debug_number_ok _ _ n no_two_index G). reflexivity.
Qed.

Lemma lone_body_iff n d : is_bytes d -> two_digits n ->
  (lone_body n d <-> exists kd vd, body_layout [n] [] kd [] vd d).
Proof.
  intros Hb T. unfold two_digits in T. split.
  - intros (ks & kd & vd & rest & Hk & Lk & Lv & ->). exists kd, vd, 0, ks, [], rest.
    assert (is_u32 0 /\ is_u32 n /\ is_u16 (len (@nil Z))) as (U0 & Un & U1) by (unfold is_u32, is_u16; change (len (@nil Z)) with 0; lia).
    repeat (split; [first [assumption|reflexivity|constructor; auto|auto]|]). unfold enc_ints. cbn [map concat enc_field enc_int app]. rewrite !app_nil_r. reflexivity.
  - intros (kd & vd & nk & ks & unk & rest & Hn & Lu & Ls & Lk & Hks & Lkd & _ & Lvd & _ & _ & _ & _ & ->).
    change (len (@nil Z)) with 0 in *. subst nk. symmetry in Lk. apply len_zero in Lk as ->. exists ks, kd, vd, rest. repeat (split; [assumption|]).
    unfold enc_ints. cbn [map concat enc_field enc_int app]. rewrite !app_nil_r. reflexivity.
Qed.

Lemma page_of_start type body d : page_of type body d -> body = zskipn 16 d.
Proof.
  intros (_ & _ & a & b & c & _ & _ & _ & ->). rewrite (four_app _ _ _ _ body). rewrite zskipn_app_len; [reflexivity|rewrite !len_app, !len_le_enc; reflexivity].
Qed.

(** The same page is read, without keys. *)
Lemma debug_page_ok content off l p : is_bytes content -> 0 <= off <= len content -> debug_index_page content off = Ok (l, p) ->
  index_page content off = Ok p /\ wp_keys p = [] /\
  (wp_type p <> 0xaccc /\ l = [] /\ wp_subs p = [] \/ wp_type p = 0xaccc /\ exists n, two_digits n /\ l = [sub_line n] /\ wp_subs p = [n]) /\
  exists d, stored_at content off d /\ debug_page d.
Proof.
  intros Hb Ho. unfold debug_index_page, index_page.
  destruct (read_next content off 8192) as [[d q]|] eqn:R; cbn [bind]; [|discriminate].
  apply read_next_iff in R as (St & L & _); [|lia|lia]. pose proof (is_bytes_stored _ _ _ Hb St) as Hd.
  destruct (struct_bs _ _) as [vs|] eqn:H; cbn [bind]; [|discriminate].
  apply page_header in H as (a & b & c & e & -> & Ha & Hb' & Hc & He & E); [|exact Hd|exact L].
  assert (Po : page_of a (zskipn 16 d) d) by (split; [exact L|]; split; [exact Ha|]; exists b, c, e; auto).
  destruct (Z.eqb_spec a 0xaccc) as [->|N].
  2: { intros [= <- <-]. cbn [wp_keys wp_type wp_subs]. repeat split; auto. exists d. split; [exact St|]. exists a, (zskipn 16 d). split; [exact Po|tauto]. }
  destruct (page_body (zskipn 16 d)) as [[[[[subs ko] kd] vo] vd]|] eqn:B; cbn [bind]; [|discriminate].
  apply page_body_iff in B; [|apply is_bytes_zskipn, Hd].
  assert (F : Forall is_u32 subs /\ len subs = len ko + 1) by (destruct B as (nk & ? & ? & ? & B); split; [tauto|]; destruct B as (_ & _ & B1 & B2 & _); lia).
  destruct (debug_body_cases subs ko vo (proj1 F) (proj2 F)) as [(n & T & -> & -> & -> & D)|[_ D]]; rewrite D; cbn [bind]; [|discriminate].
  cbn [enum mapr bind map app]. change (mapr (key_path []) []) with (@Ok (list str) []). cbn [bind].
  assert (Fi : filter (fun n => negb (existsb (Z.eqb n) [0; 0xffffffff])) [n] = [n]).
  { cbn [filter]. destruct (existsb (Z.eqb n) [0; 0xffffffff]) eqn:X; [|reflexivity]. exfalso. apply drop_spec in X. unfold is_page, two_digits in *. apply X. lia. }
  rewrite Fi. intros H. assert (l = [sub_line n] /\ p = mkwpage 0xaccc e [n] []) as [-> ->] by (split; congruence). cbn [wp_keys wp_type wp_subs]. split; [reflexivity|]. split; [reflexivity|].
  split; [right; split; [reflexivity|]; exists n; auto|]. exists d. split; [exact St|]. exists 0xaccc, (zskipn 16 d). split; [exact Po|]. intros _. exists n. split; [exact T|].
  apply lone_body_iff; [apply is_bytes_zskipn, Hd|exact T|]. exists kd, vd. exact B.
Qed.

Lemma debug_page_complete content off d : is_bytes content -> 0 <= off <= len content -> stored_at content off d -> debug_page d ->
  exists r, debug_index_page content off = Ok r.
Proof.
  intros Hb Ho St (ty & body & Po & H). pose proof (is_bytes_stored _ _ _ Hb St) as Hd. pose proof (page_of_start _ _ _ Po) as ->.
  destruct Po as (L & Ht & a & b & c & Ha & Hb' & Hc & E). unfold debug_index_page.
  rewrite (proj2 (read_next_iff content off 8192 d (off + 8192) Ho ltac:(lia))) by auto. cbn [bind].
  rewrite (proj2 (page_header d [VI ty; VI a; VI b; VI c] Hd L)) by (exists ty, a, b, c; auto 10). cbn [bind].
  destruct (Z.eqb_spec ty 0xaccc) as [->|N]; [|eauto].
  destruct (H eq_refl) as (n & T & B). apply lone_body_iff in B as (kd & vd & B); [|apply is_bytes_zskipn, Hd|exact T].
  pose proof B as B'. apply page_body_iff in B'; [|apply is_bytes_zskipn, Hd]. rewrite B'. cbn [bind].
  assert (F : Forall is_u32 [n]) by (destruct B as (? & ? & ? & ? & B); tauto).
  destruct (debug_body_cases [n] [] [] F eq_refl) as [(m & _ & _ & _ & _ & ->)|[[X|[X|X]] _]]; [|contradiction X; reflexivity|contradiction X; reflexivity|contradiction X; auto].
  cbn [bind enum mapr map app]. change (mapr (key_path []) []) with (@Ok (list str) []). cbn [bind]. eauto.
Qed.

Lemma debug_page_error content off p : is_bytes content -> 0 <= off <= len content -> index_page content off = Ok p ->
  (forall d, stored_at content off d -> len d = 8192 -> ~ debug_page d) -> debug_index_page content off = Err ValueError.
Proof.
  intros Hb Ho E H. destruct (debug_index_page content off) as [[l q]|e] eqn:D.
  { apply debug_page_ok in D as (_ & _ & _ & d & St & P); [|exact Hb|exact Ho]. exfalso. apply (H d); [exact St| |exact P]. destruct P as (? & ? & (L & _) & _). exact L. }
  revert E D. unfold debug_index_page, index_page.
  destruct (read_next content off 8192) as [[d q]|] eqn:R; cbn [bind]; [|discriminate].
  apply read_next_iff in R as (St & L & _); [|lia|lia]. pose proof (is_bytes_stored _ _ _ Hb St) as Hd.
  destruct (struct_bs _ _) as [vs|] eqn:V; cbn [bind]; [|discriminate].
  apply page_header in V as (a & b & c & e' & -> & Ha & Hb' & Hc & He & E); [|exact Hd|exact L].
  destruct (Z.eqb_spec a 0xaccc) as [->|N]; [|discriminate].
  destruct (page_body (zskipn 16 d)) as [[[[[subs ko] kd] vo] vd]|] eqn:B; cbn [bind]; [|discriminate].
  apply page_body_iff in B; [|apply is_bytes_zskipn, Hd].
  assert (F : Forall is_u32 subs /\ len subs = len ko + 1) by (destruct B as (nk & ? & ? & ? & B); split; [tauto|]; destruct B as (_ & _ & B1 & B2 & _); lia).
  destruct (debug_body_cases subs ko vo (proj1 F) (proj2 F)) as [(n & T & -> & -> & -> & D)|[_ D]]; rewrite D; cbn [bind]; [|congruence].
  cbn [enum mapr bind map app]. change (mapr (key_path []) []) with (@Ok (list str) []). cbn [bind]. discriminate.
Qed.

(** ** The file *)

Lemma debug_pages_iff n : forall content off, is_bytes content -> 0 <= off -> off + 8192 * (Z.of_nat n - 1) <= len content ->
  ((exists r, debug_pages n content off = Ok r) <-> forall i, 0 <= i < Z.of_nat n -> exists d, stored_at content (off + i * 8192) d /\ debug_page d).
Proof.
  induction n as [|n IH]; intros content off Hb Ho L; cbn [debug_pages].
  { split; [intros _ i Hi; lia|eauto]. }
  split.
  - intros (r & E). destruct (debug_index_page content off) as [[l p]|] eqn:D; cbn [bind] in E; [|discriminate].
    apply debug_page_ok in D as (_ & _ & _ & d & St & P); [|exact Hb|lia].
    destruct (debug_pages n content (off + 8192)) as [r'|] eqn:D'; cbn [bind] in E; [|discriminate].
    pose proof (proj1 (IH content (off + 8192) Hb ltac:(lia) ltac:(lia)) (ex_intro _ _ D')) as G.
    intros i Hi. destruct (Z.eq_dec i 0) as [->|Ni]; [exists d; rewrite Z.mul_0_l, Z.add_0_r; auto|].
    destruct (G (i - 1) ltac:(lia)) as (d' & St' & P'). exists d'. split; [|exact P']. replace (off + i * 8192) with (off + 8192 + (i - 1) * 8192) by lia. exact St'.
  - intros G. destruct (G 0 ltac:(lia)) as (d & St & P). rewrite Z.mul_0_l, Z.add_0_r in St.
    destruct (debug_page_complete content off d Hb ltac:(lia) St P) as ([l p] & ->). cbn [bind].
    pose proof (stored_at_inside _ _ _ St) as [_ I].
    destruct (proj2 (IH content (off + 8192) Hb ltac:(lia) ltac:(lia))) as (r & ->); [|cbn [bind]; eauto].
    intros i Hi. destruct (G (i + 1) ltac:(lia)) as (d' & St' & P'). exists d'. split; [|exact P']. replace (off + 8192 + i * 8192) with (off + (i + 1) * 8192) by lia. exact St'.
Qed.

Lemma debug_open_iff content : is_bytes content ->
  ((exists r, debug_index_open content = Ok r) <->
   len content mod 8192 = 0 /\ forall i, 0 <= i -> i * 8192 < len content -> exists d, stored_at content (i * 8192) d /\ debug_page d).
Proof.
  intros Hb. unfold debug_index_open. pose proof (len_nonneg content) as L.
  pose proof (Z.div_mod (len content + 8191) 8192 ltac:(lia)) as E. pose proof (Z.mod_pos_bound (len content + 8191) 8192 ltac:(lia)) as B.
  set (n := (len content + 8191) / 8192) in *. assert (0 <= n) by (apply Z.div_pos; lia).
  rewrite (debug_pages_iff (Z.to_nat n) content 0 Hb ltac:(lia)) by (rewrite Z2Nat.id by lia; lia). rewrite Z2Nat.id by lia. split.
  - intros G. split.
    + destruct (Z.eq_dec n 0) as [Z0|Nz]; [rewrite Z0 in E; assert (len content = 0) as -> by lia; reflexivity|].
      destruct (G (n - 1) ltac:(lia)) as (d & St & ty & body & (Ld & _) & _). apply stored_at_inside in St as [_ I]. rewrite Ld in I.
      replace (len content) with (n * 8192) by lia. apply Z.mod_mul. lia.
    + intros i Hi Li. apply (G i). lia.
  - intros [M G] i Hi. apply (G i); [lia|]. pose proof (Z.div_mod (len content) 8192 ltac:(lia)). nia.
Qed.

(** ** Keys *)

Lemma pyindex_in {A} (l : list A) i x : pyindex l i = Ok x -> In x l.
Proof.
  unfold pyindex. set (j := if i <? 0 then i + len l else i). destruct (Z.ltb_spec j 0); [discriminate|]. rewrite znth_error_nth by lia. destruct (nth_error l (Z.to_nat j)) eqn:Q; [|discriminate]. intros E'. injection E' as ->. eapply nth_error_In, Q.
Qed.

Lemma debug_mapped_keys table content n p : is_bytes content -> Forall is_u32 table -> debug_mapped_page table content n = Ok (Some p) -> wp_keys p = [] .
Proof.
  intros Hb Hu. unfold debug_mapped_page. destruct (resolve table n) as [q|] eqn:R; cbn [bind]; [|discriminate].
  destruct (Z.leb_spec (len content) (q * 8192)) as [|Lt]; [discriminate|].
  destruct (debug_index_page content (q * 8192)) as [[l p']|] eqn:D; cbn [bind]; [|discriminate]. intros H. assert (p' = p) as -> by congruence.
  assert (Hq : 0 <= q).
  { assert (In q table) as I by (eapply pyindex_in; exact R).
    rewrite Forall_forall in Hu. apply Hu in I. unfold is_u32 in I. lia. }
  apply debug_page_ok in D as (_ & K & _); [exact K|exact Hb|lia].
Qed.

Definition debug_subs (f : option wpage -> run (list str)) (table : list Z) (content : bytes) :=
  fix subs (l : list Z) : run (list str) :=
  match l with
  | [] => Done (Ok [])
  | n :: l =>
      match debug_mapped_page table content n with
      | Err e => Done (Err e)
      | Ok q => rdo a <- f q; rdo b <- subs l; Done (Ok (a ++ b))
      end
  end.

Lemma debug_page_keys_S fuel table content p : debug_page_keys (S fuel) table content (Some p) =
  rdo l <- debug_subs (debug_page_keys fuel table content) table content (wp_subs p); Done (Ok (wp_keys p ++ l)).
Proof. reflexivity. Qed.

Lemma debug_page_keys_nil fuel : forall table content p l, is_bytes content -> Forall is_u32 table ->
  (forall q, p = Some q -> wp_keys q = []) -> debug_page_keys fuel table content p = Done (Ok l) -> l = [].
Proof.
  induction fuel as [|fuel IH]; intros table content [p|] l Hb Hu K; [discriminate|intros [= <-]; reflexivity| |intros [= <-]; reflexivity].
  rewrite debug_page_keys_S, (K p eq_refl).
  assert (G : forall s r, debug_subs (debug_page_keys fuel table content) table content s = Done (Ok r) -> r = []).
  { induction s as [|n s IHs]; intros r; cbn [debug_subs]; fold (debug_subs (debug_page_keys fuel table content) table content).
    - intros [= <-]. reflexivity.
    - destruct (debug_mapped_page table content n) as [q|] eqn:M; [|discriminate].
      destruct (debug_page_keys fuel table content q) as [[a|]|] eqn:A; try discriminate.
      destruct (debug_subs _ table content s) as [[b|]|] eqn:B; try discriminate. intros [= <-].
      rewrite (IHs b eq_refl). rewrite (IH table content q a Hb Hu); [reflexivity| |exact A].
      intros q' ->. eapply debug_mapped_keys; eauto. }
  destruct (debug_subs _ table content (wp_subs p)) as [[r|]|] eqn:E; try discriminate. intros [= <-]. apply (G (wp_subs p)), E.
Qed.

Lemma debug_index_keys_nil fuel v21 table content l : is_bytes content -> Forall is_u32 table -> debug_index_keys fuel v21 table content = Done (Ok l) -> l = [].
Proof.
  intros Hb Hu. unfold debug_index_keys. destruct (debug_index_root v21 table content) as [p|] eqn:R; [|discriminate].
  apply debug_page_keys_nil; [exact Hb|exact Hu|]. intros q ->. unfold debug_index_root in R.
  match type of R with (do _ <- ?x; _) = _ => destruct x as [root|]; cbn [bind] in R; [|discriminate] end.
  eapply debug_mapped_keys; eauto.
Qed.

(** What is listed is listed without debug output. *)
Lemma debug_mapped_same table content n p : is_bytes content -> Forall is_u32 table -> debug_mapped_page table content n = Ok p -> mapped_index_page table content n = Ok p.
Proof.
  intros Hb Hu. unfold debug_mapped_page, mapped_index_page, get_index_page. destruct (resolve table n) as [q|] eqn:R; cbn [bind]; [|discriminate].
  destruct (Z.leb_spec (len content) (q * 8192)) as [|Lt]; [intros Q; exact Q|].
  destruct (debug_index_page content (q * 8192)) as [[l p']|] eqn:D; cbn [bind]; [|discriminate]. intros H. injection H as <-.
  assert (Hq : 0 <= q).
  { assert (In q table) as I by (eapply pyindex_in; exact R).
    rewrite Forall_forall in Hu. apply Hu in I. unfold is_u32 in I. lia. }
  apply debug_page_ok in D as (E & _); [rewrite E; reflexivity|exact Hb|lia].
Qed.

Definition plain_subs (f : option wpage -> run (list str)) (table : list Z) (content : bytes) :=
  fix subs (l : list Z) : run (list str) :=
  match l with
  | [] => Done (Ok [])
  | n :: l =>
      match mapped_index_page table content n with
      | Err e => Done (Err e)
      | Ok q => rdo a <- f q; rdo b <- subs l; Done (Ok (a ++ b))
      end
  end.

Lemma page_keys_S fuel table content p : page_keys (S fuel) table content (Some p) =
  rdo l <- plain_subs (page_keys fuel table content) table content (wp_subs p); Done (Ok (wp_keys p ++ l)).
Proof. reflexivity. Qed.

Lemma debug_page_keys_same fuel : forall table content p l, is_bytes content -> Forall is_u32 table ->
  debug_page_keys fuel table content p = Done (Ok l) -> page_keys fuel table content p = Done (Ok l).
Proof.
  induction fuel as [|fuel IH]; intros table content [p|] l Hb Hu; [discriminate|intros H; exact H| |intros H; exact H].
  rewrite debug_page_keys_S, page_keys_S.
  assert (G : forall s r, debug_subs (debug_page_keys fuel table content) table content s = Done (Ok r) -> plain_subs (page_keys fuel table content) table content s = Done (Ok r)).
  { induction s as [|n s IHs]; intros r; cbn [debug_subs plain_subs]; fold (debug_subs (debug_page_keys fuel table content) table content);
      fold (plain_subs (page_keys fuel table content) table content); [intros H; exact H|].
    destruct (debug_mapped_page table content n) as [q|] eqn:M; [|discriminate]. rewrite (debug_mapped_same _ _ _ _ Hb Hu M).
    destruct (debug_page_keys fuel table content q) as [[a|]|] eqn:A; try discriminate. rewrite (IH table content q a Hb Hu A).
    destruct (debug_subs _ table content s) as [[b|]|] eqn:B; try discriminate. rewrite (IHs b eq_refl). intros H. exact H. }
  destruct (debug_subs _ table content (wp_subs p)) as [[r|]|] eqn:E; try discriminate. rewrite (G _ _ E). intros H. exact H.
Qed.

Lemma debug_index_keys_same fuel v21 table content l : is_bytes content -> Forall is_u32 table ->
  debug_index_keys fuel v21 table content = Done (Ok l) -> index_keys fuel v21 table content = Done (Ok l).
Proof.
  intros Hb Hu. unfold debug_index_keys, index_keys. destruct (debug_index_root v21 table content) as [p|] eqn:R; [|discriminate].
  assert (Q : index_root v21 table content = Ok p).
  { unfold debug_index_root in R. unfold index_root. destruct v21.
    - destruct (debug_mapped_page table content 0) as [q|] eqn:M; cbn [bind] in R; [|discriminate]. rewrite (debug_mapped_same _ _ _ _ Hb Hu M). cbn [bind].
      destruct q as [q|]; [|discriminate]. destruct (guard (wp_type q =? 0xaddd) RuntimeError) as [u|]; cbn [bind] in *; [|discriminate].
      apply debug_mapped_same; assumption.
    - cbn [bind] in *. apply debug_mapped_same; assumption. }
  rewrite Q. apply debug_page_keys_same; assumption.
Qed.

(** The root page has a key. *)
Lemma debug_root_error table content p : is_bytes content -> Forall is_u32 table -> is_mapped_page table content 1 p -> wp_keys p <> [] ->
  forall fuel, debug_index_keys fuel false table content = Done (Err ValueError).
Proof.
  intros Hb Hu (q & d & M & St & P) K fuel. unfold debug_index_keys, debug_index_root. cbn [bind]. unfold debug_mapped_page.
  pose proof (mapped_u32 _ _ _ Hu M) as Hq. unfold is_u32 in Hq. apply (mapped_iff table 1 q ltac:(lia)) in M. rewrite M. cbn [bind].
  pose proof (stored_at_inside _ _ _ St) as [_ I]. rewrite (proj1 P) in I. destruct (Z.leb_spec (len content) (q * 8192)); [lia|].
  assert (E : index_page content (q * 8192) = Ok p) by (apply index_page_iff; [exact Hb|lia|eauto]).
  rewrite (debug_page_error content (q * 8192) p Hb ltac:(lia) E); [reflexivity|]. intros d' St' L' D.
  destruct (debug_page_complete content (q * 8192) d' Hb ltac:(lia) St' D) as ([l p'] & R).
  apply debug_page_ok in R as (R & K' & _); [|exact Hb|lia]. congruence.
Qed.

(** ** Mapping files *)

Lemma entries_u32 pad l d : entries pad l d -> Forall is_u32 l.
Proof. induction 1; constructor; assumption. Qed.

Lemma debug_unknown_cases l : Forall is_u32 l ->
  (Forall two_digits l /\ exists s, debug_unknown l = Ok s /\ length s = length l) \/ (~ Forall two_digits l /\ debug_unknown l = Err ValueError).
Proof.
  intros F. unfold debug_unknown. apply (enum_numbers [0xffffffff] (fun i => s2z "  Entry: "%string ++ fmt_d i ++ s2z " page number"%string)); [exact no_two_map|].
  eapply Forall_impl; [|exact F]. unfold is_u32. intros; lia.
Qed.

Lemma read_table_u32 content off l n : is_bytes content -> 0 <= off -> read_table 4 content off = Ok (l, n) -> Forall is_u32 l /\ 0 <= n.
Proof.
  intros Hb Ho E. apply (read_table_iff 4 0) in E as (d & _ & (_ & d' & _ & En) & ->); [|exact Hb|exact Ho|lia|lia].
  split; [eapply entries_u32, En|apply len_nonneg].
Qed.

Lemma read_table_pos size content off l n : is_bytes content -> 0 <= off -> 4 <= size -> read_table size content off = Ok (l, n) -> 0 <= n.
Proof.
  intros Hb Ho Hs E. apply (read_table_iff size (size - 4)) in E as (d & _ & _ & ->); [apply len_nonneg|exact Hb|exact Ho|lia|lia].
Qed.

Lemma entry_size_4 v : 4 <= map_entry_size v.
Proof. unfold map_entry_size. destruct (v =? 1); lia. Qed.

Lemma debug_tables_sound v content off s r : debug_map_tables v content off = Ok (s, r) -> read_map_tables v content off = Ok r.
Proof.
  unfold debug_map_tables, read_map_tables. destruct (read_table (map_entry_size v) content off) as [[t n]|]; cbn [bind]; [|discriminate].
  destruct (read_table 4 content (off + n)) as [[u m]|]; cbn [bind]; [|discriminate]. destruct (debug_unknown u) as [l|]; cbn [bind]; [|discriminate].
  destruct (read_struct _ _ _) as [[|[z|] [|]]|]; cbn [bind]; try discriminate. destruct (z =? 0xdcba); cbn [guard bind]; [|discriminate]. intros H. congruence.
Qed.

Lemma debug_tables_cases v content off r : is_bytes content -> 0 <= off -> read_map_tables v content off = Ok r ->
  (exists s, debug_map_tables v content off = Ok (s, r)) \/ debug_map_tables v content off = Err ValueError.
Proof.
  intros Hb Ho. unfold debug_map_tables, read_map_tables. destruct (read_table (map_entry_size v) content off) as [[t n]|] eqn:E1; cbn [bind]; [|discriminate].
  pose proof (read_table_pos _ _ _ _ _ Hb Ho (entry_size_4 v) E1).
  destruct (read_table 4 content (off + n)) as [[u m]|] eqn:E2; cbn [bind]; [|discriminate]. apply read_table_u32 in E2 as [F _]; [|exact Hb|lia].
  destruct (debug_unknown_cases u F) as [[_ (s & -> & _)]|[_ ->]]; cbn [bind]; [|auto].
  destruct (read_struct _ _ _) as [[|[z|] [|]]|]; cbn [bind]; try discriminate. destruct (z =? 0xdcba); cbn [guard bind]; [|discriminate]. intros [= <-]. left. eauto.
Qed.

Lemma debug_map_sound content s m : debug_map content = Ok (s, m) -> read_map content = Ok m.
Proof.
  unfold debug_map, read_map, read_map_again. destruct (map_version content) as [v|]; cbn [bind]; [|discriminate].
  destruct (read_map_header v content 0) as [[|[q|] r]|]; cbn [bind]; try discriminate.
  destruct (debug_map_tables v content (map_header_size v)) as [[l [t p]]|] eqn:D; cbn [bind]; [|discriminate].
  rewrite (debug_tables_sound _ _ _ _ _ D). cbn [bind]. destruct (_ || _); [|congruence].
  destruct (read_map_header v content p) as [r'|e].
  - destruct (debug_map_tables v content (p + map_header_size v)) as [[l' [t' p']]|] eqn:D'; cbn [bind]; [|discriminate].
    rewrite (debug_tables_sound _ _ _ _ _ D'). cbn [bind fst]. congruence.
  - destruct e; try discriminate. destruct (v =? 2); [discriminate|congruence].
Qed.

Lemma tables_pos v content off l p : is_bytes content -> 0 <= off -> read_map_tables v content off = Ok (l, p) -> 0 <= p.
Proof. intros Hb Ho E. apply read_map_tables_iff in E as (d & _ & _ & ->); [|exact Hb|exact Ho]. pose proof (len_nonneg d). lia. Qed.

Lemma header_size_pos v : 0 <= map_header_size v.
Proof. unfold map_header_size. destruct (v =? 1); lia. Qed.

Lemma debug_map_cases content m : is_bytes content -> read_map content = Ok m -> (exists s, debug_map content = Ok (s, m)) \/ debug_map content = Err ValueError.
Proof.
  intros Hb. unfold debug_map, read_map, read_map_again. destruct (map_version content) as [v|]; cbn [bind]; [|discriminate].
  pose proof (header_size_pos v) as Hv.
  destruct (read_map_header v content 0) as [[|[q|] r]|]; cbn [bind]; try discriminate.
  destruct (read_map_tables v content (map_header_size v)) as [[t p]|] eqn:E; cbn [bind]; [|discriminate].
  pose proof (tables_pos _ _ _ _ _ Hb Hv E) as Hp.
  destruct (debug_tables_cases _ _ _ _ Hb Hv E) as [(s & ->)| ->]; cbn [bind]; [|auto].
  destruct (_ || _); [|intros [= <-]; eauto].
  destruct (read_map_header v content p) as [r'|e].
  - destruct (read_map_tables v content (p + map_header_size v)) as [[t' p']|] eqn:E'; cbn [bind]; [|discriminate].
    destruct (debug_tables_cases v content (p + map_header_size v) (t', p') Hb ltac:(lia) E') as [(s' & ->)| ->]; cbn [bind]; [|auto]. intros [= <-]. eauto.
  - destruct e; try discriminate. destruct (v =? 2); [discriminate|]. intros [= <-]. eauto.
Qed.

(** An entry of the unknown table that does not have two digits. *)
Lemma debug_map_error v s h l t unknown u rest content : is_bytes content -> content = h ++ t ++ u ++ rest ->
  map_head v s h -> table_bytes (if v =? 1 then 0 else 20) l t -> table_bytes 0 unknown u ->
  v = 2 /\ version2 content \/ v = 1 /\ ~ version2 content -> ~ Forall two_digits unknown -> debug_map content = Err ValueError.
Proof.
  intros Hb P Hh Ht Hu V N. pose proof (head_len _ _ _ Hh) as Lh. pose proof (len_nonneg h) as Lh0. pose proof (len_nonneg t) as Lt0.
  assert (Hp : 0 <= (if v =? 1 then 0 else 20)) by (destruct (v =? 1); lia).
  assert (Hs : map_entry_size v = 4 + (if v =? 1 then 0 else 20)) by (unfold map_entry_size; destruct (v =? 1); reflexivity).
  pose proof (table_len _ _ _ Hp Ht) as Lt. pose proof (table_len 0 _ _ ltac:(lia) Hu) as Lu.
  assert (Nn : 1 <= len unknown) by (destruct unknown as [|x k]; [contradiction N; constructor|rewrite len_cons; pose proof (len_nonneg k); lia]).
  pose proof (len_nonneg l) as Ll.
  assert (Sall : stored_at content 0 (h ++ (t ++ u))) by (exists [], rest; rewrite P, <- !app_assoc; auto).
  assert (Ev : map_version content = Ok v).
  { destruct (map_version_total v s h (t ++ u) content Hb Hh Sall) as [w W]; [rewrite len_app; nia|]. rewrite W.
    apply (proj1 (map_version_iff content w Hb)) in W. f_equal. destruct V as [[-> ?]|[-> ?]], W as [[-> ?]|[-> ?]]; tauto. }
  apply stored_at_app in Sall as [Sh St]. cbn [Z.add] in St. apply stored_at_app in St as [St Su]. rewrite Lh in *.
  unfold debug_map. rewrite Ev. cbn [bind]. destruct (read_map_header_complete v s h content 0 Hb Sh Hh) as [r R]. rewrite R. cbn [bind].
  unfold debug_map_tables. rewrite (proj2 (read_table_iff _ _ content (map_header_size v) l (len t) Hb ltac:(lia) Hp Hs)) by eauto. cbn [bind].
  rewrite (proj2 (read_table_iff 4 0 content (map_header_size v + len t) unknown (len u) Hb ltac:(lia) ltac:(lia) ltac:(lia))) by eauto. cbn [bind].
  destruct Hu as (_ & d' & _ & En). destruct (debug_unknown_cases unknown (entries_u32 _ _ _ En)) as [[X _]|[_ ->]]; [contradiction|reflexivity].
Qed.

Lemma debug_map_single s h l t unknown u content : is_bytes content -> content = h ++ t ++ u ++ le_enc 4 0xdcba ->
  map_head 1 s h -> table_bytes 0 l t -> table_bytes 0 unknown u -> ~ version2 content -> Forall two_digits unknown ->
  exists lines, debug_map content = Ok (lines, mkmapfile 1 s l None) /\ length lines = length unknown.
Proof.
  intros Hb P Hh Ht Hu V N. pose proof (head_len _ _ _ Hh) as Lh. change (map_header_size 1) with 12 in Lh. pose proof (len_nonneg t) as Lt0.
  pose proof (table_len 0 _ _ ltac:(lia) Ht) as Lt. pose proof (table_len 0 _ _ ltac:(lia) Hu) as Lu. pose proof (len_nonneg unknown) as Nn. pose proof (len_nonneg l) as Ll.
  assert (Sall : stored_at content 0 (h ++ (t ++ u ++ le_enc 4 0xdcba))) by (exists [], []; rewrite P, app_nil_r; auto).
  assert (Ev : map_version content = Ok 1).
  { destruct (map_version_total 1 s h (t ++ u ++ le_enc 4 0xdcba) content Hb Hh Sall) as [w W]; [rewrite !len_app, len_le_enc; nia|]. rewrite W.
    apply (proj1 (map_version_iff content w Hb)) in W. f_equal. destruct W as [[-> ?]|[-> ?]]; tauto. }
  apply stored_at_app in Sall as [Sh St]. cbn [Z.add] in St. apply stored_at_app in St as [St Su]. apply stored_at_app in Su as [Su Sf]. rewrite Lh in *.
  unfold debug_map. rewrite Ev. cbn [bind]. destruct (read_map_header_complete 1 s h content 0 Hb Sh Hh) as [r R]. rewrite R. cbn [bind].
  change (map_header_size 1) with 12. unfold debug_map_tables at 1. change (map_entry_size 1) with 4.
  rewrite (proj2 (read_table_iff 4 0 content 12 l (len t) Hb ltac:(lia) ltac:(lia) ltac:(lia))) by eauto. cbn [bind].
  rewrite (proj2 (read_table_iff 4 0 content (12 + len t) unknown (len u) Hb ltac:(lia) ltac:(lia) ltac:(lia))) by eauto. cbn [bind].
  destruct Hu as (_ & d' & _ & En). destruct (debug_unknown_cases unknown (entries_u32 _ _ _ En)) as [[_ (lines & -> & L)]|[X _]]; [|contradiction]. cbn [bind].
  rewrite (proj2 (read_struct_iff content [FU LE 4] (12 + len t + len u) [VI 0xdcba] Hb ltac:(kinds_wf) ltac:(cbn; lia))).
  2: { split; [|repeat constructor; cbn; lia]. cbn [enc_struct enc_field enc_int app]. rewrite app_nil_r. exact Sf. }
  cbn [bind]. change (0xdcba =? 0xdcba) with true. cbn [guard bind]. change (1 =? 2) with false. cbn [orb].
  destruct (Z.ltb_spec (12 + len t + len u + 4) (len content)) as [X|_]; [|eauto].
  rewrite P, !len_app, len_le_enc, Lh in X. lia.
Qed.

(** ** Repository file *)

Lemma debug_cell_error content off c : rd_cell content off = Ok c -> debug_cell content off = Err ValueError.
Proof. intros E. unfold debug_cell. rewrite E. destruct c as [c p]. cbn [bind]. rewrite debug_offset_bad. reflexivity. Qed.

Lemma debug_cell_never content off c : debug_cell content off <> Ok c.
Proof. unfold debug_cell. destruct (rd_cell content off) as [[c' p]|]; cbn [bind]; [|discriminate]. rewrite debug_offset_bad. discriminate. Qed.

Lemma debug_find_cells_ok fuel content h off number next root system r :
  debug_find_cells fuel content h off number next root system = Done (Ok r) -> r = (root, system) /\ len content <= off.
Proof.
  destruct fuel as [|fuel]; cbn [debug_find_cells]; (destruct (Z.ltb_spec off (len content)); [|intros [= <-]; auto]); [discriminate|].
  destruct (next_bin content off next) as [[o n]|]; [|discriminate]. cbn beta iota delta [rbind].
  destruct (debug_cell content o) as [[c p]|] eqn:E; [exfalso; eapply debug_cell_never, E|intros X; discriminate X].
Qed.

Lemma debug_rep_ok fuel content r : debug_rep_file fuel content = Done (Ok r) -> r = (None, None) /\ len content <= 40.
Proof.
  unfold debug_rep_file. destruct (rd_rheader content 0) as [[h p]|]; [|discriminate]. apply debug_find_cells_ok.
Qed.

Lemma debug_rep_error fuel content r : 40 < len content -> rep_file fuel content = Done (Ok r) -> debug_rep_file fuel content = Done (Err ValueError).
Proof.
  intros L. unfold rep_file, debug_rep_file. destruct (rd_rheader content 0) as [[h p]|]; [|discriminate]. cbn beta iota delta [rbind].
  destruct fuel as [|fuel]; cbn [find_cells debug_find_cells]; (destruct (Z.ltb_spec 40 (len content)); [|lia]); [discriminate|].
  destruct (next_bin content 40 (rh_bin h)) as [[o n]|]; [|discriminate]. cbn beta iota delta [rbind].
  destruct (rd_cell content o) as [c|] eqn:E; [|discriminate]. rewrite (debug_cell_error _ _ _ E). reflexivity.
Qed.

(** ** Objects *)

Lemma debug_instance_never ansi cm data r : debug_instance ansi cm data <> Ok r.
Proof.
  unfold debug_instance, debug_instance_head. destruct (rd_stream_size _ data) as [[b off]|]; cbn [bind]; [|discriminate].
  match goal with |- context [do x <- (if ?c then ?u else ?w); _] => destruct (if c then u else w) as [off'|]; cbn [bind]; [|discriminate] end.
  destruct (rd_stream _ _) as [u|]; cbn [bind]; [|discriminate]. rewrite debug_offset_bad. discriminate.
Qed.

Lemma debug_instance_error ansi cm data r : instance ansi cm data = Ok r -> debug_instance ansi cm data = Err ValueError.
Proof.
  unfold debug_instance, debug_instance_head, instance, instance_head. destruct (rd_stream_size _ data) as [[b off]|]; cbn [bind]; [|discriminate].
  match goal with |- context [do x <- (if ?c then ?u else ?w); _] => destruct (if c then u else w) as [off'|]; cbn [bind]; [|discriminate] end.
  destruct (rd_stream _ _) as [u|]; cbn [bind]; [|discriminate]. rewrite debug_offset_bad. reflexivity.
Qed.

Lemma sdict_set_nonempty {A} k (v : A) t : sdict_set k v t <> [].
Proof. destruct t as [|[k' v'] t]; cbn [sdict_set]; [discriminate|]. destruct (list_eqb k' k); discriminate. Qed.

Lemma properties_nonempty ansi lower values l : forall t r, t <> [] -> properties ansi lower values l t = Ok r -> r <> [].
Proof.
  induction l as [|[a b] l IH]; intros t r N; cbn [properties]; [intros [= <-]; exact N|].
  destruct (name_at ansi a values) as [name|]; cbn [bind]; [|discriminate]. destruct (rd_stream rd_pdef _) as [p|]; cbn [bind]; [|discriminate].
  destruct (qualifiers _ _ _ _) as [q|]; cbn [bind]; [|discriminate]. apply IH, sdict_set_nonempty.
Qed.

Lemma properties_nil ansi lower values l r : properties ansi lower values l [] = Ok r -> (r = [] <-> l = []).
Proof.
  destruct l as [|[a b] l]; cbn [properties]; [intros [= <-]; tauto|].
  destruct (name_at ansi a values) as [name|]; cbn [bind]; [|discriminate]. destruct (rd_stream rd_pdef _) as [p|]; cbn [bind]; [|discriminate].
  destruct (qualifiers _ _ _ _) as [q|]; cbn [bind]; [|discriminate]. intros H. apply properties_nonempty in H; [|apply sdict_set_nonempty]. split; [contradiction|discriminate].
Qed.

Lemma debug_class_cases ansi lower data c : class_block ansi lower data = Ok c ->
  debug_class_block ansi lower data = if (len (c_props c) =? 0) then Ok c else Err ValueError.
Proof.
  unfold class_block, debug_class_block. destruct (rd_stream rd_cblock data) as [b|]; cbn [bind]; [|discriminate].
  destruct (cim_string ansi (cb_name b) (cb_values b)) as [name|]; cbn [bind]; [|discriminate].
  match goal with |- context [do x <- (if ?c then ?u else ?w); _] => destruct (if c then u else w) as [sup|]; cbn [bind]; [|discriminate] end.
  match goal with |- context [do x <- (if ?c then ?u else ?w); _] => destruct (if c then u else w) as [qs|]; cbn [bind]; [|discriminate] end.
  destruct (properties _ _ _ _ _) as [ps|] eqn:P; cbn [bind]; [|discriminate]. intros [= <-]. cbn [c_props].
  apply properties_nil in P. destruct (cb_descs b) as [|[x y] l] eqn:D.
  - rewrite (proj2 P eq_refl). reflexivity.
  - destruct (Z.eqb_spec (len ps) 0) as [X|X]; [apply len_zero in X; apply P in X; discriminate|].
    cbn [enum]. unfold debug_descriptor. cbn [fst]. rewrite offset_bad. reflexivity.
Qed.

Lemma debug_class_sound ansi lower data c : debug_class_block ansi lower data = Ok c -> class_block ansi lower data = Ok c.
Proof.
  unfold class_block, debug_class_block. destruct (rd_stream rd_cblock data) as [b|]; cbn [bind]; [|discriminate]. destruct (enum _ _ _); cbn [bind]; [auto|discriminate].
Qed.

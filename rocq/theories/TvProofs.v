From Verif Require Import Base BaseFacts CoreModel CoreProofs StrModel StrFacts SeqModel SeqSpec SeqFacts DictModel RdModel RdSpec RdFacts StructFacts TvModel TvSpec.
From Coq Require String.
Import String.StringSyntax.

Lemma reads_t16 : reads (rd_int (FU LE 2)) (fun v d => n16 v /\ d = le_enc 2 v).
Proof. apply reads_int. cbn. lia. Qed.
Lemma reads_t32 : reads (rd_int (FU LE 4)) (fun v d => n32 v /\ d = le_enc 4 v).
Proof. apply reads_int. cbn. lia. Qed.
Lemma reads_t64 : reads (rd_int (FU LE 8)) (fun v d => n64 v /\ d = le_enc 8 v).
Proof. apply reads_int. cbn. lia. Qed.
Lemma reads_t8 : reads (rd_int (FU LE 1)) (fun v d => n8 v /\ d = [v]).
Proof.
  eapply reads_iff; [apply (reads_int (FU LE 1)); cbn; lia|]. intros v d _. cbv beta.
  assert (E : 0 <= v < 256 -> enc_field (FU LE 1) (VI v) = [v]) by (intros H; cbn; rewrite Z.mod_small by lia; reflexivity).
  unfold n8. change (2 ^ 8) with 256. split.
  - intros [H ->]. cbn in H. split; [lia|]. apply E. lia.
  - intros [H ->]. split; [cbn; lia|]. symmetry. apply E. lia.
Qed.

Ltac tv_reads_with tac := match goal with
  | |- reads (rd_bind _ _) _ => eapply reads_bind; [tv_reads_with tac|intros ?; tv_reads_with tac]
  | |- reads (rd_int (FU LE 1)) _ => apply reads_t8
  | |- reads (rd_int (FU LE 2)) _ => apply reads_t16
  | |- reads (rd_int (FU LE 4)) _ => apply reads_t32
  | |- reads (rd_int (FU LE 8)) _ => apply reads_t64
  | |- reads (rd_times _ _) _ => eapply reads_times; tv_reads_with tac
  | |- _ => first [solve [tac]|reads_tac tac]
  end.
Ltac tv_reads := tv_reads_with fail.

Lemma reads_chunk : reads rd_chunk (fun x d => chunk_head (fst x) (snd x) d).
Proof.
  eapply reads_iff.
  { unfold rd_chunk. eapply reads_bind; [apply reads_t32|intros tag]. eapply reads_bind; [apply reads_t32|intros sub].
    eapply reads_bind; [apply reads_t64|intros size]. apply reads_ret. }
  intros [tag size] d _. cbv beta. cbn [fst snd]. unfold chunk_head. split.
  - intros H. rel_out. assert (x = tag /\ x5 = size) as [-> ->] by (split; congruence). split; [assumption|]. split; [assumption|]. exists x2. split; [assumption|].
    rewrite ?app_nil_r. reflexivity.
  - intros (A & B & sub & C & ->). eexists tag, _, _. split; [split; [exact A|reflexivity]|]. split; [|reflexivity].
    eexists sub, _, _. split; [split; [exact C|reflexivity]|]. split; [|reflexivity].
    eexists size, _, _. split; [split; [exact B|reflexivity]|]. split; [split; reflexivity|]. rewrite app_nil_r. reflexivity.
Qed.

Lemma solid_chunk : solid rd_chunk.
Proof. apply solid_bind, solid_int. cbn. lia. Qed.

Ltac put x := eexists x, _, _; split; [first [exact (conj eq_refl eq_refl) | (split; [eassumption|reflexivity]) | eassumption]|split; [|reflexivity]].

Lemma by_range_iff type : existsb (Z.eqb type) item_ranges = true <-> by_range type.
Proof. rewrite existsb_exists. unfold by_range. split; [intros (y & I & E); apply Z.eqb_eq in E; subst; exact I|intros I; exists type; split; [exact I|apply Z.eqb_refl]]. Qed.

Lemma by_range_n8 type : by_range type -> n8 type.
Proof. unfold by_range, n8. cbn. intuition lia. Qed.

Lemma reads_item : reads rd_item item_bytes.
Proof.
  unfold rd_item. eapply reads_iff.
  { eapply reads_bind; [apply reads_t8|intros type]. eapply reads_bind; [apply reads_t8|intros size].
    instantiate (1 := fun size i d => if existsb (Z.eqb type) item_ranges
      then size = 4 /\ exists o n, n16 o /\ n16 n /\ i = TRange type o n /\ d = le_enc 2 o ++ le_enc 2 n
      else exists data, len data = size /\ i = TInline type data /\ d = data). cbv beta.
    destruct (existsb (Z.eqb type) item_ranges).
    - eapply reads_iff; [tv_reads|]. intros i d _. cbv beta. split.
      + intros H. rel_out. match goal with H : (size =? 4) = true |- _ => apply Z.eqb_eq in H end. split; [assumption|]. eexists x2, x5. split; [assumption|]. split; [assumption|].
        split; [reflexivity|]. cbn [app]. rewrite app_nil_r. reflexivity.
      + intros (-> & o & n & A & B & -> & ->). eexists tt, [], _. split; [split; reflexivity|]. split; [|reflexivity]. put o. put n. split; reflexivity.
    - eapply reads_iff; [tv_reads|]. intros i d _. cbv beta. split.
      + intros H. rel_out. eexists. split; [reflexivity|]. split; [reflexivity|]. apply app_nil_r.
      + intros (data & A & -> & ->). eexists data, data, []. split; [split; [assumption|reflexivity]|]. split; [split; reflexivity|]. now rewrite app_nil_r. }
  intros i d _. cbv beta. split.
  - intros (type & d1 & d2 & [T ->] & (size & d3 & d4 & [Sz ->] & H & ->) & ->). destruct (existsb (Z.eqb type) item_ranges) eqn:B.
    + apply by_range_iff in B. destruct H as (-> & o & n & A & N & -> & ->). apply (ib_range type o n); assumption.
    + destruct H as (data & <- & -> & ->). apply (ib_inline type data); [assumption| |assumption]. rewrite <- by_range_iff. congruence.
  - intros [type o n R O N|type data T R N].
    + exists type, [type], ([4] ++ le_enc 2 o ++ le_enc 2 n). split; [split; [apply by_range_n8; exact R|reflexivity]|]. split; [|reflexivity].
      exists 4, [4], (le_enc 2 o ++ le_enc 2 n). split; [split; [unfold n8; lia|reflexivity]|]. split; [|reflexivity].
      apply by_range_iff in R. rewrite R. split; [reflexivity|]. eauto 6.
    + exists type, [type], ([len data] ++ data). split; [split; [exact T|reflexivity]|]. split; [|reflexivity].
      exists (len data), [len data], data. split; [split; [exact N|reflexivity]|]. split; [|reflexivity].
      destruct (existsb (Z.eqb type) item_ranges) eqn:B; [apply by_range_iff in B; contradiction|]. eauto.
Qed.

Lemma reads_oversize : reads rd_oversize (fun x d => exists o size private h i,
  x = (ov_upper o, ov_lower o, ov_ttl o, ov_time o, ov_reference o, size, private, ov_items o) /\ oversize_head o size private h /\ items_bytes (ov_items o) i /\ d = h ++ i).
Proof.
  unfold rd_oversize. eapply reads_iff; [tv_reads_with ltac:(apply reads_item)|]. intros x d _. cbv beta. split.
  - intros H. rel_out.
    exists (mkov x0 x3 x6 x15 x18 x33 [] []), x21, x24. eexists _, ([x27; x30] ++ concat x36). split; [reflexivity|]. split; [|split].
    + unfold oversize_head. cbn [ov_upper ov_lower ov_ttl ov_time ov_reference]. repeat (split; [assumption|]). exists x9, x12. split; [assumption|]. split; [assumption|]. reflexivity.
    + cbn [ov_items]. exists x27, x36. assert (L : len x33 = x30) by (unfold len; unfold n8 in *; lia). rewrite L. auto.
    + rewrite app_nil_r. repeat rewrite <- app_assoc. reflexivity.
  - intros (o & size & private & h & i & -> & (A1 & A2 & A3 & A4 & A5 & A6 & A7 & u1 & u2 & A8 & A9 & ->) & (u3 & ds & A10 & A11 & F & ->) & ->).
    repeat rewrite <- app_assoc. put (ov_upper o). put (ov_lower o). put (ov_ttl o). put u1. put u2. put (ov_time o). put (ov_reference o). put size. put private. put u3. put (len (ov_items o)).
    exists (ov_items o), (concat ds), []. split; [split; [unfold len; lia|eauto]|]. split; [auto|]. now rewrite app_nil_r.
Qed.

Lemma head_len o size private h : oversize_head o size private h -> len h = 32.
Proof. intros (_ & _ & _ & _ & _ & _ & _ & u1 & u2 & _ & _ & ->). rewrite !len_app, !len_le_enc. reflexivity. Qed.

Lemma read_oversize_iff data o : is_bytes data -> (read_oversize data = Ok o <-> oversize_bytes o data).
Proof.
  intros Hb. destruct (reads_oversize data 0 Hb ltac:(pose proof (len_nonneg data); lia)) as [R _]. unfold read_oversize. split.
  - destruct (0 <? len data); cbn [guard bind]; [|discriminate].
    destruct (rd_oversize data 0) as [[[[[[[[[a b] c] d] e] f] g] it] p]|x] eqn:E; cbn [bind]; [|discriminate]. intros H.
    destruct (proj1 (R _ _) eq_refl) as (d' & (o' & size & private & h & i & X & Hh & Hi & ->) & S & P).
    injection X as -> -> -> -> -> -> -> ->. pose proof Hh as Hs. destruct Hs as (_ & _ & _ & _ & _ & S1 & S2 & _). unfold n16 in *.
    apply stored_at_from in S; [|pose proof (len_nonneg data); lia]. rewrite zskipn_0 in S by lia. destruct S as [rest ->].
    pose proof (len_nonneg (h ++ i)).
    exists size, private, h, i, rest. rewrite <- app_assoc in *. injection H as <-. split; [exact Hh|]. split; [exact Hi|]. split; [reflexivity|].
    cbn [ov_values ov_private]. rewrite !pyslice_nonneg by lia. rewrite app_assoc. subst p. rewrite Z.add_0_l.
    rewrite zskipn_app_len by reflexivity. split; [f_equal; lia|].
    rewrite <- zskipn_zskipn by lia. rewrite zskipn_app_len by reflexivity. f_equal. lia.
  - intros (size & private & h & i & rest & Hh & Hi & -> & V & P). pose proof Hh as Hs. destruct Hs as (_ & _ & _ & _ & _ & S1 & S2 & _). unfold n16 in *.
    pose proof (head_len _ _ _ _ Hh). pose proof (len_nonneg i). pose proof (len_nonneg rest).
    replace (0 <? len (h ++ i ++ rest)) with true by (symmetry; apply Z.ltb_lt; rewrite !len_app; lia). cbn [guard bind].
    rewrite (proj2 (R (ov_upper o, ov_lower o, ov_ttl o, ov_time o, ov_reference o, size, private, ov_items o) (len (h ++ i)))).
    2: { exists (h ++ i). split; [exists o, size, private, h, i; auto|]. split; [|lia]. exists [], rest. split; [now rewrite <- app_assoc|reflexivity]. }
    cbn [bind]. pose proof (len_nonneg (h ++ i)).
    rewrite !pyslice_nonneg by lia. rewrite app_assoc. rewrite <- zskipn_zskipn by lia. rewrite zskipn_app_len by reflexivity.
    replace (len (h ++ i) + size - len (h ++ i)) with size by lia. replace (len (h ++ i) + size + private - (len (h ++ i) + size)) with private by lia.
    rewrite <- V, <- P. destruct o; reflexivity.
Qed.

Lemma read_oversize_errors data x : is_bytes data -> read_oversize data = Err x -> (data = [] /\ x = ValueError) \/ (data <> [] /\ x = ParseError).
Proof.
  intros Hb. destruct (reads_oversize data 0 Hb ltac:(pose proof (len_nonneg data); lia)) as [_ R]. unfold read_oversize.
  destruct (Z.ltb_spec 0 (len data)) as [L|L]; cbn [guard bind].
  - destruct (rd_oversize data 0) as [[[[[[[[[a b] c] d] e] f] g] it] p]|y]; cbn [bind]; [discriminate|]. intros H. right. split; [intros ->; cbn in L; lia|]. apply R. congruence.
  - intros H. left. split; [apply len_zero; pose proof (len_nonneg data); lia|congruence].
Qed.

(** ** Alignment and slices *)

Lemma align_iff a b : tv_align a = b <-> next8 a b.
Proof.
  unfold tv_align, next8. pose proof (Z.mod_pos_bound a 8 ltac:(lia)) as M. pose proof (Z.div_mod a 8 ltac:(lia)) as D. cbv zeta. split.
  - intros <-. destruct (Z.ltb_spec 0 (a mod 8)); [split; [lia|]; exists (a / 8 + 1); lia|split; [lia|]; exists (a / 8); lia].
  - intros [B [k ->]]. destruct (Z.ltb_spec 0 (a mod 8)); lia.
Qed.

Lemma available_iff content off size d : 0 <= off <= len content -> 0 <= size -> (available content off size d <-> d = zfirstn size (zskipn off content)).
Proof.
  intros Ho Hs. unfold available. rewrite stored_at_iff. split.
  - intros ((_ & _ & E) & [L | [L1 L2]]); [subst size; symmetry; exact E|].
    rewrite <- E. rewrite !zfirstn_all; [reflexivity| |]; rewrite len_zskipn; lia.
  - intros ->. set (d := zfirstn size (zskipn off content)). assert (L : len d = Z.min size (len content - off)) by (unfold d; rewrite len_zfirstn, len_zskipn; lia).
    split; [split; [lia|split; [lia|]]|lia].
    unfold d at 2. destruct (Z.le_gt_cases size (len content - off)); [f_equal; lia|]. rewrite !zfirstn_all; [reflexivity| |]; rewrite len_zskipn; lia.
Qed.

(** ** Blocks *)

Lemma reads_block : reads rd_block (fun x d => len (fst (fst x)) = 4 /\ n32 (snd (fst x)) /\ n32 (snd x) /\ d = fst (fst x) ++ le_enc 4 (snd (fst x)) ++ le_enc 4 (snd x)).
Proof.
  eapply reads_iff; [unfold rd_block; tv_reads|]. intros [[sig u] c] d _. cbv beta. cbn [fst snd]. split.
  - intros H. rel_out. assert (x = sig /\ x2 = u /\ x5 = c) as (-> & -> & ->) by (repeat split; congruence). repeat (split; [assumption|]). now rewrite app_nil_r.
  - intros (A & B & C & ->). put sig. put u. put c. split; reflexivity.
Qed.

Lemma solid_block : solid rd_block.
Proof. apply solid_bind, solid_bytes. lia. Qed.

Lemma le_whole n d : is_bytes d -> len d = Z.of_nat n -> le_enc n (le_int d) = d /\ 0 <= le_int d < 256 ^ Z.of_nat n.
Proof.
  intros Hb L. assert (E : length d = n) by (unfold len in L; lia). rewrite <- E. split; [apply le_enc_int; exact Hb|].
  pose proof (le_int_bounds d Hb) as B. unfold len in B. exact B.
Qed.

Lemma take_bytes (d : bytes) n : 0 <= n <= len d -> exists a b, d = a ++ b /\ len a = n.
Proof. intros H. exists (zfirstn n d), (zskipn n d). split; [symmetry; apply zfirstn_zskipn|]. rewrite len_zfirstn. lia. Qed.

Lemma chunk_there content off : is_bytes content -> 0 <= off -> off + 16 <= len content -> exists tag size h, chunk_head tag size h /\ stored_at content off h /\ rd_chunk content off = Ok ((tag, size), off + 16).
Proof.
  intros Hb Ho L. pose proof (is_bytes_zskipn off content Hb) as Hs. assert (Ls : 16 <= len (zskipn off content)) by (rewrite len_zskipn; lia).
  destruct (take_bytes (zskipn off content) 16 ltac:(lia)) as (h & rest & E & Lh). rewrite E in Hs. apply Forall_app in Hs as [Hh _].
  destruct (take_bytes h 4 ltac:(lia)) as (a & h1 & -> & La). apply Forall_app in Hh as [Ha Hh]. rewrite len_app in Lh.
  destruct (take_bytes h1 4 ltac:(lia)) as (b & c & -> & Lb). apply Forall_app in Hh as [Hb' Hc]. rewrite len_app in Lh.
  destruct (le_whole 4 a Ha La) as [Ea Ba]. destruct (le_whole 4 b Hb' Lb) as [Eb Bb]. destruct (le_whole 8 c Hc ltac:(lia)) as [Ec Bc].
  assert (H : chunk_head (le_int a) (le_int c) (a ++ b ++ c)).
  { split; [exact Ba|]. split; [exact Bc|]. exists (le_int b). split; [exact Bb|]. now rewrite Ea, Eb, Ec. }
  assert (S : stored_at content off (a ++ b ++ c)) by (apply stored_at_from; [lia|]; exists rest; exact E).
  exists (le_int a), (le_int c), (a ++ b ++ c). split; [exact H|]. split; [exact S|]. apply (proj1 (reads_chunk content off Hb ltac:(lia))). exists (a ++ b ++ c).
  split; [exact H|]. split; [exact S|]. rewrite !len_app. lia.
Qed.

Lemma chunk_head_len tag size h : chunk_head tag size h -> len h = 16.
Proof. intros (_ & _ & sub & _ & ->). rewrite !len_app, !len_le_enc. reflexivity. Qed.

Lemma chunk_read content off tag size h : is_bytes content -> chunk_head tag size h -> stored_at content off h -> rd_chunk content off = Ok ((tag, size), off + 16).
Proof.
  intros Hb H S. pose proof (stored_at_inside _ _ _ S) as I. pose proof (chunk_head_len _ _ _ H) as L. apply (proj1 (reads_chunk content off Hb ltac:(lia))). exists h. rewrite L. auto.
Qed.

Lemma chunk_short content off : is_bytes content -> 0 <= off -> len content < off + 16 -> rd_chunk content off = Err ParseError.
Proof.
  intros Hb Ho L. destruct (reads_at rd_chunk _ content off reads_chunk solid_chunk Hb Ho) as [R1 R2].
  destruct (rd_chunk content off) as [[[tag size] p]|x] eqn:E; [|f_equal; apply R2; reflexivity].
  destruct (proj1 (R1 _ _) eq_refl) as (h & H & S & _). apply stored_at_inside in S. rewrite (chunk_head_len _ _ _ H) in S. lia.
Qed.

Lemma block_there content off : is_bytes content -> 0 <= off -> off + 12 <= len content ->
  exists sig u c, len sig = 4 /\ n32 u /\ n32 c /\ stored_at content off (sig ++ le_enc 4 u ++ le_enc 4 c) /\ rd_block content off = Ok ((sig, u, c), off + 12).
Proof.
  intros Hb Ho L. pose proof (is_bytes_zskipn off content Hb) as Hs. assert (Ls : 12 <= len (zskipn off content)) by (rewrite len_zskipn; lia).
  destruct (take_bytes (zskipn off content) 12 ltac:(lia)) as (h & rest & E & Lh). rewrite E in Hs. apply Forall_app in Hs as [Hh _].
  destruct (take_bytes h 4 ltac:(lia)) as (a & h1 & -> & La). apply Forall_app in Hh as [Ha Hh]. rewrite len_app in Lh.
  destruct (take_bytes h1 4 ltac:(lia)) as (b & c & -> & Lb). apply Forall_app in Hh as [Hb' Hc]. rewrite len_app in Lh.
  destruct (le_whole 4 b Hb' Lb) as [Eb Bb]. destruct (le_whole 4 c Hc ltac:(lia)) as [Ec Bc].
  assert (S : stored_at content off (a ++ b ++ c)) by (apply stored_at_from; [lia|]; exists rest; exact E).
  exists a, (le_int b), (le_int c). rewrite Eb, Ec. split; [exact La|]. split; [exact Bb|]. split; [exact Bc|]. split; [exact S|].
  apply (proj1 (reads_block content off Hb ltac:(lia))). exists (a ++ b ++ c). cbn [fst snd]. rewrite Eb, Ec. split; [auto|]. split; [exact S|]. rewrite !len_app. lia.
Qed.

Lemma block_short content off : is_bytes content -> 0 <= off -> len content < off + 12 -> rd_block content off = Err ParseError.
Proof.
  intros Hb Ho L. destruct (reads_at rd_block _ content off reads_block solid_block Hb Ho) as [R1 R2].
  destruct (rd_block content off) as [[[[sig u] c] p]|x] eqn:E; [|f_equal; apply R2; reflexivity].
  destruct (proj1 (R1 _ _) eq_refl) as (h & (A & B & C & ->) & S & _). apply stored_at_inside in S. rewrite !len_app, !len_le_enc in S. cbn [fst snd] in *. lia.
Qed.

Lemma stored_app_l content off a b : stored_at content off (a ++ b) -> stored_at content off a.
Proof. intros H. apply stored_at_app in H. tauto. Qed.

Lemma stored_prefix content off size d : stored_at content off d -> len d <= len (zfirstn size (zskipn off content)) -> zfirstn (len d) (zfirstn size (zskipn off content)) = d.
Proof.
  intros S L. apply stored_at_iff in S as (A & B & E). rewrite len_zfirstn, len_zskipn in L. pose proof (len_nonneg d).
  destruct (Z.eq_dec (len d) 0) as [Z0|Z0]; [rewrite zfirstn_0 by lia; symmetry; apply len_zero; exact Z0|].
  rewrite zfirstn_zfirstn by lia. rewrite Z.min_l by lia. exact E.
Qed.

Lemma stored_available content off size d rest : 0 <= off <= len content -> zfirstn size (zskipn off content) = d ++ rest -> stored_at content off d.
Proof.
  intros Ho E. apply stored_at_from; [exact Ho|]. exists (rest ++ zskipn size (zskipn off content)). rewrite app_assoc, <- E. symmetry. apply zfirstn_zskipn.
Qed.

Lemma slice_parts (data h m : bytes) c : zfirstn (len h) data = h -> len h = 12 \/ len h = 8 -> 0 <= c -> m <> [] ->
  (zfirstn (len m) (zskipn (len h + c) data) = m <-> exists z rest, len z = c /\ data = h ++ z ++ m ++ rest).
Proof.
  intros E Hl Hc Hm. assert (0 <= len h) by lia. split.
  - intros M. assert (L : len h + c + len m <= len data).
    { apply (f_equal len) in M. rewrite len_zfirstn, len_zskipn in M. assert (0 < len m) by (destruct m; [congruence|rewrite len_cons; pose proof (len_nonneg m); lia]). lia. }
    exists (zfirstn c (zskipn (len h) data)), (zskipn (len m) (zskipn (len h + c) data)). split; [rewrite len_zfirstn, len_zskipn; pose proof (len_nonneg m); lia|].
    rewrite <- M at 1. rewrite zfirstn_zskipn. rewrite <- zskipn_zskipn by lia. rewrite zfirstn_zskipn. rewrite <- E at 1. symmetry. apply zfirstn_zskipn.
  - intros (z' & rest & Lz & ->). rewrite <- zskipn_zskipn by lia. rewrite zskipn_app_len by reflexivity. rewrite zskipn_app_len by (symmetry; exact Lz). apply zfirstn_app_len. reflexivity.
Qed.

Lemma marker_eq : marker = s2z "bv4$"%string.
Proof. reflexivity. Qed.

Lemma marker_check content off size h c : let data := zfirstn size (zskipn off content) in
  stored_at content off h -> len h = 12 \/ len h = 8 -> 0 <= c ->
  (list_eqb (pyslice data (len h + c) (len h + c + 4)) (s2z "bv4$"%string) = true <-> exists z rest, len z = c /\ data = h ++ z ++ marker ++ rest).
Proof.
  intros data S Hl Hc. rewrite list_eqb_eq, pyslice_nonneg by lia. replace (len h + c + 4 - (len h + c)) with (len marker) by (change (len marker) with 4; lia).
  rewrite <- marker_eq. destruct (Z.le_gt_cases (len h) (len data)) as [L|L].
  - apply slice_parts; [apply stored_prefix; assumption|assumption|assumption|discriminate].
  - split.
    + intros E. rewrite zskipn_all in E by lia. discriminate E.
    + intros (z & rest & Lz & E). exfalso. rewrite E, len_app in L. pose proof (len_nonneg (z ++ marker ++ rest)). lia.
Qed.

Lemma block_head_len u c : len (block_head u c) = 12.
Proof. unfold block_head. rewrite !len_app, !len_le_enc. reflexivity. Qed.

Lemma le32_inj a b : n32 a -> n32 b -> le_enc 4 a = le_enc 4 b -> a = b.
Proof. intros A B E. apply (f_equal le_int) in E. rewrite !le_int_enc in E by assumption. exact E. Qed.

Lemma app_same_len {A} (a b c d : list A) : a ++ b = c ++ d -> len a = len c -> a = c /\ b = d.
Proof.
  intros E L. assert (zfirstn (len a) (a ++ b) = zfirstn (len a) (c ++ d)) as H by congruence.
  rewrite zfirstn_app_len in H by reflexivity. rewrite L, zfirstn_app_len in H by reflexivity. subst c. split; [reflexivity|]. apply app_inv_head in E. exact E.
Qed.

Lemma stored_same content off a b : stored_at content off a -> stored_at content off b -> len a = len b -> a = b.
Proof. rewrite !stored_at_iff. intros (_ & _ & A) (_ & _ & B) L. rewrite L in A. congruence. Qed.

Lemma block_step lz4 content off size sig u c : is_bytes content -> 0 <= off -> size < 2 ^ 63 -> len sig = 4 -> rd_block content off = Ok ((sig, u, c), off + 12) ->
  let data := zfirstn size (zskipn off content) in
  tv_block lz4 content off size =
  do (plain, stop) <-
    (if list_eqb sig (s2z "bv41"%string) then do plain <- lz4 (pyslice data 12 (12 + c)) u; Ok (plain, 12 + c)
     else if list_eqb sig (s2z "bv4-"%string) then Ok (pyslice data 8 (8 + u), 8 + u)
     else Err ParseError);
  do _ <- guard (list_eqb (pyslice data stop (stop + 4)) (s2z "bv4$"%string)) ParseError;
  Ok (plain, u).
Proof.
  intros Hb Ho Hs Ls R data. unfold tv_block. replace (size <? 2 ^ 63) with true by (symmetry; apply Z.ltb_lt; exact Hs). cbn [guard bind]. rewrite R. reflexivity.
Qed.

Lemma block_sound lz4 content off size data : is_bytes content -> 0 <= off <= len content -> 0 <= size < 2 ^ 63 -> available content off size data ->
  set_block lz4 content off data (tv_block lz4 content off size).
Proof.
  intros Hb Ho Hs A. apply available_iff in A; [|lia|lia]. destruct (Z.ltb_spec (len content) (off + 12)) as [L|L].
  { unfold tv_block. replace (size <? 2 ^ 63) with true by (symmetry; apply Z.ltb_lt; lia). cbn [guard bind]. rewrite block_short by (assumption || lia). apply sb_short. exact L. }
  destruct (block_there content off Hb ltac:(lia) L) as (sig & u & c & Ls & Hu & Hc & S & R).
  rewrite (block_step lz4 content off size sig u c) by (assumption || lia). rewrite <- A. unfold n32 in *.
  destruct (list_eqb sig (s2z "bv41"%string)) eqn:E1.
  - apply list_eqb_eq in E1. subst sig. change (stored_at content off (block_head u c)) in S.
    rewrite pyslice_nonneg by lia. replace (12 + c - 12) with c by lia.
    destruct (lz4 (zfirstn c (zskipn 12 data)) u) as [plain|e] eqn:Z4; cbn [bind]; [|apply (sb_decompress _ _ _ _ u c); assumption].
    pose proof (marker_check content off size (block_head u c) c S ltac:(left; apply block_head_len) ltac:(lia)) as M. cbv zeta in M. rewrite <- A, block_head_len in M.
    destruct (list_eqb _ _); cbn [guard bind].
    + destruct (proj1 M eq_refl) as (z & rest & Lz & E). assert (Z5 : zfirstn c (zskipn 12 data) = z).
      { rewrite E. rewrite (zskipn_app_len (block_head u c)) by (symmetry; apply block_head_len). apply zfirstn_app_len. symmetry. exact Lz. }
      rewrite Z5 in Z4. subst c. apply (sb_compressed _ _ _ _ z u plain rest); assumption.
    + apply (sb_compressed_end _ _ _ _ u c plain); try assumption. intros z rest Lz E. assert (false = true) by (apply M; eauto). discriminate.
  - destruct (list_eqb sig (s2z "bv4-"%string)) eqn:E2; cbn [bind].
    + apply list_eqb_eq in E2. subst sig. pose proof S as S'. rewrite app_assoc in S'. apply stored_app_l in S'.
      assert (L8 : len (s2z "bv4-"%string ++ le_enc 4 u) = 8) by (rewrite len_app, len_le_enc; reflexivity).
      pose proof (marker_check content off size (s2z "bv4-"%string ++ le_enc 4 u) u S' ltac:(right; exact L8) ltac:(lia)) as M. cbv zeta in M. rewrite <- A, L8 in M.
      rewrite (pyslice_nonneg data 8) by lia. replace (8 + u - 8) with u by lia. destruct (list_eqb (pyslice data (8 + u) _) _); cbn [guard bind].
      * destruct (proj1 M eq_refl) as (z & rest & Lz & E). assert (Z5 : zfirstn u (zskipn 8 data) = z).
        { rewrite E. rewrite (zskipn_app_len (s2z "bv4-"%string ++ le_enc 4 u)) by (symmetry; exact L8). apply zfirstn_app_len. symmetry. exact Lz. }
        rewrite Z5. subst u. apply (sb_plain _ _ _ _ z rest); [unfold n32; lia|]. rewrite E, <- app_assoc. reflexivity.
      * apply sb_plain_end; [apply stored_app_l in S; exact S|]. intros z rest Hz E. apply stored_app_l in S.
        assert (le_enc 4 u = le_enc 4 (len z)) as El.
        { assert (S2 : stored_at content off (s2z "bv4-"%string ++ le_enc 4 (len z))) by (eapply (stored_available content off size _ (z ++ marker ++ rest)); [lia|]; rewrite <- A, E, <- app_assoc; reflexivity).
          pose proof (stored_same _ _ _ _ S' S2 ltac:(rewrite !len_app, !len_le_enc; reflexivity)) as X. apply app_inv_head in X. exact X. }
        apply le32_inj in El; [|unfold n32; lia|assumption]. assert (false = true); [|discriminate]. apply M. exists z, rest. split; [lia|]. rewrite E, El, <- app_assoc. reflexivity.
    + apply stored_app_l in S. apply sb_other; intros S2.
      * pose proof (stored_same _ _ _ _ S S2 Ls) as X. apply list_eqb_neq in E1. congruence.
      * pose proof (stored_same _ _ _ _ S S2 Ls) as X. apply list_eqb_neq in E2. congruence.
Qed.

Lemma block_complete lz4 content off size data r : is_bytes content -> 0 <= off <= len content -> 0 <= size < 2 ^ 63 -> available content off size data ->
  set_block lz4 content off data r -> tv_block lz4 content off size = r.
Proof.
  intros Hb Ho Hs A B. apply available_iff in A; [|lia|lia].
  assert (Head : forall sig u c, len sig = 4 -> n32 u -> n32 c -> stored_at content off (sig ++ le_enc 4 u ++ le_enc 4 c) -> rd_block content off = Ok ((sig, u, c), off + 12)).
  { intros sig u c Ls Hu Hc S. apply (proj1 (reads_block content off Hb Ho)). exists (sig ++ le_enc 4 u ++ le_enc 4 c). cbn [fst snd]. split; [auto|]. split; [exact S|].
    rewrite !len_app, !len_le_enc. lia. }
  assert (Comp : forall u c, n32 u -> n32 c -> stored_at content off (block_head u c) -> tv_block lz4 content off size =
    do plain <- lz4 (zfirstn c (zskipn 12 data)) u; do _ <- guard (list_eqb (pyslice data (12 + c) (12 + c + 4)) (s2z "bv4$"%string)) ParseError; Ok (plain, u)).
  { intros u c Hu Hc S. rewrite (block_step lz4 content off size (s2z "bv41"%string) u c) by (assumption || lia || reflexivity || (apply Head; assumption || reflexivity)).
    rewrite <- A. rewrite list_eqb_refl. unfold n32 in *. rewrite pyslice_nonneg by lia. replace (12 + c - 12) with c by lia.
    destruct (lz4 (zfirstn c (zskipn 12 data)) u); reflexivity. }
  destruct B as [z u plain rest Hz Hu E Z4|plain rest Hp E|u c e Hu Hc S Z4|u c plain Hu Hc S Z4 N|S N|N1 N2|L].
  - assert (S : stored_at content off (block_head u (len z))) by (eapply (stored_available content off size); [lia|]; rewrite <- A; exact E).
    rewrite (Comp u (len z) Hu Hz S).
    assert (Z5 : zfirstn (len z) (zskipn 12 data) = z).
    { rewrite E. rewrite (zskipn_app_len (block_head u (len z))) by (symmetry; apply block_head_len). apply zfirstn_app_len. reflexivity. }
    rewrite Z5, Z4. cbn [bind].
    pose proof (marker_check content off size (block_head u (len z)) (len z) S ltac:(left; apply block_head_len) ltac:(apply len_nonneg)) as M. cbv zeta in M. rewrite <- A, block_head_len in M.
    rewrite (proj2 M) by eauto. reflexivity.
  - assert (L8 : len (s2z "bv4-"%string ++ le_enc 4 (len plain)) = 8) by (rewrite len_app, len_le_enc; reflexivity).
    rewrite app_assoc in E. assert (S : stored_at content off (s2z "bv4-"%string ++ le_enc 4 (len plain))) by (eapply (stored_available content off size); [lia|]; rewrite <- A; exact E).
    assert (L12 : off + 12 <= len content).
    { apply (f_equal len) in E. rewrite !len_app, len_le_enc in E. change (len marker) with 4 in E. change (len (s2z "bv4-"%string)) with 4 in E. rewrite A, len_zfirstn, len_zskipn in E.
      pose proof (len_nonneg plain). pose proof (len_nonneg rest). lia. }
    destruct (block_there content off Hb ltac:(lia) L12) as (sig & u & c & Ls & Hu & Hc & S' & R).
    rewrite (block_step lz4 content off size sig u c) by (assumption || lia). rewrite app_assoc in S'. apply stored_app_l in S'.
    destruct (app_same_len _ _ _ _ (stored_same _ _ _ _ S' S ltac:(rewrite !len_app, !len_le_enc; change (len (s2z "bv4-"%string)) with 4; lia)) Ls) as [Es Eu]. subst sig.
    apply le32_inj in Eu; [|assumption|assumption]. subst u.
    change (list_eqb (s2z "bv4-"%string) (s2z "bv41"%string)) with false. rewrite list_eqb_refl. cbv match. cbn [bind]. rewrite <- A.
    pose proof (marker_check content off size _ (len plain) S ltac:(right; exact L8) ltac:(apply len_nonneg)) as M. cbv zeta in M. rewrite <- A, L8 in M.
    rewrite (proj2 M) by eauto. cbn [guard bind]. pose proof (len_nonneg plain). rewrite pyslice_nonneg by lia. replace (8 + len plain - 8) with (len plain) by lia.
    rewrite E, (zskipn_app_len (s2z "bv4-"%string ++ le_enc 4 (len plain))) by (symmetry; exact L8). rewrite zfirstn_app_len by reflexivity. reflexivity.
  - rewrite (Comp u c Hu Hc S), Z4. reflexivity.
  - rewrite (Comp u c Hu Hc S), Z4. cbn [bind].
    pose proof (marker_check content off size (block_head u c) c S ltac:(left; apply block_head_len) ltac:(unfold n32 in *; lia)) as M. cbv zeta in M. rewrite <- A, block_head_len in M.
    destruct (list_eqb _ _); [|reflexivity]. destruct (proj1 M eq_refl) as (z & rest & Lz & E). destruct (N z rest Lz E).
  - destruct (block_sound lz4 content off size data Hb Ho Hs ltac:(apply available_iff; [lia|lia|exact A])) as [z u plain rest Hz Hu E Z4|plain rest Hp E|u c e Hu Hc S' Z4|u c plain Hu Hc S' Z4 N'|S' N'|N1 N2|L]; try reflexivity.
    + assert (S' : stored_at content off (block_head u (len z))) by (eapply (stored_available content off size); [lia|]; rewrite <- A; exact E).
      apply stored_app_l in S'. pose proof (stored_same _ _ _ _ S S' eq_refl). discriminate.
    + destruct (N plain rest Hp E).
    + apply stored_app_l in S'. pose proof (stored_same _ _ _ _ S S' eq_refl). discriminate.
  - destruct (Z.ltb_spec (len content) (off + 12)) as [L|L].
    { unfold tv_block. replace (size <? 2 ^ 63) with true by (symmetry; apply Z.ltb_lt; lia). cbn [guard bind]. rewrite block_short by (assumption || lia). reflexivity. }
    destruct (block_there content off Hb ltac:(lia) L) as (sig & u & c & Ls & Hu & Hc & S & R). apply stored_app_l in S.
    rewrite (block_step lz4 content off size sig u c) by (assumption || lia).
    destruct (list_eqb sig (s2z "bv41"%string)) eqn:E1; [apply list_eqb_eq in E1; subst sig; contradiction|].
    destruct (list_eqb sig (s2z "bv4-"%string)) eqn:E2; [apply list_eqb_eq in E2; subst sig; contradiction|]. reflexivity.
  - unfold tv_block. replace (size <? 2 ^ 63) with true by (symmetry; apply Z.ltb_lt; lia). cbn [guard bind]. rewrite block_short by (assumption || lia). reflexivity.
Qed.

(** ** Oversize chunks by number *)

Lemma sep_inj (c : Z) a a' b b' : ~ In c a -> ~ In c a' -> a ++ c :: b = a' ++ c :: b' -> a = a' /\ b = b'.
Proof.
  revert a'. induction a as [|x a IH]; intros [|y a'] N N' E.
  - split; [reflexivity|cbn in E; congruence].
  - injection E as -> _. destruct N'. left. reflexivity.
  - injection E as -> _. destruct N. left. reflexivity.
  - injection E as -> E. destruct (IH a') as [-> ->]; [intros I; apply N; right; exact I|intros I; apply N'; right; exact I|exact E|]. auto.
Qed.

Lemma no_sep base w n c : 2 <= base <= 16 -> 0 <= n -> c = 64 \/ c = 58 -> ~ In c (fmt_int base w n).
Proof. intros Hb Hn Hc I. pose proof (proj1 (Forall_forall _ _) (fmt_int_nonneg_chars base w n Hb Hn) c I) as D. cbn in D. unfold is_digit_char in D. lia. Qed.

Lemma key_inj u l r u' l' r' : 0 <= u -> 0 <= l -> 0 <= r -> 0 <= u' -> 0 <= l' -> 0 <= r' ->
  oversize_key u l r = oversize_key u' l' r' -> u = u' /\ l = l' /\ r = r'.
Proof.
  intros. unfold oversize_key, fmt_d, fmt_x in *. cbn [app] in *.
  match goal with H : _ ++ 64 :: _ = _ |- _ => apply sep_inj in H; [|apply no_sep; lia|apply no_sep; lia]; destruct H as [Eu H] end.
  match goal with H : _ ++ 58 :: _ = _ |- _ => apply sep_inj in H; [|apply no_sep; lia|apply no_sep; lia]; destruct H as [El Er] end.
  apply fmt_int_inj in Eu, El, Er; lia.
Qed.

Lemma sdict_get_set_same {A} k (v : A) t : sdict_get k (sdict_set k v t) = Some v.
Proof. induction t as [|[k' v'] t IH]; cbn; [rewrite list_eqb_refl; reflexivity|]. destruct (list_eqb k' k) eqn:E; cbn; [rewrite list_eqb_refl; reflexivity|rewrite E; exact IH]. Qed.

Lemma sdict_get_set_other {A} k k' (v : A) t : k <> k' -> sdict_get k (sdict_set k' v t) = sdict_get k t.
Proof.
  intros N. assert (N' : list_eqb k' k = false) by (apply list_eqb_neq; congruence). induction t as [|[k2 v2] t IH]; cbn.
  - rewrite N'. reflexivity.
  - destruct (list_eqb k2 k') eqn:E; cbn; [|destruct (list_eqb k2 k); [reflexivity|exact IH]].
    apply list_eqb_eq in E. subst k2. rewrite N'. reflexivity.
Qed.

Definition represents (ov : sdict oversize) (hist : list oversize) : Prop :=
  forall u l r x, 0 <= u -> 0 <= l -> 0 <= r -> last_oversize u l r hist x -> sdict_get (oversize_key u l r) ov = x.

Lemma last_total u l r hist : exists x, last_oversize u l r hist x.
Proof.
  induction hist as [|o hist [x IH]] using rev_ind; [exists None; constructor|].
  destruct (Z.eq_dec (ov_upper o) u); [destruct (Z.eq_dec (ov_lower o) l); [destruct (Z.eq_dec (ov_reference o) r)|]|].
  - exists (Some o). now constructor.
  - exists x. apply lo_other; [tauto|exact IH].
  - exists x. apply lo_other; [tauto|exact IH].
  - exists x. apply lo_other; [tauto|exact IH].
Qed.

Lemma represents_nil : represents [] [].
Proof. intros u l r x _ _ _ H. inversion H as [E|l' o A B C E|l' o y A B E]; [reflexivity| |]; apply app_eq_nil in E as [_ E]; discriminate. Qed.

Lemma represents_set ov hist o : represents ov hist -> 0 <= ov_upper o -> 0 <= ov_lower o -> 0 <= ov_reference o ->
  represents (sdict_set (oversize_key (ov_upper o) (ov_lower o) (ov_reference o)) o ov) (hist ++ [o]).
Proof.
  intros R A B C u l r x Hu Hl Hr L. inversion L as [E|l' o' A' B' C' E|l' o' y N L' E]; subst.
  - symmetry in E. apply app_eq_nil in E as [_ E]. discriminate.
  - apply app_inj_tail in E as [-> ->]. apply sdict_get_set_same.
  - apply app_inj_tail in E as [-> ->]. rewrite sdict_get_set_other; [apply R; assumption|]. intros K. apply key_inj in K; try assumption. destruct K as (-> & -> & ->). tauto.
Qed.

(** ** Effects *)

Definition follows {E S} (g : gen E (S * sdict oversize)) (es : list E) (r : result (S * list oversize)) : Prop :=
  match r with
  | Ok (st, hist) => exists ov, g = Some (es, Ok (st, ov)) /\ represents ov hist
  | Err e => g = Some (es, Err e)
  end.

Lemma keep_follows {E S} ov hist (g : list E * result S) : represents ov hist -> follows (keep ov g) (fst (with_history hist g)) (snd (with_history hist g)).
Proof. intros R. destruct g as [l [s|e]]; cbn; [exists ov; auto|reflexivity]. Qed.

Lemma chunk_follows {E S} (c : tv_calls E S) st ov hist tag data size es r : calls_wf c -> represents ov hist -> is_bytes data ->
  chunk_effect c st hist (Inner tag data size) (es, r) -> follows (tv_chunk c st ov tag data size) es r.
Proof.
  intros W R Hb H. inversion H as [| |d s look L Ek Eg|d s o O Ek Eg|d s N1 N2 Ek Eg|s Ek Eg|d s Ek Eg|d s Ek Eg|t d s N Ek Eg]; subst; unfold tv_chunk.
  - change (0x6001 =? 0x6001) with true. cbv match.
    rewrite (W st (fun u l r => sdict_get (oversize_key u l r) ov) look).
    2: { intros u l r' Hu Hl Hr. destruct (last_total u l r' hist) as [x X]. rewrite (R u l r' x Hu Hl Hr X). symmetry. apply L; assumption. }
    exact (keep_follows ov hist (tc_firehose c st look data size) R).
  - change (0x6002 =? 0x6001) with false. change (0x6002 =? 0x6002) with true. cbv match.
    apply read_oversize_iff in O as O'; [|exact Hb]. rewrite O'. cbn [bind gen_of follows].
    destruct O as (sz & pv & h & i & rest & (U & Lo & _ & _ & Re & _) & _). unfold n64, n32 in *.
    eexists. split; [reflexivity|]. apply represents_set; [exact R| | |]; lia.
  - change (0x6002 =? 0x6001) with false. change (0x6002 =? 0x6002) with true. cbv match. destruct (read_oversize data) as [o|x] eqn:Eo.
    + apply read_oversize_iff in Eo; [|exact Hb]. destruct (N2 o Eo).
    + destruct (read_oversize_errors data x Hb Eo) as [[-> _] | [_ ->]]; [contradiction|reflexivity].
  - change (0x6002 =? 0x6001) with false. reflexivity.
  - change (0x6003 =? 0x6001) with false. change (0x6003 =? 0x6002) with false. change (0x6003 =? 0x6003) with true. cbv match.
    exact (keep_follows ov hist (tc_statedump c st data size) R).
  - change (0x6004 =? 0x6001) with false. change (0x6004 =? 0x6002) with false. change (0x6004 =? 0x6003) with false. change (0x6004 =? 0x6004) with true. cbv match.
    exact (keep_follows ov hist (tc_simpledump c st data size) R).
  - cbn in N. destruct (Z.eqb_spec tag 0x6001); [destruct N; intuition congruence|]. destruct (Z.eqb_spec tag 0x6002); [destruct N; intuition congruence|]. destruct (Z.eqb_spec tag 0x6003); [destruct N; intuition congruence|]. destruct (Z.eqb_spec tag 0x6004); [destruct N; intuition congruence|].
    exists ov. split; [reflexivity|exact R].
Qed.

Lemma look_exists ov hist : represents ov hist -> exists look : Z -> Z -> Z -> option oversize, forall u l r x, 0 <= u -> 0 <= l -> 0 <= r -> last_oversize u l r hist x -> look u l r = x.
Proof. intros R. exists (fun u l r => sdict_get (oversize_key u l r) ov). exact R. Qed.

Lemma chunk_total {E S} (c : tv_calls E S) st ov hist k : represents ov hist -> (match k with Inner _ data _ => is_bytes data | Catalog _ _ => True end) ->
  exists es r, chunk_effect c st hist k (es, r).
Proof.
  intros R Hb. destruct k as [off size|tag data size].
  - destruct (tc_catalog c st off size) as [[st' tell]|e] eqn:Ec; eexists _, _; [eapply ce_catalog; exact Ec|apply ce_catalog_error; exact Ec].
  - destruct (Z.eq_dec tag 0x6001) as [-> |N1].
    { destruct (look_exists ov hist R) as [look L]. eexists _, _. apply (ce_firehose c st hist data size look L). }
    destruct (Z.eq_dec tag 0x6002) as [-> |N2].
    { destruct (read_oversize data) as [o|x] eqn:Eo.
      - apply read_oversize_iff in Eo; [|exact Hb]. eexists _, _. eapply ce_oversize. exact Eo.
      - destruct (read_oversize_errors data x Hb Eo) as [[-> ->] | [Nd ->]]; [eexists _, _; apply ce_oversize_empty|]. eexists _, _. apply ce_oversize_error; [exact Nd|].
        intros o O. apply read_oversize_iff in O; [|exact Hb]. congruence. }
    destruct (Z.eq_dec tag 0x6003) as [-> |N3]; [eexists _, _; apply ce_statedump|].
    destruct (Z.eq_dec tag 0x6004) as [-> |N4]; [eexists _, _; apply ce_simpledump|].
    eexists _, _. apply ce_other. cbn. intuition congruence.
Qed.

Lemma available_bytes content off size d : is_bytes content -> available content off size d -> is_bytes d.
Proof. intros Hb [S _]. eapply is_bytes_stored; eassumption. Qed.

Lemma next8_bounds a b : next8 a b -> a <= b.
Proof. intros [H _]. lia. Qed.

Lemma next8_exists a : exists b, next8 a b.
Proof. exists (tv_align a). apply align_iff. reflexivity. Qed.

(** The chunks of a chunk set. *)

Lemma rd_data_chunk plain off tag n h : is_bytes plain -> 0 <= off -> chunk_head tag n h -> stored_at plain off h -> rd_data rd_chunk (zskipn off plain) = Ok (tag, n).
Proof.
  intros Hb Ho H S. apply (rd_data_iff _ _ _ _ reads_chunk); [apply is_bytes_zskipn; exact Hb|]. pose proof (stored_at_inside _ _ _ S) as I. pose proof (len_nonneg h).
  apply stored_at_from in S; [|lia]. destruct S as [rest E]. exists h, rest. auto.
Qed.

Lemma inner_follows {E S} (c : tv_calls E S) plain size : calls_wf c -> is_bytes plain -> forall pos l stop, inner_chunks plain size pos l stop -> forall fuel st ov hist es r,
  0 <= pos -> len plain - pos < Z.of_nat fuel -> (0 < fuel)%nat -> represents ov hist -> effects c st hist l stop es r -> follows (tv_inner fuel c plain size pos st ov) es r.
Proof.
  intros W Hb pos l stop I. induction I as [pos L|pos tag n h data next l stop L H St A N I IH|pos L Ls|pos L Ls]; intros fuel st ov hist es r Hp Hf Hf0 R Ef.
  - destruct fuel as [|fuel]; [lia|]. cbn [tv_inner]. replace (pos <? size) with false by (symmetry; apply Z.ltb_ge; exact L). inversion Ef; subst. exists ov. auto.
  - destruct fuel as [|fuel]; [lia|]. cbn [tv_inner]. replace (pos <? size) with true by (symmetry; apply Z.ltb_lt; exact L).
    pose proof (stored_at_inside _ _ _ St) as In. rewrite (chunk_head_len _ _ _ H) in In. replace (pos <? len plain) with true by (symmetry; apply Z.ltb_lt; lia). cbn [guard bind].
    rewrite (rd_data_chunk _ _ _ _ _ Hb Hp H St). cbn [gen_of gen_bind]. pose proof H as (_ & Hn & _). unfold n64 in Hn.
    rewrite pyslice_nonneg by lia. replace (pos + 16 + n - (pos + 16)) with n by lia. apply available_iff in A as A'; [|lia|lia]. rewrite <- A'.
    pose proof (available_bytes _ _ _ _ Hb A) as Hd. apply next8_bounds in N as Nb. apply align_iff in N. rewrite N.
    inversion Ef as [| |st0 hist0 k l0 stop0 es1 st1 hist1 es2 r0 C Er|st0 hist0 k l0 stop0 es1 e C]; subst.
    + destruct (chunk_follows c st ov hist tag _ n es1 (Ok (st1, hist1)) W R Hd C) as (ov1 & -> & R1). cbn [gen_bind].
      specialize (IH fuel st1 ov1 hist1 es2 r ltac:(lia) ltac:(lia) ltac:(lia) R1 Er). destruct r as [[st2 hist2]|e]; cbn [follows] in *.
      * destruct IH as (ov2 & -> & R2). exists ov2. auto.
      * rewrite IH. reflexivity.
    + pose proof (chunk_follows c st ov hist tag _ n es (Err e) W R Hd C) as F. cbn [follows] in *. rewrite F. reflexivity.
  - destruct fuel as [|fuel]; [lia|]. cbn [tv_inner]. replace (pos <? size) with true by (symmetry; apply Z.ltb_lt; exact L).
    replace (pos <? len plain) with true by (symmetry; apply Z.ltb_lt; lia). cbn [guard bind].
    inversion Ef; subst. unfold rd_data. rewrite chunk_short; [|apply is_bytes_zskipn; exact Hb|lia|rewrite len_zskipn; lia]. reflexivity.
  - destruct fuel as [|fuel]; [lia|]. cbn [tv_inner]. replace (pos <? size) with true by (symmetry; apply Z.ltb_lt; exact L).
    replace (pos <? len plain) with false by (symmetry; apply Z.ltb_ge; lia). inversion Ef; subst. reflexivity.
Qed.

Lemma inner_total plain size : is_bytes plain -> forall k pos, 0 <= pos -> len plain - pos < Z.of_nat k -> exists l stop, inner_chunks plain size pos l stop.
Proof.
  intros Hb k. induction k as [|k IH]; intros pos Hp Hk.
  - destruct (Z.le_gt_cases size pos); [eexists _, _; apply ic_end; lia|]. eexists _, _. apply ic_none; lia.
  - destruct (Z.le_gt_cases size pos); [eexists _, _; apply ic_end; lia|]. destruct (Z.le_gt_cases (len plain) pos); [eexists _, _; apply ic_none; lia|].
    destruct (Z.ltb_spec (len plain) (pos + 16)); [eexists _, _; apply ic_short; lia|].
    destruct (chunk_there plain pos Hb Hp ltac:(lia)) as (tag & n & h & Hh & S & _). destruct (next8_exists (pos + 16 + n)) as [next N]. pose proof Hh as (_ & Hn & _). unfold n64 in Hn. apply next8_bounds in N as Nb.
    destruct (IH next ltac:(lia) ltac:(lia)) as (l & stop & I). eexists _, stop.
    eapply (ic_next plain size pos tag n h (zfirstn n (zskipn (pos + 16) plain)) next l); try eassumption. apply available_iff; [lia|lia|reflexivity].
Qed.

(** The chunks of a file. *)

Lemma effects_app {E S} (c : tv_calls E S) l : forall st hist l' stop es r, effects c st hist (l ++ l') stop es r ->
  (exists es1 st1 hist1 es2, effects c st hist l None es1 (Ok (st1, hist1)) /\ effects c st1 hist1 l' stop es2 r /\ es = es1 ++ es2) \/
  (exists e, effects c st hist l None es (Err e) /\ r = Err e).
Proof.
  induction l as [|k l IH]; intros st hist l' stop es r Ef; cbn [app] in Ef.
  - left. exists [], st, hist, es. split; [constructor|]. split; [exact Ef|reflexivity].
  - inversion Ef as [| |st0 hist0 k0 l0 stop0 es1 st1 hist1 es2 r0 C Er|st0 hist0 k0 l0 stop0 es1 e C]; subst.
    + destruct (IH _ _ _ _ _ _ Er) as [(es3 & st3 & hist3 & es4 & A & B & ->) | (e & A & ->)].
      * left. exists (es1 ++ es3), st3, hist3, es4. split; [eapply ef_next; eassumption|]. split; [exact B|apply app_assoc].
      * right. exists e. split; [eapply ef_next; eassumption|reflexivity].
    + right. exists e. split; [apply ef_error; exact C|reflexivity].
Qed.

Definition follows3 {E S} (g : gen E (S * sdict oversize * Z)) (es : list E) (r : result (S * list oversize)) : Prop :=
  match r with
  | Ok (st, hist) => exists ov tell, g = Some (es, Ok (st, ov, tell)) /\ represents ov hist
  | Err e => g = Some (es, Err e)
  end.

Lemma block_bytes lz4 content off data plain n : lz4_wf lz4 -> is_bytes data -> set_block lz4 content off data (Ok (plain, n)) -> is_bytes plain.
Proof.
  intros W Hb B. inversion B as [z u p rest Hz Hu E Z4|p rest Hp E| | | | |]; subst; [eapply W; eassumption|].
  apply Forall_app in Hb as [_ Hb]. apply Forall_app in Hb as [_ Hb]. apply Forall_app in Hb as [Hb _]. exact Hb.
Qed.

Lemma walk_follows {E S} lz4 (c : tv_calls E S) content : lz4_wf lz4 -> calls_wf c -> is_bytes content -> forall pos l stop, file_chunks lz4 content pos l stop ->
  forall fuel tell st ov hist es r, 0 <= pos -> len content - pos < Z.of_nat fuel -> (0 < fuel)%nat -> represents ov hist -> effects c st hist l stop es r ->
  follows3 (tv_walk fuel lz4 c content pos tell st ov) es r.
Proof.
  intros Wl W Hb pos l stop F.
  assert (Set_ : forall pos size h data r, 0 <= pos -> chunk_head 0x600d size h -> stored_at content pos h -> size < 2 ^ 63 -> available content (pos + 16) size data ->
    set_block lz4 content (pos + 16) data r -> tv_block lz4 content (pos + 16) size = r).
  { intros q size h data r Hq H St Hs A B. pose proof (stored_at_inside _ _ _ St) as In. rewrite (chunk_head_len _ _ _ H) in In. pose proof H as (_ & Hn & _). unfold n64 in Hn.
    eapply block_complete; try eassumption; lia. }
  assert (Step : forall pos tag size h fuel tell (st : S) ov, chunk_head tag size h -> stored_at content pos h ->
    tv_walk (Datatypes.S fuel) lz4 c content pos tell st ov =
    let next := tv_align (pos + 16 + size) in
    if tag =? 0x600b then
      gdo (st, tell) <- gen_of (tc_catalog c st (pos + 16) size);
      tv_walk fuel lz4 c content next tell st ov
    else if tag =? 0x600d then
      gdo (st, ov) <- tv_set lz4 c content (pos + 16) size st ov;
      tv_walk fuel lz4 c content next (pos + 16 + 12) st ov
    else gen_of (Err ParseError)).
  { intros q tag size h fuel tell st ov H St. cbn [tv_walk]. pose proof (stored_at_inside _ _ _ St) as In. rewrite (chunk_head_len _ _ _ H) in In.
    replace (q <? len content) with true by (symmetry; apply Z.ltb_lt; lia). rewrite (chunk_read _ _ _ _ _ Hb H St). cbn [gen_of gen_bind].
    cbv zeta. destruct (if tag =? 0x600b then _ else _) as [[es r]|]; reflexivity. }
  induction F as [pos L|pos size h next l stop H St N F IH|pos size h data plain n l next l' stop H St Hs A B I N F IH|pos size h data plain n l e H St Hs A B I|pos size h data e H St Hs A B|pos size h H St Hs|pos tag size h H St N1 N2|pos L];
    intros fuel tell st ov hist es r Hp Hf Hf0 R Ef.
  - destruct fuel as [|fuel]; [lia|]. cbn [tv_walk]. replace (pos <? len content) with false by (symmetry; apply Z.ltb_ge; exact L). inversion Ef; subst. exists ov, tell. auto.
  - destruct fuel as [|fuel]; [lia|]. rewrite (Step _ _ _ _ _ _ _ _ H St). cbv zeta. change (0x600b =? 0x600b) with true. cbv match. apply next8_bounds in N as Nb. apply align_iff in N. rewrite N.
    pose proof (stored_at_inside _ _ _ St) as In. rewrite (chunk_head_len _ _ _ H) in In. pose proof H as (_ & Hn & _). unfold n64 in Hn.
    inversion Ef as [| |st0 hist0 k l0 stop0 es1 st1 hist1 es2 r0 C Er|st0 hist0 k l0 stop0 es1 e C]; subst.
    + inversion C as [o s st' tell' T| | | | | | | |]; subst. rewrite T. cbn [gen_of gen_bind].
      specialize (IH fuel tell' st1 ov hist1 es2 r ltac:(lia) ltac:(lia) ltac:(lia) R Er). cbn [app]. destruct r as [[st2 hist2]|e]; cbn [follows3] in *.
      * destruct IH as (ov2 & tell2 & -> & R2). exists ov2, tell2. auto.
      * rewrite IH. reflexivity.
    + inversion C as [|o s e' T| | | | | | |]; subst. rewrite T. reflexivity.
  - destruct fuel as [|fuel]; [lia|]. rewrite (Step _ _ _ _ _ _ _ _ H St). cbv zeta. change (0x600d =? 0x600b) with false. change (0x600d =? 0x600d) with true. cbv match.
    apply next8_bounds in N as Nb. apply align_iff in N. rewrite N.
    pose proof (stored_at_inside _ _ _ St) as In. rewrite (chunk_head_len _ _ _ H) in In. pose proof H as (_ & Hn & _). unfold n64 in Hn.
    unfold tv_set. rewrite (Set_ _ _ _ _ _ Hp H St Hs A B). cbn [gen_of gen_bind].
    pose proof (block_bytes _ _ _ _ _ _ Wl (available_bytes _ _ _ _ Hb A) B) as Hpl.
    assert (Inn : forall es1 r1, effects c st hist l None es1 r1 -> follows (tv_inner (Datatypes.S (length plain)) c plain n 0 st ov) es1 r1).
    { intros es1 r1 E1. eapply (inner_follows c plain n W Hpl 0 l None I); [lia|unfold len; lia|lia|exact R|exact E1]. }
    destruct (effects_app _ _ _ _ _ _ _ _ Ef) as [(es1 & st1 & hist1 & es2 & E1 & E2 & ->) | (e & E1 & ->)].
    + destruct (Inn _ _ E1) as (ov1 & -> & R1). cbn [gen_bind].
      specialize (IH fuel (pos + 16 + 12) st1 ov1 hist1 es2 r ltac:(lia) ltac:(lia) ltac:(lia) R1 E2). cbn [app]. destruct r as [[st2 hist2]|e]; cbn [follows3] in *.
      * destruct IH as (ov2 & tell2 & -> & R2). exists ov2, tell2. auto.
      * rewrite IH. reflexivity.
    + pose proof (Inn _ _ E1) as X. cbn [follows follows3] in *. rewrite X. reflexivity.
  - destruct fuel as [|fuel]; [lia|]. rewrite (Step _ _ _ _ _ _ _ _ H St). cbv zeta. change (0x600d =? 0x600b) with false. change (0x600d =? 0x600d) with true. cbv match.
    unfold tv_set. rewrite (Set_ _ _ _ _ _ Hp H St Hs A B). cbn [gen_of gen_bind].
    pose proof (block_bytes _ _ _ _ _ _ Wl (available_bytes _ _ _ _ Hb A) B) as Hpl.
    pose proof (inner_follows c plain n W Hpl 0 l (Some e) I (Datatypes.S (length plain)) st ov hist es r ltac:(lia) ltac:(unfold len; lia) ltac:(lia) R Ef) as X.
    destruct r as [[st1 hist1]|e1]; cbn [follows follows3] in *.
    + exfalso. clear -Ef. remember (Some e) as s. remember (Ok (st1, hist1)) as r. induction Ef; congruence || auto.
    + rewrite X. reflexivity.
  - destruct fuel as [|fuel]; [lia|]. rewrite (Step _ _ _ _ _ _ _ _ H St). cbv zeta. change (0x600d =? 0x600b) with false. change (0x600d =? 0x600d) with true. cbv match.
    unfold tv_set. rewrite (Set_ _ _ _ _ _ Hp H St Hs A B). inversion Ef; subst. reflexivity.
  - destruct fuel as [|fuel]; [lia|]. rewrite (Step _ _ _ _ _ _ _ _ H St). cbv zeta. change (0x600d =? 0x600b) with false. change (0x600d =? 0x600d) with true. cbv match.
    unfold tv_set, tv_block. replace (size <? 2 ^ 63) with false by (symmetry; apply Z.ltb_ge; exact Hs). inversion Ef; subst. reflexivity.
  - destruct fuel as [|fuel]; [lia|]. rewrite (Step _ _ _ _ _ _ _ _ H St). cbv zeta. destruct (Z.eqb_spec tag 0x600b); [contradiction|]. destruct (Z.eqb_spec tag 0x600d); [contradiction|].
    inversion Ef; subst. reflexivity.
  - destruct fuel as [|fuel]; [lia|]. cbn [tv_walk]. replace (pos <? len content) with true by (symmetry; apply Z.ltb_lt; lia). rewrite chunk_short by (assumption || lia). inversion Ef; subst. reflexivity.
Qed.

Lemma file_total lz4 content : lz4_wf lz4 -> is_bytes content -> forall k pos, 0 <= pos -> len content - pos < Z.of_nat k -> exists l stop, file_chunks lz4 content pos l stop.
Proof.
  intros Wl Hb k. induction k as [|k IH]; intros pos Hp Hk; (destruct (Z.le_gt_cases (len content) pos); [eexists _, _; apply fc_end; lia|]); [lia|].
  destruct (Z.ltb_spec (len content) (pos + 16)); [eexists _, _; apply fc_short; lia|].
  destruct (chunk_there content pos Hb Hp ltac:(lia)) as (tag & n & h & Hh & S & _). destruct (next8_exists (pos + 16 + n)) as [next N]. pose proof Hh as (_ & Hn & _). unfold n64 in Hn. apply next8_bounds in N as Nb.
  destruct (IH next ltac:(lia) ltac:(lia)) as (l & stop & I).
  destruct (Z.eq_dec tag 0x600b) as [-> |N1]; [eexists _, _; eapply fc_catalog; eassumption|].
  destruct (Z.eq_dec tag 0x600d) as [-> |N2]; [|eexists _, _; eapply fc_tag; eassumption].
  destruct (Z.ltb_spec n (2 ^ 63)) as [Ln|Ln]; [|eexists _, _; eapply fc_large; eassumption].
  set (data := zfirstn n (zskipn (pos + 16) content)). assert (A : available content (pos + 16) n data) by (apply available_iff; [lia|lia|reflexivity]).
  pose proof (block_sound lz4 content (pos + 16) n data Hb ltac:(lia) ltac:(lia) A) as B. destruct (tv_block lz4 content (pos + 16) n) as [[plain u]|e].
  - pose proof (block_bytes _ _ _ _ _ _ Wl (available_bytes _ _ _ _ Hb A) B) as Hpl.
    destruct (inner_total plain u Hpl (Datatypes.S (length plain)) 0 ltac:(lia) ltac:(unfold len; lia)) as (l1 & [e|] & I1).
    + eexists _, _. eapply fc_inner; eassumption.
    + eexists _, _. eapply fc_set; eassumption.
  - eexists _, _. eapply fc_block; eassumption.
Qed.

(** Every list of chunks has effects. *)

Definition chunk_wf (k : chunk) : Prop := match k with Inner _ data _ => is_bytes data | Catalog _ _ => True end.

Lemma inner_wf plain size : is_bytes plain -> forall pos l stop, inner_chunks plain size pos l stop -> Forall chunk_wf l.
Proof. intros Hb pos l stop I. induction I; constructor; [eapply available_bytes; eassumption|assumption]. Qed.

Lemma file_wf lz4 content : lz4_wf lz4 -> is_bytes content -> forall pos l stop, file_chunks lz4 content pos l stop -> Forall chunk_wf l.
Proof.
  intros Wl Hb pos l stop F. induction F; try constructor; try assumption; try exact I.
  - apply Forall_app. split; [|assumption]. eapply inner_wf; [|eassumption]. eapply block_bytes; [exact Wl| |eassumption]. eapply available_bytes; eassumption.
  - eapply inner_wf; [|eassumption]. eapply block_bytes; [exact Wl| |eassumption]. eapply available_bytes; eassumption.
Qed.

Lemma represents_step {E S} (c : tv_calls E S) st ov hist k es st' hist' : represents ov hist -> chunk_effect c st hist k (es, Ok (st', hist')) -> exists ov', represents ov' hist'.
Proof.
  intros R H. inversion H as [o s s' t T|o s e T|d s look L Ek Eg|d s o O Ek Eg|d s N1 N2 Ek Eg|s Ek Eg|d s Ek Eg|d s Ek Eg|t d s N Ek Eg]; subst; try (eexists; exact R).
  - destruct (tc_firehose c st look d s) as [a [b|e]]; cbn in *; [|discriminate]. exists ov. replace hist' with hist by congruence. exact R.
  - destruct O as (sz & pv & h & i & rest & (U & Lo & _ & _ & Re & _) & _). unfold n64, n32 in *. eexists. apply represents_set; [exact R| | |]; lia.
  - destruct (tc_statedump c st d s) as [a [b|e]]; cbn in *; [|discriminate]. exists ov. replace hist' with hist by congruence. exact R.
  - destruct (tc_simpledump c st d s) as [a [b|e]]; cbn in *; [|discriminate]. exists ov. replace hist' with hist by congruence. exact R.
Qed.

Lemma effects_total {E S} (c : tv_calls E S) l stop : Forall chunk_wf l -> forall st ov hist, represents ov hist -> exists es r, effects c st hist l stop es r.
Proof.
  intros F. induction F as [|k l Hk F IH]; intros st ov hist R.
  - destruct stop; eexists _, _; constructor.
  - destruct (chunk_total c st ov hist k R Hk) as (es & [[st' hist']|e] & C).
    + destruct (represents_step c st ov hist k es st' hist' R C) as [ov' R']. destruct (IH st' ov' hist' R') as (es' & r & Er). eexists _, _. eapply ef_next; eassumption.
    + eexists _, _. apply ef_error. exact C.
Qed.

Lemma entries_complete {E S} lz4 (c : tv_calls E S) content pos l stop st es r : lz4_wf lz4 -> calls_wf c -> is_bytes content -> 0 <= pos ->
  file_chunks lz4 content pos l stop -> effects c st [] l stop es r ->
  match r with Ok (st', _) => exists tell, tv_entries lz4 c content pos st = Some (es, Ok (st', tell)) | Err e => tv_entries lz4 c content pos st = Some (es, Err e) end.
Proof.
  intros Wl W Hb Hp F Ef. pose proof (walk_follows lz4 c content Wl W Hb pos l stop F (Datatypes.S (length content)) pos st [] [] es r Hp ltac:(unfold len; lia) ltac:(lia) represents_nil Ef) as X.
  unfold tv_entries. destruct r as [[st' hist]|e]; cbn [follows3] in X.
  - destruct X as (ov & tell & -> & _). exists tell. cbn. rewrite app_nil_r. reflexivity.
  - rewrite X. reflexivity.
Qed.

Lemma entries_sound {E S} lz4 (c : tv_calls E S) content pos st : lz4_wf lz4 -> calls_wf c -> is_bytes content -> 0 <= pos ->
  exists l stop es r, file_chunks lz4 content pos l stop /\ effects c st [] l stop es r /\
  match r with Ok (st', _) => exists tell, tv_entries lz4 c content pos st = Some (es, Ok (st', tell)) | Err e => tv_entries lz4 c content pos st = Some (es, Err e) end.
Proof.
  intros Wl W Hb Hp. destruct (file_total lz4 content Wl Hb (Datatypes.S (length content)) pos Hp ltac:(unfold len; lia)) as (l & stop & F).
  destruct (effects_total c l stop (file_wf lz4 content Wl Hb pos l stop F) st [] [] represents_nil) as (es & r & Ef).
  exists l, stop, es, r. split; [exact F|]. split; [exact Ef|]. eapply entries_complete; eassumption.
Qed.

(** ** Writing *)

Lemma pad8_next n pos k : pos = 8 * k -> 0 <= n -> next8 (pos + n) (pos + n + len (pad8 n)).
Proof.
  intros -> Hn. unfold pad8. rewrite len_repeat. pose proof (Z.mod_pos_bound n 8 ltac:(lia)) as M. pose proof (Z.div_mod n 8 ltac:(lia)) as D.
  pose proof (Z.mod_pos_bound (8 - n mod 8) 8 ltac:(lia)) as M2. rewrite Z2Nat.id by lia. split; [lia|].
  destruct (Z.eq_dec (n mod 8) 0) as [E|E]; [rewrite E, Z.sub_0_r, Z_mod_same_full; exists (k + n / 8); lia|].
  rewrite (Z.mod_small (8 - n mod 8)) by lia. exists (k + n / 8 + 1). lia.
Qed.

Lemma enc_chunk_len tag sub data : len (enc_chunk tag sub data) = 16 + len data + len (pad8 (len data)).
Proof. unfold enc_chunk. rewrite !len_app, !len_le_enc. lia. Qed.

Lemma enc_chunk_aligned tag sub data : exists k, len (enc_chunk tag sub data) = 8 * k.
Proof. rewrite enc_chunk_len. destruct (pad8_next (len data) 16 2 eq_refl (len_nonneg data)) as [_ [k E]]. exists k. lia. Qed.

Lemma aligned_plus a b : (exists k, a = 8 * k) -> (exists k, b = 8 * k) -> exists k, a + b = 8 * k.
Proof. intros [k ->] [j ->]. exists (k + j). lia. Qed.

Lemma enc_chunk_stored content pos tag sub data : n32 tag -> n32 sub -> n64 (len data) -> (exists k, pos = 8 * k) -> stored_at content pos (enc_chunk tag sub data) ->
  exists h, chunk_head tag (len data) h /\ stored_at content pos h /\ available content (pos + 16) (len data) data /\ next8 (pos + 16 + len data) (pos + len (enc_chunk tag sub data)).
Proof.
  intros Ht Hs Hl [k Hk] S. exists (le_enc 4 tag ++ le_enc 4 sub ++ le_enc 8 (len data)). unfold enc_chunk in S.
  assert (S2 : stored_at content pos ((le_enc 4 tag ++ le_enc 4 sub ++ le_enc 8 (len data)) ++ data ++ pad8 (len data))) by (rewrite <- !app_assoc; exact S).
  apply stored_at_app in S2 as [S3 S4]. rewrite !len_app, !len_le_enc in S4. change (Z.of_nat 4 + (Z.of_nat 4 + Z.of_nat 8)) with 16 in S4. apply stored_app_l in S4.
  split; [split; [exact Ht|split; [exact Hl|eauto]]|]. split; [exact S3|]. split; [split; [exact S4|left; reflexivity]|].
  rewrite enc_chunk_len. replace (pos + (16 + len data + len (pad8 (len data)))) with (pos + 16 + len data + len (pad8 (len data))) by lia.
  apply (pad8_next _ _ (k + 2)); [lia|apply len_nonneg].
Qed.

Lemma enc_inner_chunks plain l : forall pos, Forall (fun x => n32 (fst (fst x)) /\ n32 (snd (fst x)) /\ n64 (len (snd x))) l -> (exists k, pos = 8 * k) -> stored_at plain pos (enc_inner l) ->
  pos + len (enc_inner l) = len plain ->
  inner_chunks plain (len plain) pos (map (fun x => Inner (fst (fst x)) (snd x) (len (snd x))) l) None.
Proof.
  induction l as [|[[tag sub] data] l IH]; intros pos F Hk S L.
  - apply ic_end. change (len (enc_inner [])) with 0 in L. lia.
  - inversion F as [|x l' (Ht & Hs & Hd) F']; subst. cbn [fst snd map] in *. change (enc_inner ((tag, sub, data) :: l)) with (enc_chunk tag sub data ++ enc_inner l) in *.
    apply stored_at_app in S as [S1 S2]. rewrite len_app in L. destruct (enc_chunk_stored plain pos tag sub data Ht Hs Hd Hk S1) as (h & H & Sh & A & N).
    pose proof (len_nonneg (enc_inner l)). pose proof (enc_chunk_len tag sub data). pose proof (len_nonneg data). pose proof (len_nonneg (pad8 (len data))).
    eapply (ic_next plain (len plain) pos tag (len data) h data); try eassumption; [lia|].
    apply IH; [exact F'| |exact S2|lia]. apply aligned_plus; [exact Hk|apply enc_chunk_aligned].
Qed.

Lemma written_chunks lz4 content l : forall pos, Forall written_ok l -> (exists k, pos = 8 * k) -> stored_at content pos (concat (map written_bytes l)) -> pos + len (concat (map written_bytes l)) = len content ->
  file_chunks lz4 content pos (written_list pos l) None.
Proof.
  induction l as [|w l IH]; intros pos F Hk S L.
  - apply fc_end. change (len (concat (map written_bytes []))) with 0 in L. lia.
  - inversion F as [|x l' W F']; subst. cbn [map concat written_list] in *. apply stored_at_app in S as [S1 S2]. rewrite len_app in L.
    assert (Next : file_chunks lz4 content (pos + len (written_bytes w)) (written_list (pos + len (written_bytes w)) l) None).
    { apply IH; [exact F'| |exact S2|lia]. apply aligned_plus; [exact Hk|]. destruct w; apply enc_chunk_aligned. }
    destruct w as [sub data|sub k]; cbn [written_ok written_bytes] in *.
    + destruct W as [Hs Hd]. destruct (enc_chunk_stored content pos 0x600b sub data ltac:(unfold n32; lia) Hs Hd Hk S1) as (h & H & Sh & A & N). eapply fc_catalog; eassumption.
    + destruct W as (Hs & Hd & Fk). assert (Ls : n64 (len (enc_set (enc_inner k))) /\ len (enc_set (enc_inner k)) < 2 ^ 63).
      { unfold enc_set. rewrite !len_app, len_le_enc. change (len (s2z "bv4-"%string)) with 4. change (len (s2z "bv4$"%string)) with 4. unfold n64, n32 in *. pose proof (len_nonneg (enc_inner k)). lia. }
      destruct (enc_chunk_stored content pos 0x600d sub (enc_set (enc_inner k)) ltac:(unfold n32; lia) Hs (proj1 Ls) Hk S1) as (h & H & Sh & A & N).
      eapply (fc_set lz4 content pos _ h _ (enc_inner k) (len (enc_inner k))); try eassumption; [exact (proj2 Ls)| |].
      * apply (sb_plain _ _ _ _ (enc_inner k) []); [exact Hd|]. unfold enc_set, marker. rewrite app_nil_r. reflexivity.
      * apply enc_inner_chunks; [exact Fk|exists 0; reflexivity| |lia]. exists [], []. split; [now rewrite app_nil_r|reflexivity].
Qed.

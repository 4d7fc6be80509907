From Coq Require Import String.
From Verif Require Import Base BaseFacts SeqModel SeqSpec SeqFacts CoreModel StrModel DictModel Utf16Model Utf16Spec RdModel RdSpec RdFacts TvModel TvSpec CatModel CatSpec CatProofs FhModel FhSpec FhProofs.
From Verif Require Import WcdModel WcdSpec WcdProofs WcmModel WcmSpec WcmProofs WciModel WciSpec WciProofs WcrModel WcrSpec WcrProofs WchModel WchSpec.
Local Open Scope list_scope.
Local Open Scope Z_scope.

(** ** Nodes *)

Lemma cell_is_bytes content off size data d : is_bytes content -> stored_at content off d -> cell_bytes size data d -> is_bytes data.
Proof.
  intros B (pre & post & -> & _) [H _]. apply is_bytes_app in B as [_ B]. apply is_bytes_app in B as [B _]. f_out. subst.
  rewrite !is_bytes_app in B. tauto.
Qed.

Lemma node_iff {A} (r : reader A) e content off a : reads r e -> (forall a d, e a d -> d <> []) -> is_bytes content -> set off ->
  (node r content off = Ok a <-> exists data d rest, node_at content off data /\ e a d /\ data = d ++ rest).
Proof.
  intros R E B S. unfold set in S. unfold node. split.
  - destruct (rd_cell content (off - 4)) as [[[size data] p]|] eqn:C; cbn [bind snd]; [|discriminate]. intros H.
    assert (X : exists d, stored_at content (off - 4) d /\ cell_bytes size data d) by (apply rd_cell_iff; [exact B|lia|eauto]). destruct X as (d & St & Cb).
    apply (rd_stream_iff r e data a R E) in H; [|eapply cell_is_bytes; eassumption]. destruct H as (d' & rest & He & Ed). exists data, d', rest. split; [exists size, d; auto|auto].
  - intros (data & d & rest & (size & d0 & St & Cb) & He & Ed).
    assert (X : exists p, rd_cell content (off - 4) = Ok ((size, data), p)) by (apply rd_cell_iff; [exact B|lia|eauto]). destruct X as [p ->]. cbn [bind snd].
    apply (rd_stream_iff r e data a R E); [eapply cell_is_bytes; eassumption|eauto].
Qed.

Lemma node_errors {A} (r : reader A) e content off x : reads r e -> is_bytes content -> set off -> node r content off = Err x -> soft x.
Proof.
  intros R B S. unfold set in S. unfold node. destruct (rd_cell content (off - 4)) as [[[size data] p]|y] eqn:C; cbn [bind snd].
  - assert (X : exists d, stored_at content (off - 4) d /\ cell_bytes size data d) by (apply rd_cell_iff; [exact B|lia|eauto]). destruct X as (d & St & Cb).
    apply (rd_stream_errors r e); [exact R|eapply cell_is_bytes; eassumption].
  - intros H. injection H as <-. left. eapply rd_cell_errors; [exact B| |exact C]. lia.
Qed.

Definition words_bytes (n : nat) (l : list Z) (d : bytes) : Prop := Datatypes.length l = n /\ fields (map i32 l ++ [footer]) d.

Lemma reads_node n : reads (rd_node n) (words_bytes n).
Proof.
  unfold rd_node. eapply reads_iff; [eapply reads_bind; [apply reads_words|intros ?; eapply reads_bind; [apply reads_bytes|intros ?; apply reads_ret]]|].
  intros l d _. cbv beta. unfold words_bytes. split.
  - intros (l' & d1 & d2 & [L F] & (f & d3 & d4 & [L2 ->] & [-> ->] & ->) & ->). split; [exact L|]. rewrite app_nil_r. apply fields_join; [exact F|].
    apply fields_cons. exists f, []. split; [exact L2|]. split; [apply fields_nil; reflexivity|symmetry; apply app_nil_r].
  - intros [L F]. apply fields_app in F as (d1 & d2 & F1 & F2 & ->). apply fields_cons in F2 as (f & d3 & F2 & F3 & ->). apply fields_nil in F3 as ->.
    exists l, d1, (f ++ []). split; [auto|]. split; [|reflexivity]. exists f, f, []. split; [split; [exact F2|reflexivity]|]. split; [split; reflexivity|reflexivity].
Qed.

Lemma footer_ne d : footer d -> d <> [].
Proof. unfold footer. intros L ->. discriminate L. Qed.

Lemma fields_footer l d : fields (l ++ [footer]) d -> d <> [].
Proof.
  intros F. apply fields_app in F as (d1 & d2 & _ & F & ->). apply fields_cons in F as (f & d3 & F & _ & ->). apply footer_ne in F. destruct d1; [|discriminate]. destruct f; [congruence|discriminate].
Qed.

Lemma fields_rest l d rest : fields l d -> fields (l ++ [eq rest]) (d ++ rest).
Proof. intros F. apply fields_join; [exact F|]. apply fields_cons. exists rest, []. split; [reflexivity|]. split; [apply fields_nil; reflexivity|symmetry; apply app_nil_r]. Qed.

Lemma fields_rest_inv l d rest : fields (l ++ [eq rest]) d -> exists d', fields l d' /\ d = d' ++ rest.
Proof. intros F. apply fields_app in F as (d1 & d2 & F1 & F2 & ->). apply fields_cons in F2 as (x & y & <- & F2 & ->). apply fields_nil in F2 as ->. rewrite app_nil_r. eauto. Qed.

Lemma words_iff n content off l : is_bytes content -> set off ->
  (node (rd_node n) content off = Ok l <-> Datatypes.length l = n /\ node_has content off l).
Proof.
  intros B S. rewrite (node_iff _ _ _ _ _ (reads_node n)); [|intros a d [_ F]; eapply fields_footer; exact F|exact B|exact S]. split.
  - intros (data & d & rest & N & [L F] & E). split; [exact L|]. exists data, rest. split; [exact N|]. subst data. apply fields_rest with (rest := rest) in F. rewrite <- app_assoc in F. exact F.
  - intros [L (data & rest & N & F)]. change [footer; eq rest] with ([footer] ++ [eq rest]) in F. rewrite app_assoc in F. apply fields_rest_inv in F as (d & F & ->).
    exists (d ++ rest), d, rest. split; [exact N|]. split; [split; assumption|reflexivity].
Qed.

Lemma words_errors n content off x : is_bytes content -> set off -> node (rd_node n) content off = Err x -> soft x.
Proof. apply node_errors with (1 := reads_node n). Qed.

Lemma reads_tree_root : reads rd_tree_root (fun l d => words_bytes 3 l d /\ (word l 0 = 0 \/ word l 0 = 1 \/ word l 0 = 2)).
Proof.
  unfold rd_tree_root. eapply reads_iff; [eapply reads_bind; [apply reads_node|intros ?; eapply reads_bind; [apply reads_guard|intros ?; apply reads_ret]]|].
  intros l d _. cbv beta. assert (G : forall l, existsb (Z.eqb (word l 0)) [0; 1; 2] = true <-> (word l 0 = 0 \/ word l 0 = 1 \/ word l 0 = 2)).
  { intros l0. rewrite existsb_z. cbn. intuition. }
  split.
  - intros (l' & d1 & d2 & W & (u & d3 & d4 & [E ->] & [-> ->] & ->) & ->). cbn. rewrite app_nil_r. split; [exact W|]. apply G. exact E.
  - intros [W E]. exists l, d, []. split; [exact W|]. split; [|symmetry; apply app_nil_r]. exists tt, [], []. split; [split; [apply G; exact E|reflexivity]|]. split; [split; reflexivity|reflexivity].
Qed.

Lemma tree_root_iff content off l : is_bytes content -> set off ->
  (node rd_tree_root content off = Ok l <-> Datatypes.length l = 3%nat /\ node_has content off l /\ (word l 0 = 0 \/ word l 0 = 1 \/ word l 0 = 2)).
Proof.
  intros B S. rewrite (node_iff _ _ _ _ _ reads_tree_root); [|intros a d [[_ F] _]; eapply fields_footer; exact F|exact B|exact S].
  transitivity ((Datatypes.length l = 3%nat /\ node_has content off l) /\ (word l 0 = 0 \/ word l 0 = 1 \/ word l 0 = 2)); [|tauto].
  rewrite <- (words_iff 3 content off l B S). rewrite (node_iff _ _ _ _ _ (reads_node 3)); [|intros a d [_ F]; eapply fields_footer; exact F|exact B|exact S].
  split; [intros (data & d & rest & N & [F W] & E); split; [exists data, d, rest; auto|exact W]|intros [(data & d & rest & N & F & E) W]; exists data, d, rest; auto].
Qed.

Lemma reads_padded4 {A} (r : reader A) e : reads r e -> reads (rd_padded 4 r) (fun a d => padded4 (e a) d).
Proof.
  intros R content pos Hb Hp. destruct (R content pos Hb Hp) as [R1 R2]. unfold rd_padded. split.
  - intros a q. split.
    + destruct (r content pos) as [[a' p]|x] eqn:E; cbn [bind]; [|discriminate]. destruct (proj1 (R1 a' p) eq_refl) as (b & Eb & S & ->).
      pose proof (stored_at_bounds _ _ _ S) as Bd.
      destruct (reads_bytes ((- (pos + len b - pos)) mod 4) content (pos + len b) Hb) as [P1 P2]; [pose proof (len_nonneg b); lia|].
      destruct (rd_bytes _ content (pos + len b)) as [[pad q']|x] eqn:F; cbn [bind]; [|discriminate]. intros H.
      destruct (proj1 (P1 pad q') eq_refl) as (d' & [L ->] & S2 & Q).
      assert (a' = a /\ q' = q) as [-> ->] by (split; congruence). exists (b ++ pad). split; [|split].
      * exists b, pad. split; [exact Eb|]. split; [reflexivity|]. rewrite len_app, L. replace (pos + len b - pos) with (len b) by lia.
        pose proof (Z.mod_pos_bound (- len b) 4 ltac:(lia)). split; [lia|]. exists (- ((- len b) / 4)). pose proof (Z.div_mod (- len b) 4 ltac:(lia)). lia.
      * apply stored_at_app. split; assumption.
      * rewrite len_app. lia.
    + intros (d & (b & pad & Eb & -> & N & [k K]) & S & ->). apply stored_at_app in S as [S1 S2].
      rewrite (proj2 (R1 a (pos + len b))) by eauto. cbn [bind]. pose proof (stored_at_bounds _ _ _ S1) as Bd.
      destruct (reads_bytes ((- (pos + len b - pos)) mod 4) content (pos + len b) Hb) as [P1 P2]; [pose proof (len_nonneg b); lia|].
      rewrite (proj2 (P1 pad (pos + len b + len pad))).
      2: { exists pad. split; [split; [|reflexivity]|auto]. rewrite len_app in *. replace (pos + len b - pos) with (len b) by lia.
           apply (Z.mod_unique_pos _ _ (- k)); [pose proof (len_nonneg pad)|]; lia. }
      cbn [bind]. rewrite len_app. f_equal. f_equal. lia.
  - intros x. destruct (r content pos) as [[a' p]|y] eqn:E; cbn [bind]; [|intros H; apply R2; congruence].
    destruct (proj1 (R1 a' p) eq_refl) as (b & Eb & S & ->). pose proof (stored_at_bounds _ _ _ S) as Bd.
    destruct (reads_bytes ((- (pos + len b - pos)) mod 4) content (pos + len b) Hb) as [P1 P2]; [pose proof (len_nonneg b); lia|].
    destruct (rd_bytes _ content (pos + len b)) as [[pad q']|y] eqn:F; cbn [bind]; [discriminate|]. intros H. apply P2. congruence.
Qed.

Lemma padded4_iff (P Q : bytes -> Prop) d : (forall b, P b <-> Q b) -> (padded4 P d <-> padded4 Q d).
Proof. intros H. unfold padded4. split; intros (b & pad & X & Y); exists b, pad; (split; [apply H; exact X|exact Y]). Qed.

(** A structure followed by a footer. *)
Lemma reads_footer {A} (r : reader A) e : reads r e -> reads (rd a <- r; rd f <- rd_bytes 12; rd_ret a) (fun a d => fields [e a; footer] d).
Proof.
  intros R. eapply reads_iff; [eapply reads_bind; [exact R|intros ?; eapply reads_bind; [apply reads_bytes|intros ?; apply reads_ret]]|]. intros a d _. cbv beta. split.
  - intros (a' & d1 & d2 & E & (f & d3 & d4 & [L ->] & [-> ->] & ->) & ->). apply fields_more; [exact E|]. apply fields_more; [exact L|]. apply fields_nil. reflexivity.
  - intros F. f_out. do 3 eexists. split; [eassumption|]. split; [|reflexivity]. eexists _, _, []. split; [split; [eassumption|reflexivity]|]. split; [split; reflexivity|reflexivity].
Qed.

Lemma footer_node {A} (r : reader A) e content off a : reads r e -> is_bytes content -> set off ->
  (node (rd a <- r; rd f <- rd_bytes 12; rd_ret a) content off = Ok a <-> exists data rest, node_at content off data /\ fields [e a; footer; eq rest] data).
Proof.
  intros R B S. rewrite (node_iff _ _ _ _ _ (reads_footer r e R)); [|intros x d F; apply (fields_footer [e x]); exact F|exact B|exact S]. split.
  - intros (data & d & rest & N & F & E). exists data, rest. split; [exact N|]. subst data. apply (fields_rest [e a; footer] d rest F).
  - intros (data & rest & N & F). apply (fields_rest_inv [e a; footer]) in F as (d & F & ->). exists (d ++ rest), d, rest. auto.
Qed.

Lemma reads_block : reads (rd size <- rd_int (FU LE 4); rd_bytes (size - 4)) block_bytes.
Proof.
  eapply reads_iff; [fh_reads idtac|]. intros b d _. cbv beta. unfold block_bytes. split.
  - intros (s & d1 & d2 & H & [L ->] & ->). replace s with (len b + 4) in H by lia. apply fields_more; [exact H|]. apply fields_cons. exists b, []. split; [reflexivity|]. split; [apply fields_nil; reflexivity|symmetry; apply app_nil_r].
  - intros F. f_out. match goal with E : b = ?x |- _ => subst x end. do 3 eexists. split; [eassumption|]. split; [|reflexivity]. split; [lia|apply app_nil_r].
Qed.

Lemma reads_class_body : reads (rd size <- rd_int (FU LE 4); rd data <- rd_bytes (size - 4); rd usize <- rd_int (FU LE 4); rd unknown <- rd_bytes (usize - 4); rd_ret data)
  (fun b d => fields [block_bytes b; fun d => exists unknown, block_bytes unknown d] d).
Proof.
  eapply reads_iff; [fh_reads idtac|]. intros b d _. cbv beta. split.
  - intros (s & d1 & d2 & H & (b' & d3 & d4 & [L ->] & (s2 & d5 & d6 & H2 & (u & d7 & d8 & [L2 ->] & [-> ->] & ->) & ->) & ->) & ->).
    replace s with (len b' + 4) in H by lia. replace s2 with (len u + 4) in H2 by lia.
    rewrite app_assoc. apply fields_more; [|apply fields_cons; exists (d5 ++ u), []; split; [|split; [apply fields_nil; reflexivity|rewrite !app_nil_r; reflexivity]]].
    + unfold block_bytes. apply fields_more; [exact H|]. apply fields_cons. exists b', []. split; [reflexivity|]. split; [apply fields_nil; reflexivity|symmetry; apply app_nil_r].
    + exists u. unfold block_bytes. apply fields_more; [exact H2|]. apply fields_cons. exists u, []. split; [reflexivity|]. split; [apply fields_nil; reflexivity|symmetry; apply app_nil_r].
  - intros F. apply fields_cons in F as (d1 & d2 & F1 & F2 & ->). apply fields_cons in F2 as (d3 & d4 & [u F2] & F3 & ->). apply fields_nil in F3 as ->.
    unfold block_bytes in *. apply fields_cons in F1 as (h1 & r1 & H1 & F1 & ->). apply fields_cons in F1 as (x1 & y1 & <- & F1 & ->). apply fields_nil in F1 as ->.
    apply fields_cons in F2 as (h2 & r2 & H2 & F2 & ->). apply fields_cons in F2 as (x2 & y2 & <- & F2 & ->). apply fields_nil in F2 as ->. rewrite !app_nil_r, <- !app_assoc.
    exists (len b + 4), h1, (b ++ h2 ++ u). split; [exact H1|]. split; [|reflexivity]. exists b, b, (h2 ++ u). split; [split; [lia|reflexivity]|]. split; [|reflexivity].
    exists (len u + 4), h2, u. split; [exact H2|]. split; [|reflexivity]. exists u, u, []. split; [split; [lia|reflexivity]|]. split; [split; reflexivity|symmetry; apply app_nil_r].
Qed.

Lemma class_leaf_iff content off block : is_bytes content -> set off -> (node rd_class_leaf content off = Ok block <-> class_leaf content off block).
Proof. intros B S. apply (footer_node _ _ content off block (reads_padded4 _ _ reads_class_body) B S). Qed.

Lemma class_leaf_errors content off x : is_bytes content -> set off -> node rd_class_leaf content off = Err x -> soft x.
Proof. apply node_errors with (1 := reads_footer _ _ (reads_padded4 _ _ reads_class_body)). Qed.

Lemma name_node_iff content off : is_bytes content -> set off -> ((exists s, node rd_name_node content off = Ok s) <-> name_node content off).
Proof.
  intros B S. unfold name_node. split.
  - intros [s E]. apply (footer_node _ _ content off s (reads_padded4 _ _ reads_wide) B S) in E. destruct E as (data & rest & N & F). exists data, rest. split; [exact N|].
    apply fields_cons in F as (d1 & d2 & (b & pad & U & F0) & F & ->). apply fields_more; [|exact F]. exists b, pad. eauto.
  - intros (data & rest & N & F). apply fields_cons in F as (d1 & d2 & (b & pad & [s U] & F0) & F & ->). exists s. apply (footer_node _ _ content off s (reads_padded4 _ _ reads_wide) B S).
    exists (d1 ++ d2), rest. split; [exact N|]. apply fields_more; [|exact F]. exists b, pad. auto.
Qed.

Lemma name_node_errors content off x : is_bytes content -> set off -> node rd_name_node content off = Err x -> soft x.
Proof. apply node_errors with (1 := reads_footer _ _ (reads_padded4 _ _ reads_wide)). Qed.

Lemma instance_leaf_iff content off block : is_bytes content -> set off -> (node rd_instance_leaf content off = Ok block <-> instance_leaf content off block).
Proof.
  intros B S. rewrite <- (footer_node _ _ content off block reads_block B S).
  enough (E : node rd_instance_leaf content off = node (rd a <- (rd size <- rd_int (FU LE 4); rd_bytes (size - 4)); rd f <- rd_bytes 12; rd_ret a) content off) by (rewrite E; reflexivity).
  unfold node, rd_stream, rd_data, rd_instance_leaf, rd_bind, rd_ret. destruct (rd_cell content (off - 4)) as [[c p]|]; [|reflexivity]. cbn [bind]. destruct (guard _ _); [|reflexivity]. cbn [bind].
  destruct (rd_int (FU LE 4) (snd c) 0) as [[s q]|]; reflexivity.
Qed.

Lemma instance_leaf_errors content off x : is_bytes content -> set off -> node rd_instance_leaf content off = Err x -> soft x.
Proof. intros B S. unfold rd_instance_leaf. eapply node_errors; [fh_reads idtac|exact B|exact S]. Qed.

(** ** Trees, class definitions and instances *)

Lemma set_ltb off : (40 <? off) = true <-> set off. Proof. unfold set. apply Z.ltb_lt. Qed.
Lemma set_leb off : (off <=? 40) = false <-> set off. Proof. unfold set. apply Z.leb_gt. Qed.
Lemma unset_ltb off : (40 <? off) = false <-> ~ set off. Proof. unfold set. rewrite Z.ltb_ge. lia. Qed.
Lemma unset_leb off : (off <=? 40) = true <-> ~ set off. Proof. unfold set. rewrite Z.leb_le. lia. Qed.

Lemma set_dec off : set off \/ ~ set off. Proof. unfold set. lia. Qed.

Ltac on_set H := match type of H with
  | ~ set ?o => rewrite ?(proj2 (unset_ltb o) H), ?(proj2 (unset_leb o) H)
  | set ?o => rewrite ?(proj2 (set_ltb o) H), ?(proj2 (set_leb o) H)
  end.

(** The integers of a node are determined. *)
Lemma node_has_det content off l l' : is_bytes content -> set off -> node_has content off l -> node_has content off l' -> Datatypes.length l = Datatypes.length l' -> l = l'.
Proof.
  intros B S H H' L. assert (X : node (rd_node (Datatypes.length l)) content off = Ok l) by (apply words_iff; auto).
  assert (X' : node (rd_node (Datatypes.length l)) content off = Ok l') by (apply words_iff; auto). congruence.
Qed.

Lemma tree_iff content off vs : is_bytes content -> set off -> (tree content off = Ok vs <-> tree_of content off vs).
Proof.
  intros B S. unfold tree. split.
  - destruct (node rd_tree_root content off) as [l|] eqn:E; cbn [bind]; [|discriminate]. apply tree_root_iff in E as (L & H & D); [|assumption..].
    destruct l as [|a1 [|a2 [|a3 [|? ?]]]]; try discriminate L. unfold word in *. cbn [nth] in *. destruct D as [D|[D|D]]; subst a1; cbn [Z.eqb Pos.eqb].
    + intros X. injection X as <-. econstructor; exact H.
    + intros X. injection X as <-. eapply to_1; exact H.
    + destruct (set_dec a3) as [D|D]; on_set D; [|intros X; injection X as <-; eapply to_2_branch; eassumption].
      destruct (node (rd_node 4) content a3) as [b|] eqn:E; cbn [bind]; [|discriminate]. apply words_iff in E as [L2 H2]; [|assumption..].
      destruct b as [|b1 [|b2 [|b3 [|b4 [|? ?]]]]]; try discriminate L2. cbn [nth] in *. destruct (set_dec b4) as [D2|D2]; on_set D2; [|intros X; injection X as <-; eapply to_2_leaf; eassumption].
      intros X. apply words_iff in X as [L3 H3]; [|assumption..]. eapply to_2; eassumption.
  - assert (R : forall d n v, node_has content off [d; n; v] -> d = 0 \/ d = 1 \/ d = 2 -> node rd_tree_root content off = Ok [d; n; v]).
    { intros d n v H D. apply tree_root_iff; auto. }
    intros H. inversion H as [? n v H1|? n v H1|? n b k m u leaf vs0 H1 D1 H2 D2 H3 L3|? n b H1 D1|? n b k m u leaf H1 D1 H2 D2]; subst; rewrite (R _ _ _ H1) by auto;
      cbn [bind]; unfold word; cbn [nth Z.eqb Pos.eqb]; try reflexivity; on_set D1; try reflexivity;
      (assert (X : node (rd_node 4) content b = Ok [k; m; u; leaf]) by (apply words_iff; auto)); rewrite X; cbn [bind nth]; on_set D2; [|reflexivity]. apply words_iff; auto.
Qed.

Lemma tree_errors content off x : is_bytes content -> set off -> tree content off = Err x -> soft x.
Proof.
  intros B S. unfold tree. destruct (node rd_tree_root content off) as [l|] eqn:E; cbn [bind].
  - destruct (word l 0 =? 1); [discriminate|]. destruct (word l 0 =? 2); [|discriminate]. destruct (set_dec (word l 2)) as [D|D]; on_set D; [|discriminate].
    destruct (node (rd_node 4) content (word l 2)) as [b|] eqn:E2; cbn [bind].
    + destruct (set_dec (word b 3)) as [D2|D2]; on_set D2; [|discriminate]. apply words_errors; assumption.
    + intros X. injection X as <-. eapply words_errors; eassumption.
  - intros X. injection X as <-. eapply node_errors; [apply reads_tree_root|eassumption..].
Qed.

Lemma node_data_bytes content off data : is_bytes content -> node_at content off data -> is_bytes data.
Proof. intros B (size & d & S & C). eapply cell_is_bytes; eassumption. Qed.

Lemma class_leaf_bytes content off block : is_bytes content -> class_leaf content off block -> is_bytes block.
Proof.
  intros B (data & rest & N & F). apply node_data_bytes in N; [|exact B]. apply fields_cons in F as (d1 & d2 & (b & pad & F & -> & _) & _ & ->).
  apply is_bytes_app in N as [N _]. apply is_bytes_app in N as [N _]. apply fields_cons in F as (d3 & d4 & F & _ & ->). apply is_bytes_app in N as [N _].
  unfold block_bytes in F. apply fields_cons in F as (d5 & d6 & _ & F & ->). apply fields_cons in F as (d7 & d8 & <- & _ & ->). rewrite !is_bytes_app in N. tauto.
Qed.

Lemma instance_leaf_bytes content off block : is_bytes content -> instance_leaf content off block -> is_bytes block.
Proof.
  intros B (data & rest & N & F). apply node_data_bytes in N; [|exact B]. apply fields_cons in F as (d1 & d2 & F & _ & ->).
  apply is_bytes_app in N as [N _]. unfold block_bytes in F. apply fields_cons in F as (d5 & d6 & _ & F & ->). apply fields_cons in F as (d7 & d8 & <- & _ & ->). rewrite !is_bytes_app in N. tauto.
Qed.

Lemma class_at_iff ansi lower content off o : is_bytes content -> set off -> (class_at ansi lower content off = Ok o <-> class_node ansi lower content off o).
Proof.
  intros B S. unfold class_at. split.
  - destruct (node (rd_node 5) content off) as [l|] eqn:E; cbn [bind]; [|discriminate]. apply words_iff in E as [L H]; [|assumption..]. destruct l as [|a1 [|a2 [|a3 [|a4 [|a5 [|? ?]]]]]]; try discriminate L. unfold word. cbn [nth] in *.
    destruct (set_dec a4) as [D|D]; on_set D; [|intros X; injection X as <-; econstructor; eassumption].
    destruct (node rd_class_leaf content a4) as [block|] eqn:E; cbn [bind]; [|discriminate]. apply class_leaf_iff in E; [|assumption..].
    destruct (class_block ansi lower block) as [c|] eqn:E2; cbn [bind]; [|discriminate]. apply class_block_iff in E2; [|eapply class_leaf_bytes; eassumption].
    intros X. injection X as <-. econstructor; eassumption.
  - intros H. inversion H as [? i r u leaf v H1 D|? i r u leaf v block c H1 D H2 H3]; subst;
      (assert (X : node (rd_node 5) content off = Ok [i; r; u; leaf; v]) by (apply words_iff; auto)); rewrite X; cbn [bind]; unfold word; cbn [nth]; on_set D; [reflexivity|].
    rewrite (proj2 (class_leaf_iff content leaf block B D) H2). cbn [bind]. apply class_leaf_bytes in H2; [|exact B]. apply (class_block_iff _ _ _ _ H2) in H3. rewrite H3. reflexivity.
Qed.

Lemma class_at_errors ansi lower content off x : is_bytes content -> set off -> class_at ansi lower content off = Err x -> soft x.
Proof.
  intros B S. unfold class_at. destruct (node (rd_node 5) content off) as [l|] eqn:E; cbn [bind]; [|intros X; injection X as <-; eapply words_errors; eassumption].
  destruct (set_dec (word l 3)) as [D|D]; on_set D; [|discriminate]. destruct (node rd_class_leaf content (word l 3)) as [block|] eqn:E1; cbn [bind].
  - apply class_leaf_iff in E1; [|assumption..]. destruct (class_block ansi lower block) as [c|] eqn:E2; cbn [bind]; [discriminate|]. intros X. injection X as <-.
    eapply class_block_errors; [|exact E2]. eapply class_leaf_bytes; eassumption.
  - intros X. injection X as <-. eapply class_leaf_errors; eassumption.
Qed.

Lemma class_offsets ansi lower block c : class_of ansi lower block c -> Forall (fun kp => 0 <= p_offset (snd kp)) (c_props c).
Proof.
  intros (b & d & rest & props & _ & _ & _ & _ & _ & F & A). apply assigned_iff in A. rewrite A.
  apply Forall_forall. intros [n p] I. apply sdict_get_in in I; [|apply sdict_of_nodup]. apply sdict_of_get in I. destruct I as (l1 & l2 & E & _). cbn [snd].
  assert (I : In p props) by (assert (X : In (n, p) (map (fun p => (p_name p, p)) props)) by (rewrite E; apply in_elt); apply in_map_iff in X; destruct X as (q & X & Y); injection X as _ <-; exact Y).
  clear -F I. induction F as [|x q l ps H F IH]; [destruct I|]. destruct I as [->|I]; [|auto].
  destruct H as [_ (quals & d0 & H & _)]. unfold pdef_bytes, fields in H. destruct H as (ds & H & _).
  inversion H as [|? ? ? ? _ H1]; subst. inversion H1 as [|? ? ? ? _ H2]; subst. inversion H2 as [|? ? ? ? H3 _]; subst. destruct H3 as [H3 _]. unfold n32 in H3. cbn [pd_offset] in H3. lia.
Qed.

Lemma single_wf ansi lower block c m : class_of ansi lower block c -> map_of lower [c] m -> map_wf m.
Proof. intros C M. eapply map_of_wf; [exact M|]. constructor; [eapply class_offsets; exact C|constructor]. Qed.

Lemma instance_at_iff ansi lower content off o : is_bytes content -> set off -> (instance_at ansi lower content off = Ok o <-> instance_node ansi lower content off o).
Proof.
  intros B S. unfold instance_at. split.
  - destruct (node (rd_node 5) content off) as [l|] eqn:E; cbn [bind]; [|discriminate]. apply words_iff in E as [L H]; [|assumption..]. destruct l as [|a1 [|a2 [|a3 [|a4 [|a5 [|? ?]]]]]]; try discriminate L. unfold word. cbn [nth] in *.
    destruct (set_dec a2) as [D|D]; on_set D; [|intros X; injection X as <-; eapply in_none; eauto].
    destruct (set_dec a4) as [D2|D2]; on_set D2; [|intros X; injection X as <-; eapply in_none; eauto].
    destruct (Z.eqb_spec a3 2) as [->|D3]; cbn [negb]; [|intros X; injection X as <-; eapply in_none; eauto].
    destruct (node (rd_node 8) content a2) as [r|] eqn:E; cbn [bind]; [|discriminate]. apply words_iff in E as [L2 H2]; [|assumption..]. destruct r as [|b1 [|b2 [|b3 [|b4 [|b5 [|b6 [|b7 [|b8 [|? ?]]]]]]]]]; try discriminate L2. cbn [nth] in *.
    destruct (set_dec b2) as [D3|D3]; on_set D3; [|intros X; injection X as <-; eapply in_class; eassumption].
    destruct (class_at ansi lower content b2) as [oc|] eqn:E; cbn [bind]; [|discriminate]. apply class_at_iff in E; [|assumption..].
    destruct (node rd_instance_leaf content a4) as [block|] eqn:E2; cbn [bind]; [|discriminate]. apply instance_leaf_iff in E2; [|assumption..].
    destruct oc as [c|]; [|discriminate]. destruct (build lower [c]) as [m|] eqn:E3; cbn [bind]; [|discriminate]. apply build_iff in E3.
    assert (W : map_wf m) by (inversion E; subst; eapply single_wf; eassumption).
    destruct (instance ansi m block) as [[name t]|] eqn:E4; cbn [bind]; [|discriminate]. apply instance_iff in E4; [|eapply instance_leaf_bytes; eassumption|exact W].
    intros X. injection X as <-. eapply in_some; eassumption.
  - intros H. inversion H as [? i croot u leaf v H1 D|? i croot leaf v i' branch p type list sub u' tr H1 D1 D2 H2 D3|? i croot leaf v i' branch p type list sub u' tr c block m name t H1 D1 D2 H2 D3 H3 H4 H5 H6]; subst.
    + assert (X : node (rd_node 5) content off = Ok [i; croot; u; leaf; v]) by (apply words_iff; auto). rewrite X. cbn [bind]. unfold word. cbn [nth].
      destruct (set_dec croot) as [E|E]; on_set E; [|reflexivity]. destruct (set_dec leaf) as [E2|E2]; on_set E2; [|reflexivity]. destruct (Z.eqb_spec u 2); [|reflexivity]. exfalso. tauto.
    + assert (X : node (rd_node 5) content off = Ok [i; croot; 2; leaf; v]) by (apply words_iff; auto). rewrite X. cbn [bind]. unfold word. cbn [nth]. on_set D1. on_set D2. cbn [Z.eqb Pos.eqb negb].
      assert (X2 : node (rd_node 8) content croot = Ok [i'; branch; p; type; list; sub; u'; tr]) by (apply words_iff; auto). rewrite X2. cbn [bind nth]. on_set D3. reflexivity.
    + assert (X : node (rd_node 5) content off = Ok [i; croot; 2; leaf; v]) by (apply words_iff; auto). rewrite X. cbn [bind]. unfold word. cbn [nth]. on_set D1. on_set D2. cbn [Z.eqb Pos.eqb negb].
      assert (X2 : node (rd_node 8) content croot = Ok [i'; branch; p; type; list; sub; u'; tr]) by (apply words_iff; auto). rewrite X2. cbn [bind nth]. on_set D3.
      assert (W : map_wf m) by (inversion H3; subst; eapply single_wf; eassumption). apply (class_at_iff _ _ _ _ _ B D3) in H3. rewrite H3. cbn [bind].
      rewrite (proj2 (instance_leaf_iff content leaf block B D2) H4). cbn [bind]. apply build_iff in H5. rewrite H5. cbn [bind].
      apply instance_leaf_bytes in H4; [|exact B]. apply (instance_iff _ _ _ _ _ H4 W) in H6. rewrite H6. reflexivity.
Qed.

Definition soft3 (x : exn) : Prop := x = ParseError \/ x = ValueError \/ x = AttributeError.

Lemma soft_soft3 x : soft x -> soft3 x. Proof. unfold soft, soft3. tauto. Qed.

Lemma instance_at_errors ansi lower content off x : is_bytes content -> set off -> instance_at ansi lower content off = Err x -> soft3 x.
Proof.
  intros B S. unfold instance_at. destruct (node (rd_node 5) content off) as [l|] eqn:E; cbn [bind]; [|intros X; injection X as <-; apply soft_soft3; eapply words_errors; [exact B| |eassumption]; assumption].
  destruct (set_dec (word l 1)) as [D1|D1]; on_set D1; [|discriminate]. destruct (set_dec (word l 3)) as [D2|D2]; on_set D2; [|discriminate]. destruct (negb (word l 2 =? 2)); [discriminate|].
  destruct (node (rd_node 8) content (word l 1)) as [r|] eqn:E1; cbn [bind]; [|intros X; injection X as <-; apply soft_soft3; eapply words_errors; [exact B| |eassumption]; assumption].
  destruct (set_dec (word r 1)) as [D3|D3]; on_set D3; [|discriminate].
  destruct (class_at ansi lower content (word r 1)) as [oc|] eqn:E2; cbn [bind]; [|intros X; injection X as <-; apply soft_soft3; eapply class_at_errors; [exact B| |eassumption]; assumption]. apply class_at_iff in E2; [|assumption..].
  destruct (node rd_instance_leaf content (word l 3)) as [block|] eqn:E3; cbn [bind]; [|intros X; injection X as <-; apply soft_soft3; eapply instance_leaf_errors; [exact B| |eassumption]; assumption]. apply instance_leaf_iff in E3; [|assumption..].
  destruct oc as [c|]; [|intros X; injection X as <-; unfold soft3; auto]. destruct (build lower [c]) as [m|y] eqn:E4; cbn [bind].
  - apply build_iff in E4. assert (W : map_wf m) by (inversion E2; subst; eapply single_wf; eassumption).
    destruct (instance ansi m block) as [[name t]|y] eqn:E5; cbn [bind]; [discriminate|]. intros X. injection X as <-. apply soft_soft3. eapply instance_errors; [|exact W|exact E5]. eapply instance_leaf_bytes; eassumption.
  - intros X. injection X as <-. apply build_errors in E4. unfold soft3. destruct E4 as [[_ E4]|(? & ? & ? & ? & ? & _ & _ & [[-> _]|[-> _]])]; [discriminate E4|auto|auto].
Qed.

(** ** Generators *)

Lemma gen_bind_ok {E A B} (g : gen E A) (f : A -> gen E B) l b :
  gen_bind g f = Some (l, Ok b) <-> exists l1 a l2, g = Some (l1, Ok a) /\ f a = Some (l2, Ok b) /\ l = l1 ++ l2.
Proof.
  unfold gen_bind. split.
  - destruct g as [[l1 [a|e]]|]; try discriminate. destruct (f a) as [[l2 r]|] eqn:F; [|discriminate]. intros H. injection H as <- ->. eauto 10.
  - intros (l1 & a & l2 & -> & -> & ->). reflexivity.
Qed.

(** How a generator made of two ends. *)
Lemma gen_bind_any {E A B} (g : gen E A) (f : A -> gen E B) l r : gen_bind g f = Some (l, r) ->
  (exists e, g = Some (l, Err e) /\ r = Err e) \/ (exists l1 a l2, g = Some (l1, Ok a) /\ f a = Some (l2, r) /\ l = l1 ++ l2).
Proof.
  unfold gen_bind. destruct g as [[l1 [a|e]]|]; try discriminate.
  - destruct (f a) as [[l2 r']|] eqn:F; [|discriminate]. intros H. injection H as <- ->. right. eauto 10.
  - intros H. injection H as <- <-. left. eauto.
Qed.

Lemma gen_of_ok {E A} (r : result A) (l : list E) a : gen_of r = Some (l, Ok a) <-> l = [] /\ r = Ok a.
Proof. unfold gen_of. split; [intros H; injection H as <- ->; auto|intros [-> ->]; reflexivity]. Qed.

Lemma gen_of_any {E A} (r : result A) (l : list E) x : gen_of r = Some (l, x) -> l = [] /\ r = x.
Proof. unfold gen_of. intros H. injection H as <- ->. auto. Qed.

Lemma forall2_weaken {A B} (P Q : A -> B -> Prop) l k : (forall a b, P a b -> Q a b) -> Forall2 P l k -> Forall2 Q l k.
Proof. induction 2; constructor; auto. Qed.

Lemma gen_go {E A B} (r : result A) (f : A -> gen E B) a : r = Ok a -> gen_bind (gen_of r) f = f a.
Proof. intros ->. unfold gen_bind, gen_of. destruct (f a) as [[l x]|]; reflexivity. Qed.

Lemma gen_bind_mono {E A B} (g g' : gen E A) (f f' : A -> gen E B) x : (forall y, g = Some y -> g' = Some y) -> (forall a y, f a = Some y -> f' a = Some y) ->
  gen_bind g f = Some x -> gen_bind g' f' = Some x.
Proof.
  intros Hg Hf. unfold gen_bind. destruct g as [[l1 [a|e]]|]; try discriminate; rewrite (Hg _ eq_refl); [|auto].
  destruct (f a) as [[l2 r]|] eqn:F; [|discriminate]. rewrite (Hf _ _ F). auto.
Qed.

Lemma each_mono {E} l (f f' : Z -> gen E unit) x : (forall v y, f v = Some y -> f' v = Some y) -> each l f = Some x -> each l f' = Some x.
Proof. intros H. revert x. induction l as [|v l IH]; intros x; cbn [each]; [auto|]. apply gen_bind_mono; [apply H|intros _; apply IH]. Qed.

Lemma children_mono {E} content off (f f' : Z -> gen E unit) x : (forall v y, f v = Some y -> f' v = Some y) -> children content off f = Some x -> children content off f' = Some x.
Proof.
  intros H. unfold children. destruct (has_tree off); [|auto]. apply gen_bind_mono; [auto|]. intros kids y. apply each_mono. intros v z. destruct (40 <? v); [|auto].
  apply gen_bind_mono; [auto|]. intros w u. destruct (40 <? word w 1); [apply H|auto].
Qed.

Lemma instances_mono ansi lower content n m off x : (n <= m)%nat -> instances ansi lower content n off = Some x -> instances ansi lower content m off = Some x.
Proof.
  revert m off x. induction n as [|n IH]; intros [|m] off x L; cbn [instances]; try discriminate; try lia. apply gen_bind_mono; [auto|]. intros l y. apply gen_bind_mono; [auto|].
  intros _ z. apply children_mono. intros v u. apply IH. lia.
Qed.

Lemma namespaces_mono ansi lower content n m path off x : (n <= m)%nat -> namespaces ansi lower content n path off = Some x -> namespaces ansi lower content m path off = Some x.
Proof.
  revert m path off x. induction n as [|n IH]; intros [|m] path off x L; cbn [namespaces]; try discriminate; try lia. apply gen_bind_mono; [auto|]. intros l y. destruct (40 <? word l 2); [|auto].
  apply gen_bind_mono; [auto|]. intros i u. apply gen_bind_mono; [auto|]. intros [i' path'] w. apply gen_bind_mono; [auto|].
  intros _ z. apply children_mono. intros v t. apply IH. lia.
Qed.

Lemma has_tree_iff off : has_tree off = true <-> set off /\ off <> 0xffffffff.
Proof. unfold has_tree. rewrite Bool.andb_true_iff, Bool.negb_true_iff, set_ltb, Z.eqb_neq. reflexivity. Qed.

Lemma root_set content v o : root_of content v o -> match o with Some r => set r | None => True end.
Proof. intros H. inversion H; subst; auto. Qed.

(** What the loop over the children yields. *)
Lemma each_kids {E} content vs (f : Z -> gen E unit) l : is_bytes content ->
  (each vs (fun v => if 40 <? v then gdo w <- gen_of (node (rd_node 2) content v); if 40 <? word w 1 then f (word w 1) else done else done) = Some (l, Ok tt) <->
   exists os ls, Forall2 (root_of content) vs os /\
     Forall2 (fun r l => f r = Some (l, Ok tt)) (concat (map (fun o => match o with Some r => [r] | None => [] end) os)) ls /\ l = concat ls).
Proof.
  intros B. revert l. induction vs as [|v vs IH]; intros l; cbn [each].
  - split; [intros H; injection H as <-; exists [], []; repeat constructor|]. intros (os & ls & F1 & F2 & ->). inversion F1; subst. cbn in F2. inversion F2; subst. reflexivity.
  - rewrite gen_bind_ok. split.
    + intros (l1 & [] & l2 & H1 & H2 & ->). apply IH in H2. destruct H2 as (os & ls & F1 & F2 & ->). destruct (set_dec v) as [D|D]; revert H1; on_set D; intros H1.
      2:{ injection H1 as <-. exists (None :: os), ls. split; [constructor; [now constructor|exact F1]|]. split; [exact F2|reflexivity]. }
      apply gen_bind_ok in H1 as (l3 & w & l4 & H3 & H4 & ->). apply gen_of_ok in H3 as [-> H3]. apply words_iff in H3 as [L H3]; [|assumption..].
      destruct w as [|w1 [|w2 [|? ?]]]; try discriminate L. unfold word in H4. cbn [nth] in H4. destruct (set_dec w2) as [D2|D2]; revert H4; on_set D2; intros H4.
      * exists (Some w2 :: os), (l4 :: ls). split; [constructor; [eapply ro_root; eassumption|exact F1]|]. split; [constructor; assumption|reflexivity].
      * injection H4 as <-. exists (None :: os), ls. split; [constructor; [eapply ro_no_root; eassumption|exact F1]|]. split; [exact F2|reflexivity].
    + intros (os & ls & F1 & F2 & ->). inversion F1 as [|? o ? os' R F1']; subst. inversion R as [? D|? name r D H D2|? name r D H D2]; subst; cbn [map concat app] in F2.
      * exists [], tt, (concat ls). split; [on_set D; reflexivity|]. split; [|reflexivity]. apply IH. eauto.
      * exists [], tt, (concat ls). split; [|split; [apply IH; eauto|reflexivity]]. on_set D. assert (X : node (rd_node 2) content v = Ok [name; r]) by (apply words_iff; auto).
        rewrite X. cbn. unfold word. cbn [nth]. on_set D2. reflexivity.
      * inversion F2 as [|? l1 ? ls' E1 F2']; subst. exists l1, tt, (concat ls'). split; [|split; [apply IH; eauto|reflexivity]].
        on_set D. assert (X : node (rd_node 2) content v = Ok [name; r]) by (apply words_iff; auto).
        rewrite X. cbn [gen_of gen_bind]. unfold word. cbn [nth]. on_set D2. rewrite E1. reflexivity.
Qed.

Lemma children_iff {E} content off (f : Z -> gen E unit) l : is_bytes content ->
  (children content off f = Some (l, Ok tt) <-> exists kids ls, kids_of content off kids /\ Forall2 (fun r l => f r = Some (l, Ok tt)) kids ls /\ l = concat ls).
Proof.
  intros B. unfold children. destruct (has_tree off) eqn:T.
  - apply has_tree_iff in T as [S N]. rewrite gen_bind_ok. split.
    + intros (l1 & vs & l2 & H1 & H2 & ->). apply gen_of_ok in H1 as [-> H1]. apply tree_iff in H1; [|assumption..]. apply each_kids in H2; [|exact B]. destruct H2 as (os & ls & F1 & F2 & ->).
      eexists _, ls. split; [|split; [exact F2|reflexivity]]. right. eauto 10.
    + intros (kids & ls & [[[X|X] _]|(_ & _ & vs & os & T & F1 & ->)] & F2 & ->); [contradiction|contradiction|]. apply (tree_iff _ _ _ B S) in T. exists [], vs, (concat ls). rewrite T. split; [reflexivity|].
      split; [|reflexivity]. apply each_kids; eauto.
  - assert (X : ~ set off \/ off = 0xffffffff).
    { destruct (set_dec off) as [S|S]; [|auto]. right. destruct (Z.eq_dec off 0xffffffff); [assumption|]. assert (has_tree off = true) by (apply has_tree_iff; auto). congruence. }
    split.
    + intros H. injection H as <-. exists [], []. split; [left; auto|]. split; [constructor|reflexivity].
    + intros (kids & ls & [[_ ->]|(S & N & _)] & F & ->); [inversion F; subst; reflexivity|]. tauto.
Qed.

Lemma kids_set content off kids : kids_of content off kids -> Forall set kids.
Proof.
  intros [[_ ->]|(_ & _ & vs & os & _ & F & ->)]; [constructor|]. induction F as [|v o vs os R F IH]; [constructor|]. cbn [map concat]. apply Forall_app. split; [|exact IH].
  apply root_set in R. destruct o; [constructor; [exact R|constructor]|constructor].
Qed.

Scheme family_min := Minimality for family Sort Prop with families_min := Minimality for families Sort Prop.
Combined Scheme family_both from family_min, families_min.
Scheme spaces_min := Minimality for spaces Sort Prop with spaces_list_min := Minimality for spaces_list Sort Prop.
Combined Scheme spaces_both from spaces_min, spaces_list_min.
Scheme class_min := Minimality for class_tree Sort Prop with classes_min := Minimality for class_trees Sort Prop.
Combined Scheme class_both from class_min, classes_min.

(** ** Instances *)

Lemma instances_sound ansi lower content fuel : forall off l, is_bytes content -> set off -> instances ansi lower content fuel off = Some (l, Ok tt) -> family ansi lower content off l.
Proof.
  induction fuel as [|fuel IH]; intros off l B S; cbn [instances]; [discriminate|]. intros H. apply gen_bind_ok in H as (l1 & w & l2 & H1 & H & ->). apply gen_of_ok in H1 as [-> H1].
  apply words_iff in H1 as [L H1]; [|assumption..]. destruct w as [|tr [|name [|br [|u [|li [|u' [|v [|? ?]]]]]]]]; try discriminate L. unfold word in H. cbn [nth] in H.
  apply gen_bind_ok in H as (l3 & [] & l4 & H2 & H3 & ->). apply children_iff in H3; [|exact B]. destruct H3 as (kids & ls & K & F & ->). rewrite app_nil_l.
  assert (Ks := kids_set _ _ _ K).
  eapply fa_node; [exact H1| |exact K|].
  - destruct (set_dec br) as [D|D]; revert H2; on_set D; intros H2; [left|right].
    + split; [exact D|]. apply gen_bind_ok in H2 as (l5 & i & l6 & H4 & H5 & ->). apply gen_of_ok in H4 as [-> H4]. apply instance_at_iff in H4; [|assumption..]. injection H5 as <-. exists i. split; [reflexivity|exact H4].
    + split; [exact D|]. injection H2 as <-. reflexivity.
  - clear K. induction F as [|r lr kids ls E F IHF]; [constructor|]. inversion Ks; subst. cbn [concat]. constructor; [apply IH; assumption|apply IHF; assumption].
Qed.

Lemma instances_complete ansi lower content : is_bytes content ->
  (forall off l, family ansi lower content off l -> set off -> exists fuel, instances ansi lower content fuel off = Some (l, Ok tt)) /\
  (forall kids l, families ansi lower content kids l -> Forall set kids -> exists fuel ls, Forall2 (fun r l => instances ansi lower content fuel r = Some (l, Ok tt)) kids ls /\ l = concat ls).
Proof.
  intros B. apply family_both.
  - intros off tr name br u li u' v own kids rest H O K _ IH S. destruct (IH (kids_set _ _ _ K)) as (fuel & ls & F & ->). exists (Datatypes.S fuel). cbn [instances].
    assert (X : node (rd_node 7) content off = Ok [tr; name; br; u; li; u'; v]) by (apply words_iff; auto). rewrite (gen_go _ _ _ X). unfold word. cbn [nth].
    assert (C : children content tr (instances ansi lower content fuel) = Some (concat ls, Ok tt)) by (apply children_iff; eauto).
    assert (Q : (if 40 <? br then gdo i <- gen_of (instance_at ansi lower content br); yield i else done) = Some (own, Ok tt)).
    { destruct O as [[D (i & -> & I)]|[D ->]]; on_set D; [|reflexivity]. apply (instance_at_iff _ _ _ _ _ B D) in I. rewrite (gen_go _ _ _ I). reflexivity. }
    apply gen_bind_ok. exists own, tt, (concat ls). auto.
  - intros _. exists O, []. split; [constructor|reflexivity].
  - intros off kids l rest _ IH1 _ IH2 F. inversion F; subst. destruct (IH1 ltac:(assumption)) as [f1 E1]. destruct (IH2 ltac:(assumption)) as (f2 & ls & E2 & ->).
    exists (max f1 f2), (l :: ls). split; [|reflexivity]. constructor; [eapply instances_mono; [|exact E1]; lia|].
    eapply forall2_weaken; [|exact E2]. intros r lr E. eapply instances_mono; [|exact E]. lia.
Qed.

Lemma read_instances_iff ansi lower content root l : is_bytes content ->
  ((exists fuel, read_instances ansi lower content fuel root = Some (l, Ok tt)) <-> exists off, root = Some off /\ (set off /\ family ansi lower content off l \/ ~ set off /\ l = [])).
Proof.
  intros B. unfold read_instances, from_root. split.
  - intros [fuel H]. destruct root as [off|]; [|discriminate]. exists off. split; [reflexivity|]. destruct (set_dec off) as [D|D]; revert H; on_set D; intros H.
    + left. split; [exact D|]. eapply instances_sound; eassumption.
    + right. injection H as <-. auto.
  - intros (off & -> & [[D F]|[D ->]]); on_set D; [apply instances_complete; assumption|exists O; reflexivity].
Qed.

Lemma each_err {E} content vs (f : Z -> gen E unit) l x : is_bytes content ->
  each vs (fun v => if 40 <? v then gdo w <- gen_of (node (rd_node 2) content v); if 40 <? word w 1 then f (word w 1) else done else done) = Some (l, Err x) ->
  soft x \/ exists r l', set r /\ f r = Some (l', Err x).
Proof.
  intros B. revert l. induction vs as [|v vs IH]; intros l; cbn [each]; [discriminate|]. intros H. apply gen_bind_any in H as [(e & H & He)|(l1 & [] & l2 & _ & H & _)]; [|eapply IH; exact H].
  injection He as <-. destruct (set_dec v) as [D|D]; revert H; on_set D; intros H; [|discriminate]. apply gen_bind_any in H as [(e & H & He)|(l1 & w & l2 & _ & H & _)].
  - apply gen_of_any in H as [_ H]. injection He as <-. left. eapply words_errors; eassumption.
  - destruct (set_dec (word w 1)) as [D2|D2]; revert H; on_set D2; intros H; [|discriminate]. right. eauto.
Qed.

Lemma children_err {E} content off (f : Z -> gen E unit) l x : is_bytes content -> children content off f = Some (l, Err x) -> soft x \/ exists r l', set r /\ f r = Some (l', Err x).
Proof.
  intros B. unfold children. destruct (has_tree off) eqn:T; [|discriminate]. apply has_tree_iff in T as [S _]. intros H. apply gen_bind_any in H as [(e & H & He)|(l1 & vs & l2 & _ & H & _)].
  - apply gen_of_any in H as [_ H]. injection He as <-. left. eapply tree_errors; eassumption.
  - eapply each_err; eassumption.
Qed.

Lemma instances_errors ansi lower content fuel : forall off l x, is_bytes content -> set off -> instances ansi lower content fuel off = Some (l, Err x) -> soft3 x.
Proof.
  induction fuel as [|fuel IH]; intros off l x B S; cbn [instances]; [discriminate|]. intros H. apply gen_bind_any in H as [(e & H & He)|(l1 & w & l2 & _ & H & _)].
  - apply gen_of_any in H as [_ H]. injection He as <-. apply soft_soft3. eapply words_errors; eassumption.
  - apply gen_bind_any in H as [(e & H & He)|(l3 & [] & l4 & _ & H & _)].
    + injection He as <-. destruct (set_dec (word w 2)) as [D|D]; revert H; on_set D; intros H; [|discriminate]. apply gen_bind_any in H as [(e & H & He)|(l3 & i & l4 & _ & H & _)]; [|discriminate].
      apply gen_of_any in H as [_ H]. injection He as <-. eapply instance_at_errors; [exact B|exact D|exact H].
    + apply children_err in H as [H|(r & l' & R & H)]; [now apply soft_soft3| |exact B]. eapply IH; eassumption.
Qed.

(** What a child yields, also if reading fails later. *)
Lemma each_in {E} content vs (f : Z -> gen E unit) l r e : is_bytes content ->
  each vs (fun v => if 40 <? v then gdo w <- gen_of (node (rd_node 2) content v); if 40 <? word w 1 then f (word w 1) else done else done) = Some (l, r) -> In e l ->
  exists v root l' r', In v vs /\ root_of content v (Some root) /\ f root = Some (l', r') /\ In e l'.
Proof.
  intros B. revert l. induction vs as [|v vs IH]; intros l; cbn [each]; [intros H; injection H as <- _; intros []|]. intros H I.
  assert (K : forall l1 r1, (if 40 <? v then gdo w <- gen_of (node (rd_node 2) content v); if 40 <? word w 1 then f (word w 1) else done else done) = Some (l1, r1) -> In e l1 ->
    exists root l' r', root_of content v (Some root) /\ f root = Some (l', r') /\ In e l').
  { intros l1 r1 H1 I1. destruct (set_dec v) as [D|D]; revert H1; on_set D; intros H1; [|injection H1 as <- _; destruct I1].
    apply gen_bind_any in H1 as [(x & H1 & _)|(l3 & w & l4 & H1 & H2 & ->)]; [apply gen_of_any in H1 as [-> _]; destruct I1|]. apply gen_of_ok in H1 as [-> H1].
    apply words_iff in H1 as [L H1]; [|assumption..]. destruct w as [|w1 [|w2 [|? ?]]]; try discriminate L. unfold word in H2. cbn [nth] in H2.
    destruct (set_dec w2) as [D2|D2]; revert H2; on_set D2; intros H2; [|injection H2 as <- _; destruct I1]. exists w2, l4, r1. split; [eapply ro_root; eassumption|]. auto. }
  apply gen_bind_any in H as [(x & H & ->)|(l1 & [] & l2 & H1 & H2 & ->)].
  - destruct (K _ _ H I) as (root & l' & r' & R). exists v, root, l', r'. split; [left; reflexivity|exact R].
  - apply in_app_or in I as [I|I].
    + destruct (K _ _ H1 I) as (root & l' & r' & R). exists v, root, l', r'. split; [left; reflexivity|exact R].
    + destruct (IH _ H2 I) as (v' & root & l' & r' & I' & R). exists v', root, l', r'. split; [right; exact I'|exact R].
Qed.

Lemma children_in {E} content off (f : Z -> gen E unit) l r e : is_bytes content -> children content off f = Some (l, r) -> In e l ->
  set off /\ off <> 0xffffffff /\ exists vs v root l' r', tree_of content off vs /\ In v vs /\ root_of content v (Some root) /\ f root = Some (l', r') /\ In e l'.
Proof.
  intros B. unfold children. destruct (has_tree off) eqn:T; [|intros H I; injection H as <- _; destruct I]. apply has_tree_iff in T as [S N]. intros H I. split; [exact S|]. split; [exact N|].
  apply gen_bind_any in H as [(x & H & _)|(l1 & vs & l2 & H1 & H2 & ->)]; [apply gen_of_any in H as [-> _]; destruct I|]. apply gen_of_ok in H1 as [-> H1]. apply tree_iff in H1; [|assumption..].
  destruct (each_in _ _ _ _ _ _ B H2 I) as (v & root & l' & r' & R). exists vs, v, root, l', r'. split; [exact H1|exact R].
Qed.

Lemma instances_yields ansi lower content fuel : forall off l r i, is_bytes content -> set off -> instances ansi lower content fuel off = Some (l, r) -> In i l ->
  exists x tr name br u li u' v, below content off x /\ node_has content x [tr; name; br; u; li; u'; v] /\ set br /\ instance_node ansi lower content br i.
Proof.
  induction fuel as [|fuel IH]; intros off l r i B S; cbn [instances]; [discriminate|]. intros H I. apply gen_bind_any in H as [(e & H & _)|(l1 & w & l2 & H1 & H & ->)].
  { apply gen_of_any in H as [-> _]. destruct I. }
  apply gen_of_ok in H1 as [-> H1]. apply words_iff in H1 as [L H1]; [|assumption..]. destruct w as [|tr [|name [|br [|u [|li [|u' [|v [|? ?]]]]]]]]; try discriminate L. unfold word in H. cbn [nth] in H.
  assert (K : forall l3 r3, (if 40 <? br then gdo i <- gen_of (instance_at ansi lower content br); yield i else done) = Some (l3, r3) -> In i l3 -> set br /\ instance_node ansi lower content br i).
  { intros l3 r3 H3 I3. destruct (set_dec br) as [D|D]; revert H3; on_set D; intros H3; [|injection H3 as <- _; destruct I3]. split; [exact D|].
    apply gen_bind_any in H3 as [(x & H3 & _)|(l5 & j & l6 & H4 & H5 & ->)]; [apply gen_of_any in H3 as [-> _]; destruct I3|]. apply gen_of_ok in H4 as [-> H4]. injection H5 as <- _.
    destruct I3 as [<-|[]]. apply instance_at_iff; assumption. }
  apply gen_bind_any in H as [(e & H & _)|(l3 & [] & l4 & H2 & H3 & ->)].
  - destruct (K _ _ H I) as [D X]. exists off, tr, name, br, u, li, u', v. split; [constructor|auto].
  - cbn [app] in I. apply in_app_or in I as [I|I].
    + destruct (K _ _ H2 I) as [D X]. exists off, tr, name, br, u, li, u', v. split; [constructor|auto].
    + destruct (children_in _ _ _ _ _ _ B H3 I) as (S1 & N1 & vs & w & root & l' & r' & T & Iw & R & Hf & I').
      assert (Sr := root_set _ _ _ R). cbn in Sr. destruct (IH root l' r' i B Sr Hf I') as (x & q1 & q2 & q3 & q4 & q5 & q6 & q7 & Bl & Q).
      exists x, q1, q2, q3, q4, q5, q6, q7. split; [|exact Q]. eapply be_down; eassumption.
Qed.

(** ** Namespaces *)

Lemma namespaces_sound ansi lower content fuel : forall path off l, is_bytes content -> set off -> namespaces ansi lower content fuel path off = Some (l, Ok tt) -> spaces ansi lower content path off l.
Proof.
  induction fuel as [|fuel IH]; intros path off l B S; cbn [namespaces]; [discriminate|]. intros H. apply gen_bind_ok in H as (l1 & w & l2 & H1 & H & ->). apply gen_of_ok in H1 as [-> H1].
  apply words_iff in H1 as [L H1]; [|assumption..]. destruct w as [|tr [|name [|br [|u [|li [|u' [|v [|? ?]]]]]]]]; try discriminate L. unfold word in H. cbn [nth] in H.
  destruct (set_dec br) as [D|D]; revert H; on_set D; intros H; [|injection H as <-; eapply sp_none; eassumption].
  apply gen_bind_ok in H as (l3 & i & l4 & H2 & H & ->). apply gen_of_ok in H2 as [-> H2]. apply instance_at_iff in H2; [|assumption..].
  apply gen_bind_ok in H as (l5 & [j path'] & l6 & H3 & H & ->). apply gen_of_ok in H3 as [-> H3]. unfold namespace_of in H3. destruct i as [[m t]|]; [|discriminate].
  destruct (sdict_get (s2z "Name"%string) t) as [[| | |s|]|] eqn:G; try discriminate. injection H3 as <- <-.
  apply gen_bind_ok in H as (l7 & [] & l8 & H4 & H5 & ->). injection H4 as <-. apply children_iff in H5; [|exact B]. destruct H5 as (kids & ls & K & F & ->). cbn [app].
  assert (Ks := kids_set _ _ _ K). eapply sp_node; try eassumption.
  clear K. induction F as [|r lr kids ls E F IHF]; [constructor|]. inversion Ks; subst. cbn [concat]. constructor; [apply IH; assumption|apply IHF; assumption].
Qed.

Lemma namespaces_complete ansi lower content : is_bytes content ->
  (forall path off l, spaces ansi lower content path off l -> set off -> exists fuel, namespaces ansi lower content fuel path off = Some (l, Ok tt)) /\
  (forall path kids l, spaces_list ansi lower content path kids l -> Forall set kids ->
     exists fuel ls, Forall2 (fun r l => namespaces ansi lower content fuel path r = Some (l, Ok tt)) kids ls /\ l = concat ls).
Proof.
  intros B. apply spaces_both.
  - intros path off tr name br u li u' v H D S. exists 1%nat. cbn [namespaces].
    assert (X : node (rd_node 7) content off = Ok [tr; name; br; u; li; u'; v]) by (apply words_iff; auto). rewrite (gen_go _ _ _ X). unfold word. cbn [nth]. on_set D. reflexivity.
  - intros path off tr name br u li u' v m t s kids rest H D I G K _ IH S. destruct (IH (kids_set _ _ _ K)) as (fuel & ls & F & ->). exists (Datatypes.S fuel). cbn [namespaces].
    assert (X : node (rd_node 7) content off = Ok [tr; name; br; u; li; u'; v]) by (apply words_iff; auto). rewrite (gen_go _ _ _ X). unfold word. cbn [nth]. on_set D.
    assert (C : children content tr (namespaces ansi lower content fuel (path ++ [s])) = Some (concat ls, Ok tt)) by (apply children_iff; eauto).
    apply (instance_at_iff _ _ _ _ _ B D) in I. rewrite (gen_go _ _ _ I).
    assert (NS : namespace_of path (Some (m, t)) = Ok ((m, t), path ++ [s])) by (unfold namespace_of; rewrite G; reflexivity). rewrite (gen_go _ _ _ NS).
    apply gen_bind_ok. exists [((m, t), join [92] (path ++ [s]))], tt, (concat ls). auto.
  - intros path _. exists O, []. split; [constructor|reflexivity].
  - intros path off kids l rest _ IH1 _ IH2 F. inversion F; subst. destruct (IH1 ltac:(assumption)) as [f1 E1]. destruct (IH2 ltac:(assumption)) as (f2 & ls & E2 & ->).
    exists (max f1 f2), (l :: ls). split; [|reflexivity]. constructor; [eapply namespaces_mono; [|exact E1]; lia|].
    eapply forall2_weaken; [|exact E2]. intros r lr E. eapply namespaces_mono; [|exact E]. lia.
Qed.

Lemma read_namespaces_iff ansi lower content root l : is_bytes content ->
  ((exists fuel, read_namespaces ansi lower content fuel root = Some (l, Ok tt)) <-> exists off, root = Some off /\ (set off /\ spaces ansi lower content [] off l \/ ~ set off /\ l = [])).
Proof.
  intros B. unfold read_namespaces, from_root. split.
  - intros [fuel H]. destruct root as [off|]; [|discriminate]. exists off. split; [reflexivity|]. destruct (set_dec off) as [D|D]; revert H; on_set D; intros H.
    + left. split; [exact D|]. eapply namespaces_sound; eassumption.
    + right. injection H as <-. auto.
  - intros (off & -> & [[D F]|[D ->]]); on_set D; [apply namespaces_complete; assumption|exists O; reflexivity].
Qed.

Lemma namespaces_errors ansi lower content fuel : forall path off l x, is_bytes content -> set off -> namespaces ansi lower content fuel path off = Some (l, Err x) -> soft3 x \/ x = TypeError.
Proof.
  induction fuel as [|fuel IH]; intros path off l x B S; cbn [namespaces]; [discriminate|]. intros H. apply gen_bind_any in H as [(e & H & He)|(l1 & w & l2 & _ & H & _)].
  - apply gen_of_any in H as [_ H]. injection He as <-. left. apply soft_soft3. eapply words_errors; eassumption.
  - destruct (set_dec (word w 2)) as [D|D]; revert H; on_set D; intros H; [|discriminate]. apply gen_bind_any in H as [(e & H & He)|(l3 & i & l4 & _ & H & _)].
    { apply gen_of_any in H as [_ H]. injection He as <-. left. eapply instance_at_errors; [exact B|exact D|exact H]. }
    apply gen_bind_any in H as [(e & H & He)|(l5 & [j path'] & l6 & _ & H & _)].
    { apply gen_of_any in H as [_ H]. injection He as <-. unfold namespace_of in H. destruct i as [[m t]|]; [|injection H as <-; left; unfold soft3; auto].
      destruct (sdict_get (s2z "Name"%string) t) as [[| | |s|]|]; try (injection H as <-; auto). discriminate. }
    apply gen_bind_any in H as [(e & H & He)|(l7 & [] & l8 & _ & H & _)]; [discriminate|].
    apply children_err in H as [H|(r & l' & R & H)]; [left; now apply soft_soft3| |exact B]. eapply IH; eassumption.
Qed.

(** ** Class definitions *)

Lemma list_elements_mono {E} content n m off (f f' : Z -> gen E unit) x : (n <= m)%nat -> (forall v y, f v = Some y -> f' v = Some y) ->
  list_elements content n off f = Some x -> list_elements content m off f' = Some x.
Proof.
  intros L H. revert m off x L. induction n as [|n IH]; intros [|m] off x L; cbn [list_elements]; destruct (40 <? off); auto; try discriminate; try lia.
  apply gen_bind_mono; [auto|]. intros l y. apply gen_bind_mono; [auto|]. intros _ z. apply gen_bind_mono; [apply H|]. intros _ u. apply IH. lia.
Qed.

Lemma classes_mono ansi lower content n m off x : (n <= m)%nat -> classes ansi lower content n off = Some x -> classes ansi lower content m off = Some x.
Proof.
  revert m off x. induction n as [|n IH]; intros [|m] off x L; cbn [classes]; try discriminate; try lia. apply gen_bind_mono; [auto|]. intros l y. apply gen_bind_mono; [auto|]. intros _ z.
  apply gen_bind_mono.
  - intros w. destruct (40 <? word l 4); [|auto]. apply gen_bind_mono; [auto|]. intros h q. apply list_elements_mono; [lia|auto].
  - intros _ w. destruct ((40 <? word l 5) && _)%bool; [|auto]. apply gen_bind_mono; [auto|]. intros kids q. apply each_mono. intros v u. destruct (40 <? v); [|auto]. apply IH. lia.
Qed.

Lemma elements_sound {E} content fuel (f : Z -> gen E unit) : forall off l, is_bytes content -> list_elements content fuel off f = Some (l, Ok tt) ->
  exists vs ls, elements_of content off vs /\ Forall2 (fun v l => f v = Some (l, Ok tt)) vs ls /\ l = concat ls.
Proof.
  induction fuel as [|fuel IH]; intros off l B; cbn [list_elements]; destruct (set_dec off) as [D|D]; on_set D; try discriminate.
  1,3: intros H; injection H as <-; exists [], []; split; [now constructor|]; split; [constructor|reflexivity].
  intros H. apply gen_bind_ok in H as (l1 & w & l2 & H1 & H & ->). apply gen_of_ok in H1 as [-> H1]. apply words_iff in H1 as [L H1]; [|assumption..].
  destruct w as [|u [|name [|v [|a [|b [|pv [|nx [|? ?]]]]]]]]; try discriminate L. unfold word in H. cbn [nth] in H.
  apply gen_bind_ok in H as (l3 & [] & l4 & H2 & H & ->). apply gen_bind_ok in H as (l5 & [] & l6 & H3 & H4 & ->). destruct (IH _ _ B H4) as (vs & ls & V & F & ->).
  assert (l3 = [] /\ (set name -> name_node content name)) as [-> N].
  { destruct (set_dec name) as [D2|D2]; revert H2; on_set D2; intros H2; [|injection H2 as <-; tauto]. apply gen_bind_ok in H2 as (l7 & s & l8 & H5 & H6 & ->). apply gen_of_ok in H5 as [-> H5]. injection H6 as <-.
    split; [reflexivity|]. intros _. apply name_node_iff; eauto. }
  exists (v :: vs), (l5 :: ls). split; [eapply eo_next; eassumption|]. split; [constructor; assumption|reflexivity].
Qed.

Lemma elements_complete {E} content (f : Z -> gen E unit) off vs : is_bytes content -> elements_of content off vs ->
  exists fuel, forall ls, Forall2 (fun v l => f v = Some (l, Ok tt)) vs ls -> list_elements content fuel off f = Some (concat ls, Ok tt).
Proof.
  intros B V. induction V as [off D|off u name v a b pv nx vs D H N V IH].
  - exists O. intros ls F. inversion F; subst. cbn [list_elements]. on_set D. reflexivity.
  - destruct IH as [fuel IH]. exists (S fuel). intros ls F. inversion F as [|? l ? ls' Hf F']; subst. cbn [list_elements]. on_set D.
    assert (X : node (rd_node 7) content off = Ok [u; name; v; a; b; pv; nx]) by (apply words_iff; auto). rewrite (gen_go _ _ _ X). unfold word. cbn [nth].
    apply gen_bind_ok. exists [], tt, (concat (l :: ls')). split; [|split; [|reflexivity]].
    + destruct (set_dec name) as [D2|D2]; on_set D2; [|reflexivity]. apply (proj2 (name_node_iff _ _ B D2)) in N as [s N]; [|assumption]. rewrite (gen_go _ _ _ N). reflexivity.
    + apply gen_bind_ok. exists l, tt, (concat ls'). split; [exact Hf|]. split; [apply IH; exact F'|reflexivity].
Qed.

Definition instance_of_element (ansi : bytes -> option str) (lower : str -> str) (content : bytes) (v : Z) : gen (option inst) unit :=
  if 40 <? v then gdo i <- gen_of (instance_at ansi lower content v); yield i else done.

Lemma listed_iff ansi lower content vs l : is_bytes content ->
  (listed ansi lower content vs l <-> exists ls, Forall2 (fun v l => instance_of_element ansi lower content v = Some (l, Ok tt)) vs ls /\ l = concat ls).
Proof.
  intros B. split.
  - intros H. induction H as [|v vs l D H (ls & F & ->)|v vs i l D I H (ls & F & ->)].
    + exists []. split; [constructor|reflexivity].
    + exists ([] :: ls). split; [constructor; [|exact F]|reflexivity]. unfold instance_of_element. on_set D. reflexivity.
    + exists ([i] :: ls). split; [constructor; [|exact F]|reflexivity]. unfold instance_of_element. on_set D. apply (instance_at_iff _ _ _ _ _ B D) in I. rewrite (gen_go _ _ _ I). reflexivity.
  - intros (ls & F & ->). induction F as [|v lv vs ls H F IH]; [constructor|]. unfold instance_of_element in H. destruct (set_dec v) as [D|D]; revert H; on_set D; intros H.
    + apply gen_bind_ok in H as (l1 & i & l2 & H1 & H2 & ->). apply gen_of_ok in H1 as [-> H1]. injection H2 as <-. apply instance_at_iff in H1; [|assumption..]. cbn. constructor; assumption.
    + injection H as <-. cbn. constructor; assumption.
Qed.

Definition has_subs (sub type : Z) : bool := (40 <? sub) && ((type =? 9) || (type =? 10)).

Lemma has_subs_true sub type : has_subs sub type = true <-> set sub /\ (type = 9 \/ type = 10).
Proof. unfold has_subs. rewrite Bool.andb_true_iff, Bool.orb_true_iff, set_ltb, !Z.eqb_eq. reflexivity. Qed.

Lemma each_class_sound {E} vs (f : Z -> gen E unit) l : each vs (fun v => if 40 <? v then f v else done) = Some (l, Ok tt) ->
  exists ls, Forall2 (fun v l => set v /\ f v = Some (l, Ok tt) \/ ~ set v /\ l = []) vs ls /\ l = concat ls.
Proof.
  revert l. induction vs as [|v vs IH]; intros l; cbn [each].
  - intros H. injection H as <-. exists []. split; [constructor|reflexivity].
  - intros H. apply gen_bind_ok in H as (l1 & [] & l2 & H1 & H2 & ->). destruct (IH _ H2) as (ls & F & ->). exists (l1 :: ls). split; [constructor; [|exact F]|reflexivity].
    destruct (set_dec v) as [D|D]; revert H1; on_set D; intros H1; [auto|]. injection H1 as <-. auto.
Qed.

Lemma classes_sound ansi lower content fuel : forall off l, is_bytes content -> set off -> classes ansi lower content fuel off = Some (l, Ok tt) -> class_tree ansi lower content off l.
Proof.
  induction fuel as [|fuel IH]; intros off l B S; cbn [classes]; [discriminate|]. intros H. apply gen_bind_ok in H as (l1 & w & l2 & H1 & H & ->). apply gen_of_ok in H1 as [-> H1].
  apply words_iff in H1 as [L H1]; [|assumption..]. destruct w as [|i [|br [|p [|ty [|li [|sub [|u [|tr [|? ?]]]]]]]]]; try discriminate L. unfold word in H. cbn [nth] in H.
  apply gen_bind_ok in H as (l3 & [] & l4 & H2 & H & ->). apply gen_bind_ok in H as (own & [] & rest & H3 & H4 & ->).
  assert (l3 = [] /\ (set br -> exists c, class_node ansi lower content br c)) as [-> C].
  { destruct (set_dec br) as [D2|D2]; revert H2; on_set D2; intros H2; [|injection H2 as <-; tauto]. apply gen_bind_ok in H2 as (l7 & s & l8 & H5 & H6 & ->). apply gen_of_ok in H5 as [-> H5]. injection H6 as <-.
    split; [reflexivity|]. intros _. apply class_at_iff in H5; eauto. }
  assert (K : exists kids, (set sub /\ (ty = 9 \/ ty = 10) /\ tree_of content sub kids \/ ~ (set sub /\ (ty = 9 \/ ty = 10)) /\ kids = []) /\ class_trees ansi lower content kids rest).
  { fold (has_subs sub ty) in H4. destruct (has_subs sub ty) eqn:Hs.
    - apply has_subs_true in Hs as [D T]. apply gen_bind_ok in H4 as (l5 & kids & l6 & H5 & H6 & ->). apply gen_of_ok in H5 as [-> H5]. apply tree_iff in H5; [|assumption..]. exists kids. split; [left; auto|].
      apply each_class_sound in H6 as (ls & F & ->). cbn [app]. clear H5. induction F as [|v lv vs ls [[Dv Hv]|[Dv ->]] F IHF]; cbn [concat]; [constructor| |].
      + apply cs_set; [exact Dv|apply IH; assumption|exact IHF].
      + apply cs_unset; assumption.
    - injection H4 as <-. exists []. split; [|constructor]. right. split; [|reflexivity]. rewrite <- has_subs_true. congruence. }
  destruct K as (kids & K1 & K2). cbn [app]. eapply ct_node; [exact H1|exact C| |exact K1|exact K2].
  destruct (set_dec li) as [D|D]; revert H3; on_set D; intros H3; [left|right].
  - split; [exact D|]. apply gen_bind_ok in H3 as (l5 & h & l6 & H5 & H6 & ->). apply gen_of_ok in H5 as [-> H5]. apply words_iff in H5 as [L5 H5]; [|assumption..].
    destruct h as [|a [|first [|last [|b [|n [|? ?]]]]]]; try discriminate L5. cbn [nth] in H6. apply elements_sound in H6; [|exact B]. destruct H6 as (vs & ls & V & F & ->).
    exists a, first, last, b, n, vs. split; [exact H5|]. split; [exact V|]. apply listed_iff; [exact B|]. exists ls. split; [exact F|reflexivity].
  - injection H3 as <-. auto.
Qed.

Lemma classes_complete ansi lower content : is_bytes content ->
  (forall off l, class_tree ansi lower content off l -> set off -> exists fuel, classes ansi lower content fuel off = Some (l, Ok tt)) /\
  (forall kids l, class_trees ansi lower content kids l -> exists fuel, each kids (fun v => if 40 <? v then classes ansi lower content fuel v else done) = Some (l, Ok tt)).
Proof.
  intros B. apply class_both.
  - intros off i br p ty li sub u tr own kids rest H C O K _ [f1 IH] S.
    assert (Q : exists f2, (if 40 <? li then gdo h <- gen_of (node (rd_node 5) content li); list_elements content f2 (word h 1) (instance_of_element ansi lower content) else done) = Some (own, Ok tt)).
    { destruct O as [[D (a & first & last & b & n & vs & H2 & V & F)]|[D ->]]; on_set D; [|exists O; reflexivity]. apply listed_iff in F; [|exact B]. destruct F as (ls & F & ->).
      destruct (elements_complete _ (instance_of_element ansi lower content) _ _ B V) as [f2 X]. exists f2. assert (Y : node (rd_node 5) content li = Ok [a; first; last; b; n]) by (apply words_iff; auto).
      rewrite (gen_go _ _ _ Y). unfold word. cbn [nth]. apply X. exact F. }
    destruct Q as [f2 Q]. exists (Datatypes.S (max f1 f2)). cbn [classes].
    assert (X : node (rd_node 8) content off = Ok [i; br; p; ty; li; sub; u; tr]) by (apply words_iff; auto). rewrite (gen_go _ _ _ X). unfold word. cbn [nth].
    apply gen_bind_ok. exists [], tt, (own ++ rest). split; [|split; [|reflexivity]].
    { destruct (set_dec br) as [D|D]; on_set D; [|reflexivity]. destruct (C D) as [c Hc]. apply (class_at_iff _ _ _ _ _ B D) in Hc. rewrite (gen_go _ _ _ Hc). reflexivity. }
    apply gen_bind_ok. exists own, tt, rest. split; [|split; [|reflexivity]].
    { revert Q. destruct (40 <? li); [|auto]. apply gen_bind_mono; [auto|]. intros h y. apply list_elements_mono; [lia|auto]. }
    fold (has_subs sub ty). destruct K as [(D & T & K)|[K ->]].
    + assert (Y : has_subs sub ty = true) by (apply has_subs_true; auto). rewrite Y. apply (tree_iff _ _ _ B D) in K. rewrite (gen_go _ _ _ K).
      revert IH. apply each_mono. intros v y. destruct (40 <? v); [|auto]. apply classes_mono. lia.
    + destruct (has_subs sub ty) eqn:Y; [apply has_subs_true in Y; contradiction|]. exact IH.
  - exists O. reflexivity.
  - intros off kids rest D _ [f IH]. exists f. cbn [each]. on_set D. apply gen_bind_ok. exists [], tt, rest. auto.
  - intros off kids l rest D _ IH1 _ [f2 IH2]. destruct (IH1 D) as [f1 E1]. exists (max f1 f2). cbn [each]. on_set D. apply gen_bind_ok. exists l, tt, rest.
    split; [eapply classes_mono; [|exact E1]; lia|]. split; [|reflexivity]. revert IH2. apply each_mono. intros v y. destruct (40 <? v); [|auto]. apply classes_mono. lia.
Qed.

Lemma read_classes_iff ansi lower content root l : is_bytes content ->
  ((exists fuel, read_classes ansi lower content fuel root = Some (l, Ok tt)) <-> exists off, root = Some off /\ (set off /\ class_tree ansi lower content off l \/ ~ set off /\ l = [])).
Proof.
  intros B. unfold read_classes, from_root. split.
  - intros [fuel H]. destruct root as [off|]; [|discriminate]. exists off. split; [reflexivity|]. destruct (set_dec off) as [D|D]; revert H; on_set D; intros H.
    + left. split; [exact D|]. eapply classes_sound; eassumption.
    + right. injection H as <-. auto.
  - intros (off & -> & [[D F]|[D ->]]); on_set D; [apply classes_complete; assumption|exists O; reflexivity].
Qed.

Lemma elements_err {E} content fuel (f : Z -> gen E unit) x : forall off l, is_bytes content -> list_elements content fuel off f = Some (l, Err x) -> soft x \/ exists v l', f v = Some (l', Err x).
Proof.
  induction fuel as [|fuel IH]; intros off l B; cbn [list_elements]; destruct (set_dec off) as [D|D]; on_set D; try discriminate.
  intros H. apply gen_bind_any in H as [(e & H & He)|(l1 & w & l2 & _ & H & _)]; [apply gen_of_any in H as [_ H]; injection He as <-; left; eapply words_errors; eassumption|].
  apply gen_bind_any in H as [(e & H & He)|(l3 & [] & l4 & _ & H & _)].
  { injection He as <-. destruct (set_dec (word w 1)) as [D2|D2]; revert H; on_set D2; intros H; [|discriminate]. apply gen_bind_any in H as [(e & H & He)|(l7 & s & l8 & _ & H & _)]; [|discriminate].
    apply gen_of_any in H as [_ H]. injection He as <-. left. eapply name_node_errors; [exact B|exact D2|exact H]. }
  apply gen_bind_any in H as [(e & H & He)|(l3' & [] & l4' & _ & H & _)]; [injection He as <-; eauto|]. eapply IH; eassumption.
Qed.

Lemma each_class_err {E} vs (f : Z -> gen E unit) l x : each vs (fun v => if 40 <? v then f v else done) = Some (l, Err x) -> exists v l', set v /\ f v = Some (l', Err x).
Proof.
  revert l. induction vs as [|v vs IH]; intros l; cbn [each]; [discriminate|]. intros H. apply gen_bind_any in H as [(e & H & He)|(l1 & [] & l2 & _ & H & _)]; [|eapply IH; exact H].
  injection He as <-. destruct (set_dec v) as [D|D]; revert H; on_set D; intros H; [eauto|discriminate].
Qed.

Lemma classes_errors ansi lower content fuel : forall off l x, is_bytes content -> set off -> classes ansi lower content fuel off = Some (l, Err x) -> soft3 x.
Proof.
  induction fuel as [|fuel IH]; intros off l x B S; cbn [classes]; [discriminate|]. intros H.
  apply gen_bind_any in H as [(e & H & He)|(l1 & w & l2 & _ & H & _)]; [apply gen_of_any in H as [_ H]; injection He as <-; apply soft_soft3; eapply words_errors; eassumption|].
  apply gen_bind_any in H as [(e & H & He)|(l3 & [] & l4 & _ & H & _)].
  { injection He as <-. destruct (set_dec (word w 1)) as [D2|D2]; revert H; on_set D2; intros H; [|discriminate]. apply gen_bind_any in H as [(e & H & He)|(l7 & s & l8 & _ & H & _)]; [|discriminate].
    apply gen_of_any in H as [_ H]. injection He as <-. apply soft_soft3. eapply class_at_errors; [exact B|exact D2|exact H]. }
  apply gen_bind_any in H as [(e & H & He)|(l5 & [] & l6 & _ & H & _)].
  { injection He as <-. destruct (set_dec (word w 4)) as [D2|D2]; revert H; on_set D2; intros H; [|discriminate]. apply gen_bind_any in H as [(e & H & He)|(l7 & h & l8 & _ & H & _)].
    - apply gen_of_any in H as [_ H]. injection He as <-. apply soft_soft3. eapply words_errors; [exact B|exact D2|exact H].
    - apply elements_err in H as [H|(v & l' & H)]; [now apply soft_soft3| |exact B]. destruct (set_dec v) as [D|D]; revert H; on_set D; intros H; [|discriminate].
      apply gen_bind_any in H as [(e & H & He)|(l9 & i & l10 & _ & H & _)]; [|discriminate]. apply gen_of_any in H as [_ H]. injection He as <-. eapply instance_at_errors; [exact B|exact D|exact H]. }
  fold (has_subs (word w 5) (word w 3)) in H. destruct (has_subs (word w 5) (word w 3)) eqn:Hs; [|discriminate]. apply has_subs_true in Hs as [D _].
  apply gen_bind_any in H as [(e & H & He)|(l7 & kids & l8 & _ & H & _)].
  - apply gen_of_any in H as [_ H]. injection He as <-. apply soft_soft3. eapply tree_errors; [exact B|exact D|exact H].
  - apply each_class_err in H as (v & l' & Dv & H). eapply IH; eassumption.
Qed.

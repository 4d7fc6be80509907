From Verif Require Import Base BaseFacts CoreModel VarModel VarFacts SeqModel SeqSpec SeqFacts StructFacts StrModel StrFacts CpioModel DictModel TextModel.
From Verif Require Import KcModel KcSpec KcProofs KcdModel KcdSpec.
From Coq Require Import Permutation Sorted.

(** ** Structures *)

Lemma format_lines_ok l : Forall (fun a => a_description a <> None) l -> exists ts, format_lines l = Ok ts.
Proof.
  induction 1 as [|a l Ha _ [ts IH]]; cbn [format_lines]; [eauto|]. destruct (a_value a) as [v|]; [|eauto].
  assert (E : exists t, format_attribute (a_description a) (a_callback a) v = Ok t).
  { destruct (a_description a) as [d|]; [|contradiction]. unfold format_attribute, format_value.
    destruct (match a_callback a with Some f => f v | None => CPlain v end) as [w nl|w]; destruct w; try destruct (has_char 10 s); eauto. }
  destruct E as [t ->]. cbn [bind]. rewrite IH. cbn [bind]. eauto.
Qed.

Lemma structure_ok l : Forall (fun a => a_description a <> None) l -> exists t, format_structure l = Ok t.
Proof. intros H. unfold format_structure. destruct (format_lines_ok l H) as [ts ->]. cbn [bind]. eauto. Qed.

Ltac descriptions := repeat (constructor; [discriminate|]); constructor.

(** ** What is read *)

(** The exceptions that only debug output raises. *)
Definition derr (e : exn) : Prop := In e [IndexError; TypeError; ValueError].

(** Reading with debug output follows reading without. *)
Definition follows {A B} (p : B -> A) (r : result A) (d : result (str * B)) : Prop :=
  match d with Ok (_, x) => r = Ok (p x) | Err e => r = Err e \/ derr e end.

Lemma follows_err {A B} (p : B -> A) e : follows p (Err e) (Err e).
Proof. left. reflexivity. Qed.

Lemma derr_i : derr IndexError. Proof. unfold derr. cbn [In]. tauto. Qed.
Lemma derr_t : derr TypeError. Proof. unfold derr. cbn [In]. tauto. Qed.
Lemma derr_v : derr ValueError. Proof. unfold derr. cbn [In]. tauto. Qed.
#[local] Hint Resolve derr_i derr_t derr_v : core.

Ltac structure := match goal with |- context [format_structure ?l] => let x := fresh "txt" in destruct (structure_ok l ltac:(descriptions)) as [x ->] end; cbn [bind].

Lemma header_both content off : is_bytes content ->
  (exists t size key, kd_record_header content off = Ok (t, (size, key)) /\ kc_record_header content off = Ok size) \/
  (exists e, kd_record_header content off = Err e /\ kc_record_header content off = Err e).
Proof.
  intros Hb. unfold kd_record_header, kc_record_header. destruct (read_struct content (repeat (FU BE 4) 6) off) as [vs|e] eqn:E; cbn [bind]; [|eauto].
  apply read_struct_fval in E; [|exact Hb|cbn [repeat]; kinds_wf]. cbn [repeat] in E. vals E. structure. left. eauto 8.
Qed.

Lemma offsets_both content pos n :
  (exists t l, kd_offsets content pos n = Ok (t, l) /\ kc_offsets content pos n = Ok l) \/
  (exists e, kd_offsets content pos n = Err e /\ kc_offsets content pos n = Err e).
Proof. unfold kd_offsets, kc_offsets. cbv zeta. destruct (seq_bs _ _ _) as [l|e]; cbn [bind]; eauto 6. Qed.

Lemma read_here_derr content pos n e : read_here content pos n = Err e -> derr e.
Proof. unfold read_here, f_try_read. destruct (n <? -1); cbn [bind]; [|discriminate]. intros [= <-]. auto. Qed.

Lemma values_follow cs : forall i os ends data first row, follows (fun x => x) (kc_values cs os data first row) (kd_values i cs os ends data first row).
Proof.
  induction cs as [|c cs IH]; intros i os ends data first row; cbn [kc_values kd_values]; [reflexivity|]. destruct os as [|o os]; [left; reflexivity|].
  destruct (value_range first o ends) as [[[a b] ends']|e] eqn:R; cbn [bind].
  - destruct (kc_name c) as [name|]; [|right; auto]. destruct (kc_value _ _ _ _) as [v|e]; cbn [bind]; [|left; reflexivity].
    specialize (IH (i + 1) os ends' data first (row_set (Some name) v row)). unfold follows in *.
    destruct (kd_values _ _ _ _ _ _ _) as [[t r]|e]; cbn [bind]; exact IH.
  - right. revert R. unfold value_range. destruct (o =? 0); [discriminate|].
    assert (N : forall s l x, next_end s l = Err x -> x = IndexError).
    { intros s l x. induction l as [|y l IHl]; cbn [next_end]; [congruence|]. destruct (y <=? s); [exact IHl|discriminate]. }
    destruct (next_end _ ends) as [[x l]|x] eqn:E; cbn [bind]; [discriminate|]. intros [= <-]. rewrite (N _ _ _ E). auto.
Qed.

Lemma record_follow content off type tables : is_bytes content -> follows fst (kc_read_record content off type tables) (kd_read_record content off type tables).
Proof.
  intros Hb. unfold kc_read_record, kd_read_record. destruct (dict_get type tables) as [table|]; [|left; reflexivity].
  destruct (header_both content off Hb) as [(t0 & size & key & -> & ->)|(e & -> & ->)]; cbn [bind]; [|left; reflexivity].
  destruct (kt_columns table) as [|c cs] eqn:Ec; [reflexivity|].
  destruct (offsets_both content (off + 24) (len (c :: cs))) as [(t1 & l & -> & ->)|(e & -> & ->)]; cbn [bind]; [|left; reflexivity].
  destruct (read_here _ _ _) as [data|e] eqn:Er; cbn [bind]; [|left; reflexivity].
  pose proof (values_follow (c :: cs) 0 l (value_ends l (24 + 4 * len (c :: cs)) size) data (24 + 4 * len (c :: cs)) []) as F. unfold follows in *.
  destruct (kd_values _ _ _ _ _ _ _) as [[t r]|e]; cbn [bind].
  - rewrite F. reflexivity.
  - destruct F as [->|F]; [left; reflexivity|right; exact F].
Qed.

Lemma attribute_follow content off tables : is_bytes content -> follows fst (kc_read_attribute content off tables) (kd_read_attribute content off tables).
Proof.
  intros Hb. unfold kc_read_attribute, kd_read_attribute.
  destruct (header_both content off Hb) as [(t0 & size & key & -> & ->)|(e & -> & ->)]; cbn [bind]; [|left; reflexivity].
  destruct (offsets_both content (off + 24) 6) as [(t1 & l & -> & ->)|(e & -> & ->)]; cbn [bind]; [|left; reflexivity].
  destruct l as [|o0 [|o1 [|o2 [|o3 [|o4 [|o5 [|? l]]]]]]]; try (left; reflexivity).
  destruct (read_here _ _ _) as [data|e]; cbn [bind]; [|left; reflexivity].
  destruct (kc_int data 48 o0) as [rel|e]; cbn [bind]; [|left; reflexivity].
  destruct (kc_int data 48 o1) as [idn|e]; cbn [bind]; [|left; reflexivity].
  destruct (kc_int data 48 o2) as [fmt|e]; cbn [bind]; [|left; reflexivity].
  destruct (kc_string data 48 o3) as [name|e]; cbn [bind]; [|left; reflexivity].
  destruct (kc_int data 48 o5) as [dt|e]; cbn [bind]; [|left; reflexivity]. cbv zeta.
  destruct rel as [|rel| |]; try (left; reflexivity). destruct (dict_get rel tables) as [table|]; [|left; reflexivity].
  match goal with |- follows _ (bind ?r _) _ => destruct r as [nm|e]; cbn [bind]; [|left; reflexivity] end.
  destruct (dict_get 2 _) as [table2|]; [reflexivity|left; reflexivity].
Qed.

Lemma trailing_derr content off size pos e : kd_trailing content off size pos = Err e -> derr e.
Proof.
  unfold kd_trailing. cbv zeta. destruct (_ =? 0); [discriminate|]. destruct (read_here _ _ _) eqn:E; cbn [bind]; [discriminate|].
  intros [= <-]. eapply read_here_derr; exact E.
Qed.

Lemma index_follow content off tables : is_bytes content -> follows fst (kc_read_index content off tables) (kd_read_index content off tables).
Proof.
  intros Hb. unfold kc_read_index, kd_read_index.
  destruct (header_both content off Hb) as [(t0 & size & key & -> & ->)|(e & -> & ->)]; cbn [bind]; [|left; reflexivity].
  destruct (offsets_both content (off + 24) 5) as [(t1 & l & -> & ->)|(e & -> & ->)]; cbn [bind]; [|left; reflexivity].
  destruct (guard _ _) as [u|e]; cbn [bind]; [|left; reflexivity].
  destruct (read_struct content (repeat (FU BE 4) 5) (off + 44)) as [vs|e] eqn:E; cbn [bind]; [|left; reflexivity].
  cbn [repeat] in E. apply read_struct_fval in E; [|exact Hb|kinds_wf]. vals E. structure.
  destruct (kd_trailing _ _ _ _) as [[t3 pos]|e] eqn:T; cbn [bind].
  - destruct (dict_get _ tables); [|left; reflexivity]. destruct (dict_get 1 tables); [reflexivity|left; reflexivity].
  - right. eapply trailing_derr; exact T.
Qed.

Lemma info_follow content off tables : is_bytes content -> follows fst (kc_read_info content off tables) (kd_read_info content off tables).
Proof.
  intros Hb. unfold kc_read_info, kd_read_info.
  destruct (header_both content off Hb) as [(t0 & size & key & -> & ->)|(e & -> & ->)]; cbn [bind]; [|left; reflexivity].
  destruct (offsets_both content (off + 24) 2) as [(t1 & l & -> & ->)|(e & -> & ->)]; cbn [bind]; [|left; reflexivity].
  destruct (guard _ _) as [u|e]; cbn [bind]; [|left; reflexivity].
  destruct (read_var _ _ _ _) as [[[vs d] n]|e] eqn:E; cbn [bind]; [|left; reflexivity].
  apply read_var_fval in E as [E _]; [|exact Hb|kinds_wf]. vals E.
  destruct (decode_ascii d) as [name|e]; cbn [bind]; [|left; reflexivity]. cbv zeta.
  destruct (kd_trailing _ _ _ _) as [[t3 pos]|e] eqn:T; cbn [bind].
  - destruct (dict_get 0 _); [reflexivity|left; reflexivity].
  - right. eapply trailing_derr; exact T.
Qed.

Lemma any_follow content type off tables : is_bytes content -> follows fst (kc_read_any content type off tables) (kd_read_any content type off tables).
Proof.
  intros Hb. unfold kc_read_any, kd_read_any. destruct type as [|[p|[p|p|]|]|]; auto using record_follow, attribute_follow, index_follow, info_follow.
Qed.

Lemma records_follow content type toff offsets : is_bytes content -> forall tables pos,
  follows fst (kc_read_records content type toff offsets tables) (kd_read_records content type toff offsets tables pos).
Proof.
  intros Hb. induction offsets as [|o offsets IH]; intros tables pos; cbn [kc_read_records kd_read_records]; [reflexivity|].
  destruct (o =? 0); [apply IH|]. pose proof (any_follow content type (o + toff) tables Hb) as F. unfold follows in F.
  destruct (kd_read_any _ _ _ _) as [[t [tables' pos']]|e]; cbn [bind].
  - rewrite F. cbn [bind fst]. specialize (IH tables' pos'). unfold follows in *.
    destruct (kd_read_records _ _ _ _ _ _) as [[t' x]|e]; cbn [bind]; exact IH.
  - destruct F as [->|F]; [left; reflexivity|right; exact F].
Qed.

Lemma table_follow content toff tables : is_bytes content -> follows (fun x => x) (kc_read_table content toff tables) (kd_read_table content toff tables).
Proof.
  intros Hb. unfold kc_read_table, kd_read_table. destruct (read_var _ _ _ _) as [[[vs d] n]|e] eqn:E; cbn [bind]; [|left; reflexivity].
  cbn [repeat] in E. apply read_var_fval in E as [E _]; [|exact Hb|kinds_wf]. vals E.
  destruct (map_struct _ d) as [l|]; [|left; reflexivity]. structure.
  match goal with |- follows _ (kc_read_records _ ?ty _ _ _) (bind (kd_read_records _ _ _ _ _ ?p) _) => pose proof (records_follow content ty toff (ints l) Hb tables p) as F end.
  unfold follows in *. destruct (kd_read_records _ _ _ _ _ _) as [[t1 [tables' pos]]|e]; cbn [bind].
  - destruct (kd_table_trailing _ _ _ _) as [t2|e] eqn:T; cbn [bind]; [exact F|]. right. revert T. unfold kd_table_trailing. cbv zeta.
    destruct (_ =? 0); [discriminate|]. destruct (read_here _ _ _) eqn:R; cbn [bind]; [discriminate|]. intros [= <-]. eapply read_here_derr; exact R.
  - exact F.
Qed.

Lemma tables_follow content array offsets : is_bytes content -> forall tables,
  follows (fun x => x) (kc_read_tables content array offsets tables) (kd_read_tables content array offsets tables).
Proof.
  intros Hb. induction offsets as [|o offsets IH]; intros tables; cbn [kc_read_tables kd_read_tables]; [reflexivity|].
  pose proof (table_follow content (array + o) tables Hb) as F. unfold follows in F.
  destruct (kd_read_table _ _ _) as [[t tables']|e]; cbn [bind].
  - rewrite F. cbn [bind]. specialize (IH tables'). unfold follows in *. destruct (kd_read_tables _ _ _ _) as [[t' x]|e]; cbn [bind]; exact IH.
  - destruct F as [->|F]; [left; reflexivity|right; exact F].
Qed.

Lemma read_follow content : is_bytes content -> follows (fun x => x) (read_keychain content) (kd_read content).
Proof.
  intros Hb. unfold read_keychain, kd_read. destruct (read_struct _ _ _) as [vs|e] eqn:E; cbn [bind]; [|left; reflexivity].
  apply read_struct_fval in E; [|exact Hb|kinds_wf]. vals E. destruct (guard _ _) as [u|e]; cbn [bind]; [|left; reflexivity]. structure.
  unfold kc_read_array, kd_read_array. destruct (read_var _ _ _ _) as [[[vs d] n]|e] eqn:E; cbn [bind]; [|left; reflexivity].
  apply read_var_fval in E as [E _]; [|exact Hb|kinds_wf]. vals E. destruct (map_struct _ d) as [l|]; [|left; reflexivity]. structure.
  match goal with |- follows _ (kc_read_tables _ ?a _ _) _ => pose proof (tables_follow content a (ints l) Hb []) as F end. unfold follows in *.
  destruct (kd_read_tables _ _ _ _) as [[t' x]|e]; cbn [bind]; exact F.
Qed.

(** ** The ranges of the values *)

Lemma sort_in_perm x l : Permutation (sort_in x l) (x :: l).
Proof.
  induction l as [|y l IH]; cbn [sort_in]; [reflexivity|]. destruct (x <=? y); [reflexivity|]. rewrite IH. apply perm_swap.
Qed.

Lemma sorted_perm l : Permutation (sorted l) l.
Proof. induction l as [|x l IH]; [reflexivity|]. unfold sorted in *. cbn [fold_right]. rewrite sort_in_perm, IH. reflexivity. Qed.

Lemma sort_in_sorted x l : StronglySorted Z.le l -> StronglySorted Z.le (sort_in x l).
Proof.
  induction 1 as [|y l Hs IH F]; cbn [sort_in]; [repeat constructor|]. destruct (Z.leb_spec x y).
  - constructor; [constructor; assumption|]. constructor; [lia|]. eapply Forall_impl; [|exact F]. cbv beta. lia.
  - constructor; [exact IH|]. rewrite sort_in_perm. constructor; [lia|exact F].
Qed.

Lemma sorted_sorted l : StronglySorted Z.le (sorted l).
Proof. induction l as [|x l IH]; [constructor|]. unfold sorted in *. cbn [fold_right]. apply sort_in_sorted, IH. Qed.

Lemma filter_sorted (f : Z -> bool) l : StronglySorted Z.le l -> StronglySorted Z.le (filter f l).
Proof.
  induction 1 as [|y l Hs IH F]; cbn [filter]; [constructor|]. destruct (f y); [|exact IH]. constructor; [exact IH|].
  rewrite Forall_forall in *. intros z Hz. apply filter_In in Hz as [Hz _]. auto.
Qed.

Lemma shift_sorted k l : StronglySorted Z.le l -> StronglySorted Z.le (map (fun o => o - k - 1) l).
Proof.
  induction 1 as [|y l Hs IH F]; cbn [map]; [constructor|]. constructor; [exact IH|].
  rewrite Forall_map. eapply Forall_impl; [|exact F]. cbv beta. lia.
Qed.

Lemma sorted_snoc l x : StronglySorted Z.le l -> Forall (fun y => y <= x) l -> StronglySorted Z.le (l ++ [x]).
Proof.
  induction 1 as [|y l Hs IH F]; intros G; cbn [app]; [repeat constructor|]. apply Forall_cons_iff in G as [G1 G2]. constructor; [auto|].
  apply Forall_app. split; [exact F|]. constructor; [exact G1|constructor].
Qed.

Lemma starts_in offsets first x : In x (map (fun o => o - first - 1) (filter (fun o => first <? o) (sorted offsets))) <->
  exists o, In o offsets /\ first < o /\ x = o - first - 1.
Proof.
  rewrite in_map_iff. setoid_rewrite filter_In. setoid_rewrite Z.ltb_lt. split.
  - intros (o & <- & H1 & H2). exists o. split; [|auto]. eapply Permutation_in; [apply sorted_perm|exact H1].
  - intros (o & H1 & H2 & ->). exists o. split; [reflexivity|]. split; [|exact H2]. eapply Permutation_in; [symmetry; apply sorted_perm|exact H1].
Qed.

(** The ends: sorted, and every start but the least with the end of the record. *)
Lemma ends_sorted offsets first size : (forall o, In o offsets -> o <= size) -> StronglySorted Z.le (value_ends offsets first size).
Proof.
  intros H. unfold value_ends.
  assert (S : StronglySorted Z.le (map (fun o => o - first - 1) (filter (fun o => first <? o) (sorted offsets)) ++ [size - first])).
  { apply sorted_snoc; [apply shift_sorted, filter_sorted, sorted_sorted|]. apply Forall_forall. intros x Hx. apply starts_in in Hx as (o & Ho & _ & ->).
    specialize (H o Ho). lia. }
  destruct S as [|x l S _]; [constructor|exact S].
Qed.

Lemma ends_in offsets first size x : In x (value_ends offsets first size) -> x = size - first \/ exists o, In o offsets /\ first < o /\ x = o - first - 1.
Proof.
  unfold value_ends. rewrite <- starts_in. destruct (map _ _) as [|y l]; cbn [app tl]; [intros []|]. rewrite in_app_iff. cbn [In]. intuition congruence.
Qed.

Lemma ends_has offsets first size o : In o offsets -> first < o -> forall x, x = size - first \/ (exists o', In o' offsets /\ first < o' /\ x = o' - first - 1) ->
  (forall o', In o' offsets -> first < o' -> x <= o' - first - 1) \/ In x (value_ends offsets first size).
Proof.
  intros Ho Hf x. rewrite <- starts_in. unfold value_ends.
  pose proof (shift_sorted first _ (filter_sorted (fun o => first <? o) _ (sorted_sorted offsets))) as S.
  pose proof (proj2 (starts_in offsets first (o - first - 1)) (ex_intro _ o (conj Ho (conj Hf eq_refl)))) as I0.
  assert (M : forall o', In o' offsets -> first < o' -> In (o' - first - 1) (map (fun o => o - first - 1) (filter (fun o => first <? o) (sorted offsets))))
    by (intros o' A B; apply starts_in; eauto).
  revert S I0 M. generalize (map (fun o => o - first - 1) (filter (fun o => first <? o) (sorted offsets))) as l. intros [|y l] S I0 M H; [destruct I0|]. cbn [app tl].
  destruct H as [->|[<-|H]].
  - right. apply in_or_app. right. left. reflexivity.
  - left. intros o' A B. specialize (M o' A B) as [<-|M]; [lia|]. inversion_clear S as [|? ? ? F]. rewrite Forall_forall in F. apply F, M.
  - right. apply in_or_app. left. exact H.
Qed.

Lemma next_end_ok s l e l' : next_end s l = Ok (e, l') -> exists l1 r, l = l1 ++ l' /\ l' = e :: r /\ Forall (fun x => x <= s) l1 /\ s < e.
Proof.
  induction l as [|x l IH]; cbn [next_end]; [discriminate|]. destruct (Z.leb_spec x s).
  - intros E. destruct (IH E) as (l1 & r & -> & E2 & F & L). exists (x :: l1), r. repeat split; try assumption. constructor; assumption.
  - intros [= <- <-]. exists [], l. repeat split; [constructor|assumption].
Qed.

Lemma next_end_some s l : (exists x, In x l /\ s < x) -> exists e l', next_end s l = Ok (e, l').
Proof.
  induction l as [|y l IH]; intros (x & Hx & L); cbn [next_end]; [destruct Hx|]. destruct (Z.leb_spec y s); [|eauto].
  apply IH. exists x. split; [|exact L]. destruct Hx as [->|Hx]; [lia|exact Hx].
Qed.

Lemma next_end_none s l : (forall x, In x l -> x <= s) -> next_end s l = Err IndexError.
Proof.
  induction l as [|y l IH]; intros H; cbn [next_end]; [reflexivity|]. destruct (Z.leb_spec y s) as [_|L]; [|specialize (H y (or_introl eq_refl)); lia].
  apply IH. intros x Hx. apply H. right. exact Hx.
Qed.

(** The invariant of the loop: what was dropped lies before some value, what is left behind all values. *)
Definition left_ends (offsets : list Z) (first size : Z) (before ends : list Z) : Prop :=
  exists l1, value_ends offsets first size = l1 ++ ends /\
    Forall (fun x => exists o, In o before /\ x <= o - first - 1) l1 /\
    Forall (fun x => forall o, In o before -> o - first - 1 < x) ends.

Lemma left_step offsets first size before ends o :
  (forall o, In o offsets -> o = 0 \/ first < o <= size) -> 0 <= first -> In o offsets -> o <> 0 -> (forall x, In x before -> In x offsets /\ x <> 0) ->
  left_ends offsets first size before ends ->
  exists e ends', next_end (o - first - 1) ends = Ok (e, ends') /\ left_ends offsets first size (before ++ [o]) ends' /\
    first_behind offsets size (before ++ [o]) (e + first) /\ o - first - 1 < e.
Proof.
  intros Hv Hf Ho Hn Hb (l1 & El & D & F).
  assert (Hs : forall x, In x offsets -> x <= size) by (intros x Hx; destruct (Hv x Hx); destruct (Hv o Ho); lia).
  pose proof (ends_sorted offsets first size Hs) as S. rewrite El in S.
  assert (Hle : forall x, In x offsets -> x <> 0 -> first < x <= size) by (intros x Hx Hx0; destruct (Hv x Hx); [contradiction|assumption]).
  pose proof (Hle o Ho Hn) as Lo.
  (* the end of the record is left *)
  assert (I : In (size - first) ends).
  { destruct (ends_has offsets first size o Ho ltac:(lia) (size - first) (or_introl eq_refl)) as [C|I]; [specialize (C o Ho ltac:(lia)); lia|].
    rewrite El in I. apply in_app_or in I as [I|I]; [|exact I]. rewrite Forall_forall in D. destruct (D _ I) as (x & Hx & Lx).
    destruct (Hb x Hx) as [X1 X2]. specialize (Hle x X1 X2). lia. }
  destruct (next_end_some (o - first - 1) ends) as (e & ends' & E). { exists (size - first). split; [exact I|lia]. }
  exists e, ends'. split; [exact E|]. apply next_end_ok in E as (l2 & r & E2 & E3 & D2 & Le).
  assert (Se : Forall (fun x => e <= x) ends').
  { rewrite E2, E3 in S. rewrite E3. constructor; [lia|]. clear - S. rewrite app_assoc in S. revert S. generalize (l1 ++ l2). intros l S.
    induction l as [|y l IH]; cbn [app] in S; inversion_clear S; auto. }
  assert (B : forall x, In x (before ++ [o]) -> x - first - 1 < e).
  { intros x Hx. apply in_app_or in Hx as [Hx|[<-|[]]]; [|exact Le]. rewrite Forall_forall in F. apply F; [|exact Hx]. rewrite E2, E3. apply in_or_app. right. left. reflexivity. }
  split; [|split; [|exact Le]].
  - exists (l1 ++ l2). rewrite <- app_assoc, <- E2. split; [exact El|]. split.
    + apply Forall_app. split.
      * eapply Forall_impl; [|exact D]. intros x (y & Hy & L). exists y. split; [apply in_or_app; left; exact Hy|exact L].
      * eapply Forall_impl; [|exact D2]. intros x L. exists o. split; [apply in_or_app; right; left; reflexivity|exact L].
    + eapply Forall_impl; [|exact Se]. intros x L y Hy. specialize (B y Hy). cbv beta in L. lia.
  - assert (Ie : In e (value_ends offsets first size)) by (rewrite El, E2, E3; apply in_or_app; right; apply in_or_app; right; left; reflexivity).
    split; [|split].
    + destruct (ends_in _ _ _ _ Ie) as [->|(x & X1 & X2 & ->)]; [left; lia|]. right. exists x. repeat split; [exact X1|lia|lia].
    + intros x Hx. specialize (B x Hx). lia.
    + intros b Hbd Hbb. destruct (ends_has offsets first size o Ho ltac:(lia) (b - first)) as [C|I2].
      * destruct Hbd as [->|(x & X1 & X2 & ->)]; [left; lia|]. right. exists x. specialize (Hle x X1 X2). repeat split; [exact X1|lia|lia].
      * specialize (C o Ho ltac:(lia)). specialize (Hbb o ltac:(apply in_or_app; right; left; reflexivity)). lia.
      * rewrite El, E2 in I2. apply in_app_or in I2 as [I2|I2]; [|apply in_app_or in I2 as [I2|I2]].
        -- rewrite Forall_forall in D. destruct (D _ I2) as (x & Hx & L). specialize (Hbb x ltac:(apply in_or_app; left; exact Hx)). lia.
        -- rewrite Forall_forall in D2. specialize (D2 _ I2). specialize (Hbb o ltac:(apply in_or_app; right; left; reflexivity)). cbv beta in D2. lia.
        -- rewrite Forall_forall in Se. specialize (Se _ I2). cbv beta in Se. lia.
Qed.

Lemma values_dump_ok rec first offsets : 0 <= first -> (forall o, In o offsets -> o = 0 \/ first < o <= len rec) ->
  forall cs names os before ends i row row', map kc_name cs = map Some names -> length os = length cs -> incl os offsets ->
  (forall x, In x before -> In x offsets /\ x <> 0) -> left_ends offsets first (len rec) before ends ->
  kc_values cs os (zskipn first rec) first row = Ok row' ->
  exists ds, shows rec offsets before os ds /\ kd_values i cs os ends (zskipn first rec) first row = Ok (values_dump i names ds, row').
Proof.
  intros Hf Hv. induction cs as [|c cs IH]; intros names os before ends i row row' Hn Hl Hi Hb L E.
  - destruct os; [|discriminate]. destruct names; [|discriminate]. cbn [kc_values] in E. injection E as <-. exists []. split; [constructor|reflexivity].
  - destruct os as [|o os]; [discriminate|]. destruct names as [|name names]; [discriminate|]. cbn [map] in Hn. injection Hn as Hn1 Hn2.
    cbn [kc_values] in E. destruct (kc_value _ _ _ _) as [v|] eqn:Ev; cbn [bind] in E; [|discriminate].
    apply incl_cons_inv in Hi as [Ho Hi]. cbn [length] in Hl. injection Hl as Hl. cbn [kd_values]. unfold value_range.
    destruct (Z.eqb_spec o 0) as [->|No].
    + cbn [bind]. rewrite Hn1 in *. rewrite Ev. cbn [bind].
      destruct (IH names os before ends (i + 1) _ _ Hn2 Hl Hi Hb L E) as (ds & S & ->). exists ([] :: ds). split; [constructor; exact S|]. cbn [bind values_dump].
      unfold value_text, print_data. rewrite pyslice_nonneg, zfirstn_0 by lia. rewrite <- !app_assoc. reflexivity.
    + destruct (left_step offsets first (len rec) before ends o Hv Hf Ho No Hb L) as (e & ends' & Ee & L' & Fb & Le). rewrite Ee. cbn [bind].
      rewrite Hn1 in *. rewrite Ev. cbn [bind].
      assert (Hb' : forall x, In x (before ++ [o]) -> In x offsets /\ x <> 0).
      { intros x Hx. apply in_app_or in Hx as [Hx|[<-|[]]]; auto. }
      destruct (IH names os (before ++ [o]) ends' (i + 1) _ _ Hn2 Hl Hi Hb' L' E) as (ds & S & ->).
      destruct (Hv o Ho) as [|Lo]; [contradiction|].
      exists (part rec (o - 1) (e + first) :: ds). split; [constructor; assumption|]. cbn [bind values_dump].
      unfold value_text, print_data, part. rewrite pyslice_nonneg by lia. rewrite zskipn_zskipn by lia.
      replace (first + (o - first - 1)) with (o - 1) by lia. replace (o - first - 1 + first) with (o - 1) by lia. replace (e - (o - first - 1)) with (e + first - (o - 1)) by lia.
      rewrite <- !app_assoc. reflexivity.
Qed.

(** An offset behind the record. *)
Lemma values_behind first size offsets : (forall o, In o offsets -> o = 0 \/ first < o) -> 0 <= first <= size ->
  forall cs names os ends i data row row', map kc_name cs = map Some names -> length os = length cs ->
  (exists o, In o os /\ size < o /\ forall o', In o' offsets -> o' <= o) -> incl ends (value_ends offsets first size) ->
  kc_values cs os data first row = Ok row' -> kd_values i cs os ends data first row = Err IndexError.
Proof.
  intros Hv Hf. induction cs as [|c cs IH]; intros names os ends i data row row' Hn Hl (o & Ho & Lo & Mo) Hi E.
  - destruct os; [destruct Ho|discriminate].
  - destruct os as [|o1 os]; [discriminate|]. destruct names as [|name names]; [discriminate|]. cbn [map] in Hn. injection Hn as Hn1 Hn2.
    cbn [kc_values] in E. destruct (kc_value _ _ _ _) as [v|] eqn:Ev; cbn [bind] in E; [|discriminate]. cbn [length] in Hl. injection Hl as Hl.
    cbn [kd_values]. unfold value_range. rewrite Hn1 in *. destruct (Z.eqb_spec o1 0) as [->|No].
    + cbn [bind]. rewrite Ev. cbn [bind]. rewrite (IH names os ends (i + 1) data (row_set (Some name) v row) row' Hn2 Hl); [reflexivity| |exact Hi|exact E].
      exists o. destruct Ho as [<-|Ho]; [lia|]. auto.
    + destruct (next_end (o1 - first - 1) ends) as [[e ends']|x] eqn:N; cbn [bind].
      * rewrite Ev. cbn [bind]. apply next_end_ok in N as (l1 & r & E1 & E2 & D & L).
        rewrite (IH names os ends' (i + 1) data (row_set (Some name) v row) row' Hn2 Hl); [reflexivity| | |exact E].
        -- exists o. destruct Ho as [->|Ho]; [exfalso|auto]. assert (I : In e (value_ends offsets first size)) by (apply Hi; rewrite E1, E2; apply in_or_app; right; left; reflexivity).
           apply ends_in in I as [->|(x & X1 & X2 & ->)]; [lia|]. specialize (Mo x X1). lia.
        -- intros x Hx. apply Hi. rewrite E1. apply in_or_app. right. exact Hx.
      * clear - N. revert N. induction ends as [|y l IHl]; cbn [next_end]; [intros [= <-]; reflexivity|]. destruct (y <=? _); [exact IHl|discriminate].
Qed.

Lemma left_start offsets first size : left_ends offsets first size [] (value_ends offsets first size).
Proof. exists []. split; [reflexivity|]. split; [constructor|]. apply Forall_forall. intros x _ o []. Qed.

(** ** Records *)

Lemma kd_offsets_at content off offsets rec : kc_record_at content off offsets rec -> offsets <> [] ->
  kd_offsets content (off + 24) (len offsets) =
  Ok (print_data (s2z "Attribute value offsets data"%string) (concat (map (be_enc 4) offsets))
      ++ enum_text (fun i o => print_line (s2z "Attribute value offset: "%string ++ fmt_d i) (hex8_tuple o)) 0 offsets ++ [10], offsets).
Proof.
  intros R Hn. pose proof (rec_offsets _ _ _ _ R Hn) as O. unfold kc_offsets in O. unfold kd_offsets. cbv zeta. rewrite O. cbn [bind].
  do 3 f_equal. destruct R as (header & values & St & E & Hh & Uh & Us & Uo).
  assert (S2 : stored_at content (off + 24) (concat (map (be_enc 4) offsets))).
  { rewrite E, app_assoc in St. apply stored_at_app in St as [_ St]. rewrite len_app, len_be, len_be_enc in St.
    replace (len header) with 5 in St by (unfold len; rewrite Hh; reflexivity).
    replace (off + (Z.of_nat 4 + 4 * 5)) with (off + 24) in St by lia.
    apply stored_at_app in St as [St _]. exact St. }
  apply stored_at_iff in S2 as (_ & _ & S2). rewrite len_be in S2. rewrite (Z.mul_comm (len offsets) 4). rewrite S2; reflexivity.
Qed.

(** ** The text of a record header *)

Lemma fmt_one_line base w n : 2 <= base <= 16 -> has_char 10 (fmt_int base w n) = false.
Proof.
  intros H. apply has_char_false. intros I. pose proof (fmt_int_chars base w n H) as F. rewrite Forall_forall in F. specialize (F 10 I). unfold is_digit_char in F. lia.
Qed.

Lemma dec_text d n : format_attribute (a_description (at_dec d n)) (a_callback (at_dec d n)) (DObj (fmt_d n)) = Ok (line d (fmt_d n)).
Proof. unfold at_dec, format_attribute. cbn [a_description a_callback]. unfold fmt_d at 1. rewrite fmt_one_line by lia. reflexivity. Qed.

Lemma hex_text d n : format_attribute (a_description (at_hex8 d n)) (a_callback (at_hex8 d n)) (DObj (fmt_d n)) = Ok (line d (s2z "0x"%string ++ fmt_x 8 n)).
Proof.
  unfold at_hex8, format_attribute. cbn [a_description a_callback]. change (has_char 10 (s2z "0x"%string ++ fmt_x 8 n)) with (has_char 10 (fmt_x 8 n)).
  unfold fmt_x at 1. rewrite fmt_one_line by lia. reflexivity.
Qed.

Lemma line_not_blank d s : s <> [] -> has_char 10 s = false -> line d s <> [] /\ ends_blank (line d s) = false.
Proof.
  intros N H. destruct (exists_last N) as (r & c & ->). unfold line.
  assert (C : c <> 10). { intros ->. apply has_char_false in H. apply H, in_or_app. right. left. reflexivity. }
  replace (d ++ alignment_string d ++ s2z ": "%string ++ (r ++ [c]) ++ [10]) with ((d ++ alignment_string d ++ s2z ": "%string ++ r) ++ [c; 10]) by (rewrite <- !app_assoc; reflexivity).
  generalize (d ++ alignment_string d ++ s2z ": "%string ++ r). intros x. split; [destruct x; discriminate|].
  unfold ends_blank. destruct (list_eqb _ _) eqn:E; [|reflexivity]. apply list_eqb_eq in E. exfalso. apply C.
  unfold pyslice_from, slice_index in E. change (-2 <? 0) with true in E. cbv iota in E. rewrite len_app in E. change (len [c; 10]) with 2 in E. pose proof (len_nonneg x).
  rewrite zskipn_app_len in E by lia. congruence.
Qed.

Lemma fmt_nonempty base w n : 2 <= base -> fmt_int base w n <> [].
Proof.
  intros H E. unfold fmt_int in E. destruct (digits_spec base (Z.abs n) H (Z.abs_nonneg n)) as (_ & _ & N).
  apply app_eq_nil in E as [_ E]. apply app_eq_nil in E as [_ E]. apply map_eq_nil in E. contradiction.
Qed.

Lemma header_text content off a b c d e f : read_struct content (repeat (FU BE 4) 6) off = Ok (map VI [a; b; c; d; e; f]) ->
  kd_record_header content off =
  Ok (header_shown a [b; c; d; e; f], (a, e)).
Proof.
  intros R. unfold header_shown. unfold kd_record_header. rewrite R. cbn [nth]. cbn [map bind]. unfold format_structure.
  assert (L : forall x y z u v w, format_lines [at_dec (s2z "Data size"%string) x; at_dec (s2z "Record index"%string) y; at_hex8 (s2z "Unknown2"%string) z;
                 at_hex8 (s2z "Unknown3"%string) u; at_dec (s2z "Key data size"%string) v; at_hex8 (s2z "Unknown4"%string) w] =
    Ok [line (s2z "Data size"%string) (fmt_d x); line (s2z "Record index"%string) (fmt_d y); line (s2z "Unknown2"%string) (s2z "0x"%string ++ fmt_x 8 z);
        line (s2z "Unknown3"%string) (s2z "0x"%string ++ fmt_x 8 u); line (s2z "Key data size"%string) (fmt_d v); line (s2z "Unknown4"%string) (s2z "0x"%string ++ fmt_x 8 w)]).
  { intros. cbn [format_lines a_value at_dec at_hex8]. rewrite !dec_text, !hex_text. reflexivity. }
  rewrite L. cbn [bind rev app].
  destruct (line_not_blank (s2z "Unknown4"%string) (s2z "0x"%string ++ fmt_x 8 f)) as [N B].
  - discriminate.
  - change (has_char 10 (s2z "0x"%string ++ fmt_x 8 f)) with (has_char 10 (fmt_x 8 f)). apply fmt_one_line. lia.
  - destruct (line (s2z "Unknown4"%string) (s2z "0x"%string ++ fmt_x 8 f)) as [|x l] eqn:El; [contradiction|]. rewrite B. cbn [negb].
    rewrite <- El. cbn [concat app]. rewrite ?app_nil_r, <- ?app_assoc. reflexivity.
Qed.

Lemma kd_header_at content off offsets rec header values : is_bytes content -> kc_record_at content off offsets rec -> 
  rec = be_enc 4 (len rec) ++ concat (map (be_enc 4) header) ++ concat (map (be_enc 4) offsets) ++ values -> length header = 5%nat -> Forall u32 header ->
  kd_record_header content off = Ok (header_shown (len rec) header, (len rec, nth 3 header 0)).
Proof.
  intros Hb (h' & v' & St & E' & Hh' & Uh' & Us & Uo) E Hh Uh.
  rewrite E, !app_assoc in St. do 2 apply stored_at_app in St as [St _].
  change (be_enc 4 (len rec) ++ concat (map (be_enc 4) header)) with (concat (map (be_enc 4) (len rec :: header))) in St.
  pose proof (read_be content off (len rec :: header)) as R. cbn [length] in R. rewrite Hh in R.
  destruct header as [|a [|b [|c [|d [|e [|]]]]]]; try discriminate. cbn [nth].
  apply header_text. apply R.
  - constructor; assumption.
  - discriminate.
  - exact St.
Qed.

(** A record whose values can be read without debug output. *)
Lemma kc_record_values content off offsets rec type tables tables' t : kc_record_at content off offsets rec ->
  dict_get type tables = Some t -> length offsets = length (kt_columns t) -> kt_columns t <> [] ->
  kc_read_record content off type tables = Ok tables' ->
  let first := 24 + 4 * len offsets in
  exists row, kc_values (kt_columns t) offsets (zskipn first rec) first [] = Ok row /\ tables' = dict_set type (add_record t row) tables.
Proof.
  intros R T Hl Hc E first. unfold kc_read_record in E. rewrite T, (rec_header _ _ _ _ R) in E. cbn [bind] in E.
  destruct (kt_columns t) as [|c cs] eqn:Ec; [contradiction|].
  assert (L : len (c :: cs) = len offsets) by (unfold len; rewrite Hl; reflexivity). rewrite L in E.
  rewrite (rec_offsets _ _ _ _ R) in E by (intros ->; discriminate). cbn [bind] in E. fold first in E.
  rewrite (rec_data _ _ _ _ R first) in E by (pose proof (rec_long _ _ _ _ R); pose proof (len_nonneg offsets); unfold first; lia). cbn [bind] in E.
  destruct (kc_values _ _ _ _ _) as [row|]; cbn [bind] in E; [|discriminate]. injection E as <-. eauto.
Qed.

Lemma record_shows content off offsets rec header values type tables tables' t names : is_bytes content -> kc_record_at content off offsets rec ->
  rec = be_enc 4 (len rec) ++ concat (map (be_enc 4) header) ++ concat (map (be_enc 4) offsets) ++ values -> length header = 5%nat -> Forall u32 header ->
  dict_get type tables = Some t -> length offsets = length (kt_columns t) -> kt_columns t <> [] ->
  map kc_name (kt_columns t) = map Some names ->
  (forall o, In o offsets -> o = 0 \/ 24 + 4 * len offsets < o <= len rec) ->
  kc_read_record content off type tables = Ok tables' ->
  exists ds, shows rec offsets [] offsets ds /\
    kd_read_record content off type tables =
    Ok (header_shown (len rec) header ++ print_data (s2z "Attribute value offsets data"%string) (concat (map (be_enc 4) offsets))
        ++ enum_text (fun i o => print_line (s2z "Attribute value offset: "%string ++ fmt_d i) (hex8_tuple o)) 0 offsets ++ [10]
        ++ (if 0 <? nth 3 header 0 then print_data (s2z "Key data"%string) (zfirstn (nth 3 header 0) values) else [])
        ++ print_data (s2z "Attribute values data"%string) (zskipn (nth 3 header 0) values) ++ values_dump 0 names ds,
        (tables', off + len rec)).
Proof.
  intros Hb R E Hh Uh T Hl Hc Hn Hv K. destruct (kc_record_values _ _ _ _ _ _ _ _ R T Hl Hc K) as (row & Er & ->).
  pose proof (kd_header_at _ _ _ _ _ _ Hb R E Hh Uh) as E0. unfold kd_read_record. rewrite T, E0. cbn [bind].
  pose proof (rec_long _ _ _ _ R) as Lr. pose proof (len_nonneg offsets) as Lo.
  destruct (values_dump_ok rec (24 + 4 * len offsets) offsets ltac:(lia) Hv (kt_columns t) names offsets [] (value_ends offsets (24 + 4 * len offsets) (len rec)) 0 [] row Hn Hl
    (incl_refl offsets) ltac:(intros ? []) (left_start _ _ _) Er) as (ds & S & Ev).
  exists ds. split; [exact S|].
  destruct (kt_columns t) as [|c cs] eqn:Ec; [contradiction|].
  assert (L : len (c :: cs) = len offsets) by (unfold len; rewrite Hl; reflexivity). rewrite L.
  rewrite (kd_offsets_at _ _ _ _ R) by (intros ->; discriminate). cbn [bind]. cbv zeta.
  rewrite (rec_data _ _ _ _ R (24 + 4 * len offsets)) by lia. cbn [bind]. rewrite Ev. cbn [bind].
  assert (Lh : len header = 5) by (unfold len; rewrite Hh; reflexivity).
  assert (V : zskipn (24 + 4 * len offsets) rec = values).
  { rewrite E at 1. rewrite !app_assoc. apply zskipn_app_len. rewrite !len_app, !len_be, len_be_enc. lia. }
  assert (Kn : 0 <= nth 3 header 0).
  { rewrite Forall_forall in Uh. destruct (nth_in_or_default 3 header 0) as [I| ->]; [|lia]. apply Uh in I. unfold u32 in I. lia. }
  rewrite V, pyslice_to_nonneg, pyslice_from_nonneg by exact Kn. rewrite <- !app_assoc.
  replace (off + (24 + 4 * len offsets) + len values) with (off + len rec); [reflexivity|].
  rewrite E at 1. rewrite !len_app, !len_be, len_be_enc. lia.
Qed.

Lemma record_behind content off offsets rec type tables tables' t names : is_bytes content -> kc_record_at content off offsets rec ->
  dict_get type tables = Some t -> length offsets = length (kt_columns t) ->
  map kc_name (kt_columns t) = map Some names ->
  (forall o, In o offsets -> o = 0 \/ 24 + 4 * len offsets < o) -> (exists o, In o offsets /\ len rec < o) ->
  kc_read_record content off type tables = Ok tables' -> kd_read_record content off type tables = Err IndexError.
Proof.
  intros Hb R T Hl Hn Hv (o & Ho & Lo) K. assert (Hc : kt_columns t <> []) by (intros C; rewrite C in Hl; destruct offsets; [destruct Ho|discriminate]).
  destruct (kc_record_values _ _ _ _ _ _ _ _ R T Hl Hc K) as (row & Er & ->).
  destruct (header_both content off Hb) as [(t0 & size & key & E0 & E1)|(e & _ & E1)]; rewrite (rec_header _ _ _ _ R) in E1; [|discriminate]. injection E1 as <-.
  unfold kd_read_record. rewrite T, E0. cbn [bind]. pose proof (rec_long _ _ _ _ R) as Lr. pose proof (len_nonneg offsets) as Ln.
  assert (M : exists m, In m offsets /\ len rec < m /\ forall o', In o' offsets -> o' <= m).
  { clear - Ho Lo. revert Ho. induction offsets as [|x l IH]; [intros []|]. intros Ho.
    assert (C : (exists m, In m l /\ len rec < m /\ forall o', In o' l -> o' <= m) \/ (x = o /\ ~ exists y, In y l /\ len rec < y)).
    { destruct (existsb (fun y => len rec <? y) l) eqn:Ex.
      - apply existsb_exists in Ex as (y & Hy & Ly). apply Z.ltb_lt in Ly. left. clear - Hy Ly. revert y Hy Ly. induction l as [|z l IH]; intros y Hy Ly; [destruct Hy|].
        destruct (existsb (fun y => len rec <? y) l) eqn:Ex.
        + apply existsb_exists in Ex as (w & Hw & Lw). apply Z.ltb_lt in Lw. destruct (IH w Hw Lw) as (m & M1 & M2 & M3).
          destruct (Z.le_gt_cases z m); [exists m|exists z]; (split; [cbn [In]; auto|]; split; [lia|]; intros o' [<-|H']; [lia|specialize (M3 _ H'); lia]).
        + exists y. split; [exact Hy|]. split; [exact Ly|]. assert (N : forall w, In w l -> w <= len rec).
          { intros w Hw. destruct (Z.le_gt_cases w (len rec)); [assumption|]. exfalso. assert (Q : existsb (fun y => len rec <? y) l = true) by (apply existsb_exists; exists w; split; [exact Hw|apply Z.ltb_lt; lia]). congruence. }
          destruct Hy as [<-|Hy]; [|specialize (N y Hy); lia]. intros o' [<-|H']; [lia|]. specialize (N _ H'). lia.
      - right. assert (Q : ~ exists y, In y l /\ len rec < y).
        { intros (y & Hy & Ly). assert (Q : existsb (fun y => len rec <? y) l = true) by (apply existsb_exists; exists y; split; [exact Hy|apply Z.ltb_lt; lia]). congruence. }
        split; [|exact Q]. destruct Ho as [H|H]; [exact H|]. exfalso. apply Q. eauto. }
    destruct C as [(m & M1 & M2 & M3)|[-> Q]].
    - destruct (Z.le_gt_cases x m); [exists m|exists x]; (split; [cbn [In]; auto|]; split; [lia|]; intros o' [<-|H']; [lia|specialize (M3 _ H'); lia]).
    - exists o. split; [left; reflexivity|]. split; [exact Lo|]. intros o' [<-|H']; [lia|]. destruct (Z.le_gt_cases o' o); [assumption|]. exfalso. apply Q. exists o'. split; [exact H'|lia]. }
  pose proof (values_behind (24 + 4 * len offsets) (len rec) offsets Hv ltac:(lia) (kt_columns t) names offsets (value_ends offsets (24 + 4 * len offsets) (len rec)) 0
    (zskipn (24 + 4 * len offsets) rec) [] row Hn Hl M (incl_refl _) Er) as B.
  destruct (kt_columns t) as [|c cs] eqn:Ec; [contradiction|].
  assert (L : len (c :: cs) = len offsets) by (unfold len; rewrite Hl; reflexivity). rewrite L.
  rewrite (kd_offsets_at _ _ _ _ R) by (intros ->; discriminate). cbn [bind]. cbv zeta.
  rewrite (rec_data _ _ _ _ R (24 + 4 * len offsets)) by lia. cbn [bind]. rewrite B. reflexivity.
Qed.

Lemma values_unnamed cs : forall i os ends data first row, In None (map kc_name cs) -> exists e, kd_values i cs os ends data first row = Err e.
Proof.
  induction cs as [|c cs IH]; intros i os ends data first row H; [destruct H|]. cbn [kd_values]. destruct os as [|o os]; [eauto|].
  destruct (value_range _ _ _) as [[[a b] ends']|e]; cbn [bind]; [|eauto]. destruct (kc_name c) as [name|] eqn:En; [|eauto].
  destruct (kc_value _ _ _ _) as [v|e]; cbn [bind]; [|eauto]. cbn [map] in H. rewrite En in H. destruct H as [H|H]; [discriminate|].
  destruct (IH (i + 1) os ends' data first (row_set (Some name) v row) H) as [e ->]. cbn [bind]. eauto.
Qed.

Lemma record_unnamed content off type tables t : is_bytes content -> dict_get type tables = Some t -> In None (map kc_name (kt_columns t)) ->
  exists e, kd_read_record content off type tables = Err e.
Proof.
  intros Hb T H. unfold kd_read_record. rewrite T.
  destruct (header_both content off Hb) as [(t0 & size & key & -> & _)|(e & -> & _)]; cbn [bind]; [|eauto].
  destruct (kt_columns t) as [|c cs] eqn:Ec; [destruct H|]. destruct (kd_offsets _ _ _) as [[t1 l]|e]; cbn [bind]; [|eauto]. cbv zeta.
  destruct (read_here _ _ _) as [d|e]; cbn [bind]; [|eauto].
  destruct (values_unnamed (c :: cs) 0 l (value_ends l (24 + 4 * len (c :: cs)) size) d (24 + 4 * len (c :: cs)) [] H) as [e ->]. cbn [bind]. eauto.
Qed.

(** ** Values in the order of their offsets *)

Lemma set_app a b : set_offsets (a ++ b) = set_offsets a ++ set_offsets b.
Proof. unfold set_offsets. induction a as [|x a IH]; cbn [app filter]; [reflexivity|]. destruct (negb (x =? 0)); cbn [app]; rewrite IH; reflexivity. Qed.

Lemma in_set x l : In x (set_offsets l) <-> In x l /\ x <> 0.
Proof. unfold set_offsets. rewrite filter_In. destruct (Z.eqb_spec x 0); cbn [negb]; intuition (try congruence). Qed.

Lemma sorted_lt_app (a b : list Z) : StronglySorted Z.lt (a ++ b) -> StronglySorted Z.lt b /\ forall x y, In x a -> In y b -> x < y.
Proof.
  induction a as [|z a IH]; cbn [app]; intros S; [split; [exact S|intros ? ? []]|]. inversion_clear S as [|? ? S' F]. destruct (IH S') as [S2 L].
  split; [exact S2|]. intros x y [<-|Hx] Hy; [|auto]. rewrite Forall_forall in F. apply F, in_or_app. right. exact Hy.
Qed.

Lemma shows_concat rec all : StronglySorted Z.lt (set_offsets all) -> (forall o, In o all -> o <> 0 -> 0 < o <= len rec) ->
  forall pre os ds, all = pre ++ os -> shows rec all (set_offsets pre) os ds ->
  concat ds = match set_offsets os with [] => [] | o :: _ => zskipn (o - 1) rec end.
Proof.
  intros S V pre os. revert pre. induction os as [|o os IH]; intros pre ds E Sh; inversion Sh; subst; [reflexivity| |].
  - cbn [concat app]. rewrite (IH (pre ++ [0]) ds0); [reflexivity|rewrite <- app_assoc; reflexivity|]. rewrite set_app. cbn. rewrite app_nil_r. assumption.
  - rename e into e0. cbn [concat].
    assert (So : set_offsets (o :: os) = o :: set_offsets os) by (unfold set_offsets; cbn [filter]; destruct (Z.eqb_spec o 0); [contradiction|reflexivity]).
    rewrite (IH (pre ++ [o]) ds0); [|rewrite <- app_assoc; reflexivity|rewrite set_app; cbn; destruct (Z.eqb_spec o 0); [contradiction|assumption]].
    rewrite So. rewrite set_app, So in S. destruct (sorted_lt_app _ _ S) as [S2 L]. inversion_clear S2 as [|? ? S3 F]. rewrite Forall_forall in F.
    assert (Vo : 0 < o <= len rec) by (apply V; [apply in_or_app; right; left; reflexivity|assumption]).
    match goal with H : first_behind _ _ _ _ |- _ => destruct H as (B1 & B2 & B3) end.
    assert (Bo : o - 1 < e0) by (apply B2, in_or_app; right; left; reflexivity).
    assert (Hin : forall x, boundary (pre ++ o :: os) (len rec) x -> o - 1 < x -> x = len rec \/ In (x + 1) (set_offsets os)).
    { intros x [->|(o' & I & N & ->)] Lx; [auto|]. right. replace (o' - 1 + 1) with o' by lia. apply in_set. split; [|exact N].
      apply in_app_or in I as [I|[<-|I]]; [|lia|exact I]. assert (o' < o) by (apply L; [apply in_set; auto|left; reflexivity]). lia. }
    assert (Hle : forall x, In x (set_offsets pre ++ [o]) -> x <= o).
    { intros x Hx. apply in_app_or in Hx as [Hx|[<-|[]]]; [|lia]. assert (x < o) by (apply L; [exact Hx|left; reflexivity]). lia. }
    destruct (set_offsets os) as [|o2 l2] eqn:E2.
    + assert (e0 = len rec) as -> by (destruct (Hin e0 B1 Bo) as [|[]]; assumption).
      unfold part. rewrite app_nil_r. apply zfirstn_all. rewrite len_zskipn. lia.
    + assert (I2 : In o2 os /\ o2 <> 0) by (apply in_set; rewrite E2; left; reflexivity).
      assert (o < o2) by (apply F; left; reflexivity).
      assert (e0 = o2 - 1) as ->.
      { apply Z.le_antisymm.
        - apply B3; [right; exists o2; split; [apply in_or_app; right; right; apply I2|split; [apply I2|reflexivity]]|]. intros x Hx. specialize (Hle x Hx). lia.
        - assert (V2 : 0 < o2 <= len rec) by (apply V; [apply in_or_app; right; right; apply I2|apply I2]).
          destruct (Hin e0 B1 Bo) as [->|[I|I]]; [lia|lia|]. inversion_clear S3 as [|? ? ? F3]. rewrite Forall_forall in F3. specialize (F3 _ I). lia. }
      unfold part. replace (zskipn (o2 - 1) rec) with (zskipn (o2 - 1 - (o - 1)) (zskipn (o - 1) rec)) by (rewrite zskipn_zskipn by lia; f_equal; lia).
      apply zfirstn_zskipn.
Qed.

(** ** Offsets in text *)

Lemma fmt_x8_len n : u32 n -> len (fmt_x 8 n) = 8.
Proof. intros H. unfold fmt_x. apply fmt_int_exact_width; unfold u32 in H; lia. Qed.

Lemma fmt_x8_inj a b : u32 a -> u32 b -> fmt_x 8 a = fmt_x 8 b -> a = b.
Proof. intros Ha Hb E. unfold fmt_x in E. unfold u32 in *. eapply fmt_int_inj in E; [exact E|lia|lia..]. Qed.

Lemma enum_text_inj (d : Z -> str) l : forall i l', Forall u32 l -> Forall u32 l' ->
  enum_text (fun i o => print_line (d i) (hex8_tuple o)) i l = enum_text (fun i o => print_line (d i) (hex8_tuple o)) i l' -> l = l'.
Proof.
  assert (Ne : forall i o r, print_line (d i) (hex8_tuple o) ++ r <> []).
  { intros i o r E. apply (f_equal len) in E. unfold print_line in E. rewrite !len_app in E. change (len [10]) with 1 in E. change (len (@nil Z)) with 0 in E.
    pose proof (len_nonneg r). pose proof (len_nonneg (d i)). pose proof (len_nonneg (alignment_string (d i))). pose proof (len_nonneg (hex8_tuple o)). pose proof (len_nonneg [58; 32]). lia. }
  induction l as [|a l IH]; intros i [|b l'] F F' E; cbn [enum_text] in E; [reflexivity| | |].
  - symmetry in E. apply Ne in E as [].
  - apply Ne in E as [].
  - apply Forall_cons_iff in F as [Fa F]. apply Forall_cons_iff in F' as [Fb F'].
    unfold print_line, hex8_tuple in E. rewrite <- !app_assoc in E. do 4 apply app_inv_head in E.
    assert (X : fmt_x 8 a = fmt_x 8 b).
    { apply (f_equal (zfirstn 8)) in E. rewrite !zfirstn_app_len in E by (rewrite fmt_x8_len; auto). exact E. }
    rewrite (fmt_x8_inj a b Fa Fb X) in *. do 3 apply app_inv_head in E. f_equal. exact (IH (i + 1) l' F F' E).
Qed.

(** ** Schema records with a small data size *)

Lemma info_small content off tables tables' size : is_bytes content -> kc_read_info content off tables = Ok tables' ->
  kc_record_header content off = Ok size -> size < 39 -> kd_read_info content off tables = Err ValueError.
Proof.
  intros Hb E H L. unfold kc_read_info in E. unfold kd_read_info.
  destruct (header_both content off Hb) as [(t0 & size' & key & -> & E1)|(e & _ & E1)]; rewrite H in E1; [|discriminate]. injection E1 as <-. rewrite H in E. cbn [bind] in *.
  destruct (offsets_both content (off + 24) 2) as [(t1 & l & -> & E2)|(e & _ & E2)]; rewrite E2 in E; cbn [bind] in *; [|discriminate].
  destruct (guard _ _) as [u|e]; cbn [bind] in *; [|discriminate].
  destruct (read_var _ _ _ _) as [[[vs d] n]|e] eqn:V; cbn [bind] in *; [|discriminate].
  assert (Ln : 8 <= n).
  { revert V. unfold read_var. destruct (read_struct _ _ _) as [vs'|]; cbn [bind]; [|discriminate]. cbv zeta. match goal with |- context [guard (0 <=? ?m) _] => destruct (Z.leb_spec 0 m) as [Hm|Hm] end; cbn [guard bind]; [|discriminate].
    destruct (_ =? _); [|discriminate]. intros Q. apply (f_equal (fun r : result (list fval * bytes * Z) => match r with Ok (_, _, n) => n | Err _ => 0 end)) in Q. cbv beta iota in Q.
    change (Z.of_nat (struct_size [FU BE 4; FU BE 4])) with 8 in Q. lia. }
  apply read_var_fval in V as [V _]; [|exact Hb|kinds_wf]. vals V. destruct (decode_ascii d) as [name|]; cbn [bind] in *; [|discriminate]. cbv zeta in *.
  unfold kd_trailing. cbv zeta. match goal with |- context [if ?n =? 0 then _ else _] => destruct (Z.eqb_spec n 0); [lia|] end.
  unfold read_here, f_try_read. match goal with |- context [if ?n <? -1 then _ else _] => destruct (Z.ltb_spec n (-1)); [reflexivity|lia] end.
Qed.

Lemma index_small content off tables tables' size : is_bytes content -> kc_read_index content off tables = Ok tables' ->
  kc_record_header content off = Ok size -> size < 63 -> kd_read_index content off tables = Err ValueError.
Proof.
  intros Hb E H L. unfold kc_read_index in E. unfold kd_read_index.
  destruct (header_both content off Hb) as [(t0 & size' & key & -> & E1)|(e & _ & E1)]; rewrite H in E1; [|discriminate]. injection E1 as <-. rewrite H in E. cbn [bind] in *.
  destruct (offsets_both content (off + 24) 5) as [(t1 & l & -> & E2)|(e & _ & E2)]; rewrite E2 in E; cbn [bind] in *; [|discriminate].
  destruct (guard _ _) as [u|e]; cbn [bind] in *; [|discriminate].
  destruct (read_struct content (repeat (FU BE 4) 5) (off + 44)) as [vs|e] eqn:V; cbn [bind] in *; [|discriminate].
  cbn [repeat] in V. apply read_struct_fval in V; [|exact Hb|kinds_wf]. vals V. structure.
  unfold kd_trailing. cbv zeta. match goal with |- context [if ?n =? 0 then _ else _] => destruct (Z.eqb_spec n 0); [lia|] end.
  unfold read_here, f_try_read. match goal with |- context [if ?n <? -1 then _ else _] => destruct (Z.ltb_spec n (-1)); [reflexivity|lia] end.
Qed.

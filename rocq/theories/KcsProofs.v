(** Proofs about the output of the MacOS keychain script. *)

From Verif Require Import Base BaseFacts CoreModel CoreProofs StrModel StrFacts DictModel LdbModel LdbProofs LdbTableProofs TextProofs NkaProofs KcModel KcSpec KcProofs SpvProofs LdsModel LdsProofs KcsModel KcsSpec.

(** *** Texts *)

Lemma Forall2_imp {A B} (P Q : A -> B -> Prop) l t : (forall x y, P x y -> Q x y) -> Forall2 P l t -> Forall2 Q l t.
Proof. intros H. induction 1; constructor; auto. Qed.

Lemma then_ok a b s : then_print a b = (s, Ok tt) <-> exists s1 s2, a = (s1, Ok tt) /\ b = (s2, Ok tt) /\ s = s1 ++ s2.
Proof.
  destruct a as [s1 [[]|e]], b as [s2 r2]; cbn [then_print fst snd]; split.
  - intros H. injection H as <- ->. exists s1, s2. auto.
  - intros (? & ? & E1 & E2 & ->). injection E1 as <-. injection E2 as <- ->. reflexivity.
  - discriminate.
  - intros (? & ? & E1 & _). discriminate.
Qed.

Lemma then_err a b e : snd (then_print a b) = Err e -> snd a = Err e \/ (snd a = Ok tt /\ snd b = Err e).
Proof. destruct a as [s1 [[]|e']]; cbn [then_print fst snd]; auto. Qed.

Lemma print_all_ok {A} (f : A -> output) (l : list A) s : print_all f l = (s, Ok tt) <-> exists ss, Forall2 (fun x t => f x = (t, Ok tt)) l ss /\ s = concat ss.
Proof.
  revert s. induction l as [|x l IH]; intros s; cbn [print_all].
  - split.
    + intros H. injection H as <-. exists []. split; [constructor|reflexivity].
    + intros (ss & F & ->). inversion F. reflexivity.
  - rewrite then_ok. split.
    + intros (s1 & s2 & E1 & E2 & ->). apply IH in E2 as (ss & F & ->). exists (s1 :: ss). split; [constructor; assumption|reflexivity].
    + intros (ss & F & ->). inversion F as [|? t ? ts F1 F2]; subst. exists t, (concat ts). split; [exact F1|]. split; [|reflexivity]. apply IH. exists ts. auto.
Qed.

Lemma print_all_err {A} (f : A -> output) (l : list A) e : snd (print_all f l) = Err e -> exists x, In x l /\ snd (f x) = Err e.
Proof.
  induction l as [|x l IH]; cbn [print_all]; [discriminate|]. intros H. apply then_err in H as [H|[_ H]].
  - exists x. split; [left; reflexivity|exact H].
  - destruct (IH H) as (y & I & E). exists y. split; [right; exact I|exact E].
Qed.

Lemma type_cases t : type_shown t (match dict_get t data_types with Some s => s | None => s2z "0x"%string ++ fmt_x 8 t end).
Proof.
  unfold type_shown. destruct (Z_lt_dec t 0) as [H|H].
  - right. split; [lia|]. assert (N : dict_get t data_types = None); [|rewrite N; reflexivity].
    unfold data_types. cbn [dict_get]. repeat match goal with |- context [?a =? t] => destruct (Z.eqb_spec a t); [lia|] end. reflexivity.
  - destruct (Z_lt_dec t 9) as [L|L].
    + left. split; [lia|]. assert (D : t = 0 \/ t = 1 \/ t = 2 \/ t = 3 \/ t = 4 \/ t = 5 \/ t = 6 \/ t = 7 \/ t = 8) by lia.
      repeat destruct D as [->|D]; try reflexivity. subst t. reflexivity.
    + right. split; [lia|]. assert (N : dict_get t data_types = None); [|rewrite N; reflexivity].
      unfold data_types. cbn [dict_get]. repeat match goal with |- context [?a =? t] => destruct (Z.eqb_spec a t); [lia|] end. reflexivity.
Qed.

Lemma type_fun t s s' : type_shown t s -> type_shown t s' -> s = s'.
Proof. intros [[H E]|[H E]] [[H' E']|[H' E']]; try tauto; congruence. Qed.

Lemma column_ok n i c l : column_line n i c = (l, Ok tt) <-> column_shown n i c l.
Proof.
  unfold column_line, column_shown. split.
  - destruct (kc_id c) as [|id| |]; try discriminate. destruct (kc_type c) as [|t| |]; try discriminate. intros H.
    assert (E := f_equal fst H). cbn [printed fst] in E. subst l. clear H.
    do 5 eexists. split; [reflexivity|]. split; [reflexivity|]. split; [|split; [|split; [apply type_cases|reflexivity]]].
    + destruct (Z.leb_spec n id); [right|left]; split; auto; lia.
    + destruct (kc_name c) as [[|x s]|]; [right|left|right]; split; auto. discriminate.
  - intros (id & t & identifier & name & type & -> & -> & I & N & T & ->). unfold printed. do 2 f_equal. rewrite (type_fun _ _ _ T (type_cases t)).
    assert (I' : (if n <=? id then [] else fmt_d id) = identifier) by (destruct (Z.leb_spec n id), I as [[H1 H2]|[H1 H2]]; try lia; congruence).
    rewrite I'. assert (N' : match kc_name c with Some (x :: s) => x :: s | _ => s2z "NULL"%string end = name).
    { destruct N as [[-> H]|[[-> | ->] ->]]; [destruct name; [congruence|]|..]; reflexivity. }
    rewrite N'. reflexivity.
Qed.

Lemma columns_ok n : forall l i s, column_lines n i l = (s, Ok tt) <-> exists lines, length lines = length l /\
  (forall j c t, nth_error l j = Some c -> nth_error lines j = Some t -> column_shown n (i + Z.of_nat j) c t) /\ s = concat lines.
Proof.
  induction l as [|c l IH]; intros i s; cbn [column_lines].
  - split.
    + intros H. injection H as <-. exists []. split; [reflexivity|]. split; [|reflexivity]. intros [|j]; discriminate.
    + intros ([|] & L & _ & ->); [reflexivity|discriminate].
  - rewrite then_ok. split.
    + intros (s1 & s2 & E1 & E2 & ->). apply IH in E2 as (lines & L & H & ->). apply column_ok in E1. exists (s1 :: lines). cbn [length]. split; [lia|]. split; [|reflexivity].
      intros [|j] c' t; cbn [nth_error]; intros A B.
      * injection A as <-. injection B as <-. rewrite Z.add_0_r. exact E1.
      * replace (i + Z.of_nat (S j)) with (i + 1 + Z.of_nat j) by lia. exact (H j c' t A B).
    + intros ([|s1 lines] & L & H & ->); [discriminate|]. exists s1, (concat lines). split; [|split; [|reflexivity]].
      * apply column_ok. specialize (H O c s1 eq_refl eq_refl). rewrite Z.add_0_r in H. exact H.
      * apply IH. exists lines. cbn [length] in L. split; [lia|]. split; [|reflexivity]. intros j c' t A B. specialize (H (S j) c' t A B).
        replace (i + Z.of_nat (S j)) with (i + 1 + Z.of_nat j) in H by lia. exact H.
Qed.

Lemma schema_ok t s : schema_table t = (s, Ok tt) <-> schema_shown t s.
Proof.
  unfold schema_table, schema_shown. change (len (kt_columns t)) with (Z.of_nat (length (kt_columns t))). rewrite then_ok. split.
  - intros (s1 & s2 & E1 & E2 & ->). apply (f_equal fst) in E1. cbn [printed fst] in E1. subst s1. apply then_ok in E2 as (s3 & s4 & E3 & E4 & ->). injection E4 as <-.
    apply columns_ok in E3 as (lines & L & H & ->). exists lines. split; [exact L|]. split; [exact H|]. unfold title, table_title. rewrite <- !app_assoc. reflexivity.
  - intros (lines & L & H & ->). do 2 eexists. split; [reflexivity|]. split.
    + apply then_ok. exists (concat lines), [10]. split; [|split; reflexivity]. apply columns_ok. exists lines. auto.
    + unfold title, table_title. rewrite <- !app_assoc. reflexivity.
Qed.

Lemma column_err n i c e : snd (column_line n i c) = Err e -> e = TypeError /\ ~ (exists id t, kc_id c = KInt id /\ kc_type c = KInt t).
Proof.
  unfold column_line. destruct (kc_id c) as [|id| |], (kc_type c) as [|t| |]; cbn [snd printed]; intros H; try discriminate; injection H as <-; split; try reflexivity;
    intros (? & ? & ? & ?); discriminate.
Qed.

Lemma columns_err n e : forall l i, snd (column_lines n i l) = Err e -> e = TypeError /\ exists c, In c l /\ ~ (exists id t, kc_id c = KInt id /\ kc_type c = KInt t).
Proof.
  induction l as [|c l IH]; intros i; cbn [column_lines]; [discriminate|]. intros H. apply then_err in H as [H|[_ H]].
  - apply column_err in H as [-> H]. split; [reflexivity|]. exists c. split; [left; reflexivity|exact H].
  - apply IH in H as (-> & c' & I & H). split; [reflexivity|]. exists c'. split; [right; exact I|exact H].
Qed.

Lemma schema_err t e : snd (schema_table t) = Err e -> e = TypeError /\ exists c, In c (kt_columns t) /\ ~ (exists id t, kc_id c = KInt id /\ kc_type c = KInt t).
Proof. unfold schema_table. intros H. apply then_err in H as [H|[_ H]]; [discriminate|]. apply then_err in H as [H|[_ H]]; [|discriminate]. exact (columns_err _ _ _ _ H). Qed.

Lemma join_tabbed l : tabbed l (join [9] l ++ [10]).
Proof.
  induction l as [|s l IH]; [constructor|]. destruct l as [|x l]; [constructor|].
  change (join [9] (s :: x :: l)) with (s ++ [9] ++ join [9] (x :: l)). rewrite <- !app_assoc. constructor. exact IH.
Qed.

Lemma tabbed_fun l t t' : tabbed l t -> tabbed l t' -> t = t'.
Proof.
  intros H. revert t'. induction H as [|s|s x l t H IH]; intros t' H'; inversion H'; subst; try reflexivity. f_equal. f_equal. apply IH. assumption.
Qed.

Lemma value_shown v : shown_as v (value_text v).
Proof. destruct v; constructor. Qed.

Lemma shown_fun v s s' : shown_as v s -> shown_as v s' -> s = s'.
Proof. intros H H'. destruct H; inversion H'; reflexivity. Qed.

Lemma record_ok r l : record_line r = l <-> record_shown r l.
Proof.
  unfold record_line, record_shown. split.
  - intros <-. exists (map (fun p => value_text (snd p)) r). split; [|apply join_tabbed].
    induction r as [|p r IH]; constructor; [apply value_shown|exact IH].
  - intros (texts & F & T). assert (E : texts = map (fun p => value_text (snd p)) r).
    { clear T. revert texts F. induction r as [|p r IH]; intros texts F; inversion F as [|? ? ? ? F1 F2]; subst; [reflexivity|]. cbn [map]. f_equal; [|apply IH; exact F2].
      exact (shown_fun _ _ _ F1 (value_shown _)). }
    subst texts. exact (tabbed_fun _ _ _ (join_tabbed _) T).
Qed.

Lemma names_some l names : KcsModel.all_names l = Some names <-> map kc_name l = map Some names.
Proof.
  revert names. induction l as [|c l IH]; intros names; cbn [KcsModel.all_names map].
  - destruct names; split; intros H; try reflexivity; discriminate.
  - destruct (kc_name c) as [n|].
    + destruct (KcsModel.all_names l) as [ns|] eqn:E.
      * split; intros H; [injection H as <-; cbn [map]; f_equal; apply IH; reflexivity|]. destruct names as [|m names]; [discriminate|]. cbn [map] in H. injection H as -> H. apply IH in H. congruence.
      * split; [discriminate|]. destruct names as [|m names]; [discriminate|]. cbn [map]. intros H. injection H as -> H. apply IH in H. discriminate.
    + split; [discriminate|]. destruct names; discriminate.
Qed.

Lemma records_lines l : Forall2 record_shown l (map record_line l).
Proof. induction l; constructor; [apply record_ok; reflexivity|assumption]. Qed.

Lemma records_fun l lines : Forall2 record_shown l lines -> lines = map record_line l.
Proof. induction 1 as [|r x l ls H F IH]; [reflexivity|]. cbn [map]. f_equal; [|exact IH]. symmetry. apply record_ok, H. Qed.

Lemma content_ok t s : content_table t = (s, Ok tt) <-> content_shown t s.
Proof.
  unfold content_table, content_shown. rewrite then_ok. split.
  - intros (s1 & s2 & E1 & E2 & ->). apply (f_equal fst) in E1. cbn [printed fst] in E1. subst s1.
    destruct (KcsModel.all_names (kt_columns t)) as [names|] eqn:E; [|discriminate]. apply (f_equal fst) in E2. cbn [printed fst] in E2. subst s2.
    exists names, (join [9] names ++ [10]), (map record_line (kt_records t)). split; [apply names_some, E|]. split; [apply join_tabbed|]. split; [apply records_lines|].
    unfold title, table_title. rewrite <- !app_assoc. reflexivity.
  - intros (names & head & lines & N & T & F & ->). apply names_some in N. rewrite N. do 2 eexists. split; [reflexivity|]. split; [reflexivity|].
    rewrite (tabbed_fun _ _ _ T (join_tabbed _)), (records_fun _ _ F). unfold title, table_title. rewrite <- !app_assoc. reflexivity.
Qed.

Lemma content_err t e : snd (content_table t) = Err e -> e = TypeError /\ exists c, In c (kt_columns t) /\ kc_name c = None.
Proof.
  unfold content_table. intros H. apply then_err in H as [H|[_ H]]; [discriminate|]. destruct (KcsModel.all_names (kt_columns t)) as [names|] eqn:E; [discriminate|]. injection H as <-. split; [reflexivity|].
  induction (kt_columns t) as [|c l IH]; [discriminate|]. cbn [KcsModel.all_names] in E. destruct (kc_name c) as [n|] eqn:N; [|exists c; split; [left; reflexivity|exact N]].
  destruct (KcsModel.all_names l); [discriminate|]. destruct (IH eq_refl) as (c' & I & H). exists c'. split; [right; exact I|exact H].
Qed.

Lemma nodup_left {A} (a b : list A) : NoDup (a ++ b) -> NoDup a.
Proof.
  induction a as [|x a IH]; cbn [app]; intros N; [constructor|]. inversion N as [|? ? N1 N2]; subst. constructor; [|exact (IH N2)]. intros I. apply N1, in_or_app. left. exact I.
Qed.

(** *** Lossless *)

Lemma repr_no_tab a : is_bytes a -> ~ In 9 (bytes_repr a).
Proof.
  intros Ha. unfold bytes_repr. set (q := if _ && _ then 34 else 39). assert (Hq : q = 34 \/ q = 39) by (unfold q; destruct (_ && _); auto). clearbody q.
  assert (C : forall c, is_byte c -> ~ In 9 (repr_char q c)).
  { intros c Hc I. assert (T : negb (existsb (Z.eqb 9) (repr_char q c)) = true).
    { apply (byte_forall (fun c => negb (existsb (Z.eqb 9) (repr_char q c)))); [|exact Hc]. destruct Hq; subst q; vm_compute; reflexivity. }
    apply negb_true_iff in T. assert (existsb (Z.eqb 9) (repr_char q c) = true) by (apply existsb_exists; exists 9; split; [exact I|reflexivity]). congruence. }
  intros I. apply in_app_or in I as [[I|[]]|I]; [lia|]. apply in_app_or in I as [I|[I|[]]]; [|lia].
  apply in_concat in I as (s & I & J). apply in_map_iff in I as (c & <- & I). unfold is_bytes in Ha. rewrite Forall_forall in Ha. exact (C c (Ha c I) J).
Qed.

Lemma text_plain t v : fits t v -> ~ In 9 (value_text v) /\ ~ In 10 (value_text v).
Proof.
  intros F. destruct F as [t|t z _ _|t s _ (H1 & H2 & _)|b Hb]; cbn [value_text].
  - split; cbn; intros H; repeat (destruct H as [H|H]; [discriminate|]); exact H.
  - split; (apply fmt_d_no; [lia|apply not_digit; lia]).
  - auto.
  - split; cbn [app In]; intros [H|H]; try discriminate; [exact (repr_no_tab b Hb H)|exact (repr_no_break b Hb H)].
Qed.

Lemma null_digits z : fmt_d z <> s2z "NULL"%string.
Proof. intros E. assert (H : In 78 (fmt_d z)) by (rewrite E; left; reflexivity). revert H. apply fmt_d_no; [lia|apply not_digit; lia]. Qed.

Lemma text_inj t v v' : fits t v -> fits t v' -> value_text v = value_text v' -> v = v'.
Proof.
  intros F F'. inversion F as [t0|t0 z Ht Hz|t0 s Ht Hs|b Hb]; subst; inversion F' as [t1|t1 z' Ht' Hz'|t1 s' Ht' Hs'|b' Hb']; subst; try reflexivity; try lia; cbn [value_text]; intros E.
  - symmetry in E. destruct (null_digits _ E).
  - destruct Hs' as (_ & _ & N). symmetry in E. destruct (N E).
  - cbn in E. discriminate.
  - destruct (null_digits _ E).
  - f_equal. apply fmt_d_inj; assumption.
  - destruct Hs as (_ & _ & N). destruct (N E).
  - congruence.
  - cbn in E. discriminate.
  - assert (E2 := f_equal (@tl Z) E). cbn [app tl] in E2. f_equal. destruct (repr_prefix b b' [] []) as [-> _]; [assumption|assumption|rewrite E2; reflexivity|reflexivity].
Qed.

Lemma join_inj ts : forall vs vs', Forall2 fits ts vs -> Forall2 fits ts vs' -> join [9] (map value_text vs) = join [9] (map value_text vs') -> vs = vs'.
Proof.
  induction ts as [|t ts IH]; intros vs vs' F F' E; inversion F as [|? v ? l F1 F2]; subst; inversion F' as [|? v' ? l' F1' F2']; subst; [reflexivity|].
  destruct l as [|x l], l' as [|x' l']; try (inversion F2; subst; inversion F2'; fail).
  - f_equal. exact (text_inj t v v' F1 F1' E).
  - change (value_text v ++ 9 :: join [9] (map value_text (x :: l)) = value_text v' ++ 9 :: join [9] (map value_text (x' :: l'))) in E.
    apply cut in E as (E1 & E2); [|apply (text_plain t), F1|apply (text_plain t), F1']. f_equal; [exact (text_inj t v v' F1 F1' E1)|]. apply IH; assumption.
Qed.

Lemma join_plain ts : forall vs, Forall2 fits ts vs -> ~ In 10 (join [9] (map value_text vs)).
Proof.
  induction ts as [|t ts IH]; intros vs F; inversion F as [|? v ? l F1 F2]; subst; [intros []|]. destruct l as [|x l].
  - apply (text_plain t v F1).
  - change (join [9] (map value_text (v :: x :: l))) with (value_text v ++ [9] ++ join [9] (map value_text (x :: l))). rewrite !in_app_iff. intros [H|[[H|[]]|H]].
    + exact (proj2 (text_plain t v F1) H).
    + discriminate.
    + exact (IH _ F2 H).
Qed.

Lemma records_inj ts l l' : Forall (fun r : krow => Forall2 fits ts (map snd r)) l -> Forall (fun r : krow => Forall2 fits ts (map snd r)) l' ->
  concat (map record_line l) = concat (map record_line l') -> map (map snd) l = map (map snd) l'.
Proof.
  intros F F' E. unfold record_line in E. apply (lines_inj (fun r : krow => join [9] (map (fun p => value_text (snd p)) r)) (fun r : krow => join [9] (map (fun p => value_text (snd p)) r))) in E.
  - induction E as [|r r' l l' E G IH]; [reflexivity|]. cbn [map]. f_equal; [|apply IH; eapply Forall_inv_tail; eassumption].
    apply Forall_inv in F. apply Forall_inv in F'. rewrite <- !(map_map snd value_text) in E. exact (join_inj ts _ _ F F' E).
  - intros r I. rewrite Forall_forall in F. specialize (F r I). rewrite <- (map_map snd value_text). exact (join_plain ts _ F).
  - intros r I. rewrite Forall_forall in F'. specialize (F' r I). rewrite <- (map_map snd value_text). exact (join_plain ts _ F').
Qed.

(** *** The records of the tables that are read *)

Definition row_names (k : Z) (t : ktable) (r : krow) : Prop :=
  match schema_names k with
  | Some names => map fst r = names
  | None => exists n, (n <= length (kt_columns t))%nat /\ (NoDup (firstn n (map kc_name (kt_columns t))) -> map fst r = firstn n (map kc_name (kt_columns t)))
  end.

Definition tinv (p : Z * ktable) : Prop := kt_id (snd p) = fst p /\ Forall (row_names (fst p) (snd p)) (kt_records (snd p)).

Lemma set_inv k t tables : Forall tinv tables -> tinv (k, t) -> Forall tinv (dict_set k t tables).
Proof.
  induction 1 as [|[k' t'] l H F IH]; intros T; cbn [dict_set]; [constructor; [exact T|constructor]|]. destruct (k' =? k); constructor; auto.
Qed.

Lemma get_inv k t tables : Forall tinv tables -> dict_get k tables = Some t -> tinv (k, t).
Proof.
  induction 1 as [|[k' t'] l H F IH]; cbn [dict_get]; [discriminate|]. destruct (Z.eqb_spec k' k) as [->|]; [|exact IH]. intros E. injection E as <-. exact H.
Qed.

Lemma record_inv k t r : tinv (k, t) -> row_names k t r -> tinv (k, add_record t r).
Proof.
  intros [I F] R. split; [exact I|]. cbn [snd fst add_record kt_records] in *. apply Forall_app. split; [exact F|]. constructor; [exact R|constructor].
Qed.

Lemma column_inv k t c : tinv (k, t) -> tinv (k, add_column t c).
Proof.
  intros [I F]. split; [exact I|]. cbn [snd fst add_column kt_records] in *. eapply Forall_impl; [|exact F]. intros r. unfold row_names. destruct (schema_names k); [auto|].
  intros (n & L & H). exists n. cbn [add_column kt_columns]. rewrite app_length, map_app. split; [lia|].
  assert (E : firstn n (map kc_name (kt_columns t) ++ map kc_name [c]) = firstn n (map kc_name (kt_columns t))).
  { rewrite firstn_app. replace (n - length (map kc_name (kt_columns t)))%nat with O by (rewrite map_length; lia). cbn [firstn]. apply app_nil_r. }
  rewrite E. exact H.
Qed.

Lemma values_names : forall columns offsets data off row row', NoDup (map fst row ++ map kc_name columns) ->
  kc_values columns offsets data off row = Ok row' -> map fst row' = map fst row ++ map kc_name columns.
Proof.
  induction columns as [|c cs IH]; intros offsets data off row row' N E; cbn [kc_values map] in *.
  - injection E as <-. symmetry. apply app_nil_r.
  - destruct offsets as [|o os]; [discriminate|]. destruct (kc_value _ _ _ _) as [v|]; [|discriminate]. cbn [bind] in E.
    rewrite row_set_new in E by (intros I; apply NoDup_remove_2 in N; apply N, in_or_app; left; exact I).
    apply IH in E; rewrite map_app in *; cbn [map fst] in *; rewrite <- app_assoc in *; cbn [app] in *; assumption.
Qed.

Lemma read_record_inv content off k tables tables' : schema_names k = None -> Forall tinv tables -> kc_read_record content off k tables = Ok tables' -> Forall tinv tables'.
Proof.
  intros K F. unfold kc_read_record. destruct (dict_get k tables) as [t|] eqn:G; [|discriminate]. destruct (kc_record_header _ _) as [size|]; [|discriminate]. cbn [bind].
  destruct (kt_columns t) as [|c cs] eqn:C.
  - cbn [bind]. intros E. injection E as <-. apply set_inv; [exact F|]. apply record_inv; [exact (get_inv _ _ _ F G)|]. unfold row_names. rewrite K. exists O. split; [lia|reflexivity].
  - destruct (kc_offsets _ _ _) as [offsets|]; [|discriminate]. cbn [bind]. destruct (read_here _ _ _) as [data|]; [|discriminate]. cbn [bind].
    destruct (kc_values _ _ _ _ _) as [row|] eqn:V; [|discriminate]. cbn [bind]. intros E. injection E as <-. apply set_inv; [exact F|]. apply record_inv; [exact (get_inv _ _ _ F G)|].
    unfold row_names. rewrite K, C. exists (length (c :: cs)). split; [lia|]. rewrite <- (map_length kc_name), firstn_all. intros N. exact (values_names _ _ _ _ [] _ N V).
Qed.

Lemma read_info_inv content off tables tables' : Forall tinv tables -> kc_read_info content off tables = Ok tables' -> Forall tinv tables'.
Proof.
  intros F. unfold kc_read_info. destruct (kc_record_header _ _); [|discriminate]. cbn [bind]. destruct (kc_offsets _ _ _) as [os|]; [|discriminate]. cbn [bind].
  destruct (guard _ _); [|discriminate]. cbn [bind]. destruct (VarModel.read_var _ _ _ _) as [[[vs d] n]|]; [|discriminate]. cbn [bind].
  destruct vs as [|[rel|] [|[m|] [|]]]; try discriminate. destruct (CpioModel.decode_ascii d) as [name|]; [|discriminate]. cbn [bind].
  assert (F1 : Forall tinv (dict_set rel (mkktable rel name [] []) tables)) by (apply set_inv; [exact F|split; [reflexivity|constructor]]).
  destruct (dict_get 0 _) as [t|] eqn:G; [|discriminate]. intros E. injection E as <-. apply set_inv; [exact F1|]. apply record_inv; [exact (get_inv _ _ _ F1 G)|]. reflexivity.
Qed.

Lemma read_index_inv content off tables tables' : Forall tinv tables -> kc_read_index content off tables = Ok tables' -> Forall tinv tables'.
Proof.
  intros F. unfold kc_read_index. destruct (kc_record_header _ _); [|discriminate]. cbn [bind]. destruct (kc_offsets _ _ _) as [os|]; [|discriminate]. cbn [bind].
  destruct (guard _ _); [|discriminate]. cbn [bind]. destruct (read_struct _ _ _) as [vs|]; [|discriminate]. cbn [bind].
  destruct vs as [|[z1|] [|[z2|] [|[z3|] [|[z4|] [|[z5|] [|]]]]]]; try discriminate. destruct (dict_get z1 tables) as [t|]; [|discriminate]. destruct (dict_get 1 tables) as [t1|] eqn:G; [|discriminate].
  intros E. injection E as <-. apply set_inv; [exact F|]. apply record_inv; [exact (get_inv _ _ _ F G)|]. reflexivity.
Qed.

Lemma read_attribute_inv content off tables tables' : Forall tinv tables -> kc_read_attribute content off tables = Ok tables' -> Forall tinv tables'.
Proof.
  intros F. unfold kc_read_attribute. destruct (kc_record_header _ _) as [size|]; [|discriminate]. cbn [bind]. destruct (kc_offsets _ _ _) as [os|]; [|discriminate]. cbn [bind].
  destruct os as [|o0 [|o1 [|o2 [|o3 [|o4 [|o5 [|]]]]]]]; try discriminate. destruct (read_here _ _ _) as [data|]; [|discriminate]. cbn [bind].
  destruct (kc_int _ _ o0) as [relation|]; [|discriminate]. cbn [bind]. destruct (kc_int _ _ o1) as [identifier|]; [|discriminate]. cbn [bind].
  destruct (kc_int _ _ o2) as [format|]; [|discriminate]. cbn [bind]. destruct (kc_string _ _ o3) as [name|]; [|discriminate]. cbn [bind].
  destruct (kc_int _ _ o5) as [type|]; [|discriminate]. cbn [bind]. destruct relation as [|rel| |]; try discriminate.
  destruct (dict_get rel tables) as [t|] eqn:G; [|discriminate].
  match goal with |- bind ?x _ = _ -> _ => destruct x as [nm|]; [|discriminate] end. cbn [bind].
  set (tabs := dict_set rel _ tables). assert (F1 : Forall tinv tabs) by (apply set_inv; [exact F|apply column_inv, (get_inv _ _ _ F G)]). clearbody tabs.
  destruct (dict_get 2 tabs) as [t2|] eqn:G2; [|discriminate]. intros E. injection E as <-. apply set_inv; [exact F1|]. apply record_inv; [exact (get_inv _ _ _ F1 G2)|]. reflexivity.
Qed.

Lemma read_any_inv content k off tables tables' : Forall tinv tables -> kc_read_any content k off tables = Ok tables' -> Forall tinv tables'.
Proof.
  intros F. unfold kc_read_any. destruct k as [|p|p]; [apply read_info_inv, F| |apply read_record_inv; [reflexivity|exact F]].
  destruct p as [p|[p|p|]|]; [apply read_record_inv; [reflexivity|exact F]..|apply read_attribute_inv, F|apply read_index_inv, F].
Qed.

Lemma read_records_inv content k toff : forall offsets tables tables', Forall tinv tables -> kc_read_records content k toff offsets tables = Ok tables' -> Forall tinv tables'.
Proof.
  induction offsets as [|o r IH]; intros tables tables' F; cbn [kc_read_records]; [intros E; injection E as <-; exact F|]. destruct (o =? 0); [apply IH, F|].
  destruct (kc_read_any _ _ _ _) as [t|] eqn:E; [|discriminate]. cbn [bind]. apply IH. exact (read_any_inv _ _ _ _ _ F E).
Qed.

Lemma read_table_inv content toff tables tables' : Forall tinv tables -> kc_read_table content toff tables = Ok tables' -> Forall tinv tables'.
Proof.
  intros F. unfold kc_read_table. destruct (VarModel.read_var _ _ _ _) as [[[vs d] n]|]; [|discriminate]. cbn [bind].
  destruct vs as [|[?|] [|[k|] [|[?|] [|[?|] [|[?|] [|[?|] [|[m|] [|]]]]]]]]; try discriminate. destruct (map_struct _ _) as [l|]; [|discriminate]. apply read_records_inv, F.
Qed.

Lemma read_tables_inv content aoff : forall offsets tables tables', Forall tinv tables -> kc_read_tables content aoff offsets tables = Ok tables' -> Forall tinv tables'.
Proof.
  induction offsets as [|o r IH]; intros tables tables' F; cbn [kc_read_tables]; [intros E; injection E as <-; exact F|].
  destruct (kc_read_table _ _ _) as [t|] eqn:E; [|discriminate]. cbn [bind]. apply IH. exact (read_table_inv _ _ _ _ F E).
Qed.

Lemma keychain_inv content tables : read_keychain content = Ok tables -> Forall tinv tables.
Proof.
  unfold read_keychain. destruct (read_struct _ _ _) as [vs|]; [|discriminate]. cbn [bind]. destruct vs as [|[?|sig] [|[?|] [|[?|] [|[?|] [|[z1|] [|[?|] [|]]]]]]]; try discriminate.
  destruct (guard _ _); [|discriminate]. cbn [bind]. unfold kc_read_array. destruct (VarModel.read_var _ _ _ _) as [[[vs d] n]|]; [|discriminate]. cbn [bind].
  destruct vs as [|[?|] [|[m|] [|]]]; try discriminate. destruct (map_struct _ _) as [l|]; [|discriminate]. apply read_tables_inv. constructor.
Qed.

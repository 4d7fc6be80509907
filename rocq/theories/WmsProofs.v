(** Proofs about the output of the WMI repository script. *)

From Coq Require Import Permutation Sorted.
From Verif Require Import Base BaseFacts StrModel DictModel TvModel WcmModel WciModel WchModel LdsModel KcsModel KcsProofs WmsModel WmsSpec.
From Coq Require String.
Import String.StringSyntax.

Opaque fmt_d.

(** ** Order *)

Lemma str_le_before : forall a b, str_le a b = true <-> before a b.
Proof.
  induction a as [|x a IH]; intros b.
  - split; [|reflexivity]. intros _. left. exists b. reflexivity.
  - destruct b as [|y b].
    + split; [discriminate|]. intros [[s E]|(p & x' & y' & s & t & E1 & E2 & L)]; [discriminate E|destruct p; discriminate E2].
    + cbn [str_le]. rewrite orb_true_iff, andb_true_iff, Z.ltb_lt, Z.eqb_eq, IH. split.
      * intros [L|[<- [[s ->]|(p & x' & y' & s & t & -> & -> & L)]]].
        -- right. exists [], x, y, a, b. auto.
        -- left. exists s. reflexivity.
        -- right. exists (x :: p), x', y', s, t. auto.
      * intros [[s E]|(p & x' & y' & s & t & E1 & E2 & L)].
        -- injection E as -> E. right. split; [reflexivity|]. left. exists s. exact E.
        -- destruct p as [|z p]; cbn [app] in *.
           ++ injection E1 as -> _. injection E2 as -> _. left. exact L.
           ++ injection E1 as -> E1. injection E2 as -> E2. right. split; [reflexivity|]. right. exists p, x', y', s, t. auto.
Qed.

Lemma str_le_total : forall a b, str_le a b = false -> str_le b a = true.
Proof.
  induction a as [|x a IH]; intros [|y b] H; try reflexivity; try discriminate H.
  cbn [str_le] in *. apply orb_false_iff in H as [H1 H2]. apply Z.ltb_ge in H1. apply orb_true_iff.
  destruct (Z.eqb_spec x y) as [->|N].
  - right. rewrite Z.eqb_refl in *. cbn [andb] in *. apply IH, H2.
  - left. apply Z.ltb_lt. lia.
Qed.

Lemma str_le_trans : forall a b c, str_le a b = true -> str_le b c = true -> str_le a c = true.
Proof.
  induction a as [|x a IH]; intros [|y b] [|z c] H1 H2; try reflexivity; try discriminate H1; try discriminate H2.
  cbn [str_le] in *. rewrite orb_true_iff, andb_true_iff, Z.ltb_lt, Z.eqb_eq in *.
  destruct H1 as [L1|[-> H1]], H2 as [L2|[-> H2]]; [left; lia|left; lia|left; lia|]. right. split; [reflexivity|]. eapply IH; eassumption.
Qed.

Section sort.
Context {A : Type} (key : A -> str).

Lemma sort_into_perm x l : Permutation (sort_into key x l) (x :: l).
Proof.
  induction l as [|y l IH]; [reflexivity|]. cbn [sort_into]. destruct (str_le _ _); [reflexivity|]. rewrite IH. apply perm_swap.
Qed.

Lemma sorted_by_perm l : Permutation (sorted_by key l) l.
Proof. induction l as [|x l IH]; [reflexivity|]. unfold sorted_by in *. cbn [fold_right]. rewrite sort_into_perm, IH. reflexivity. Qed.

Definition le_key a b := str_le (key a) (key b) = true.

Lemma sort_into_sorted x l : StronglySorted le_key l -> StronglySorted le_key (sort_into key x l).
Proof.
  induction 1 as [|y l S IH F]; cbn [sort_into]; [repeat constructor|].
  destruct (str_le (key x) (key y)) eqn:E.
  - constructor; [constructor; assumption|]. constructor; [exact E|]. eapply Forall_impl; [|exact F]. intros z Hz. eapply str_le_trans; eassumption.
  - constructor; [exact IH|]. apply Forall_forall. intros z Hz. apply (Permutation_in _ (sort_into_perm x l)) in Hz as [<-|Hz].
    + apply str_le_total, E.
    + revert z Hz. apply Forall_forall, F.
Qed.

Lemma sorted_by_sorted l : StronglySorted before (map key (sorted_by key l)).
Proof.
  assert (S : StronglySorted le_key (sorted_by key l)).
  { induction l as [|x l IH]; [constructor|]. unfold sorted_by in *. cbn [fold_right]. apply sort_into_sorted, IH. }
  induction S as [|y m S IH F]; cbn [map]; [constructor|]. constructor; [exact IH|]. apply Forall_map. eapply Forall_impl; [|exact F].
  intros z Hz. apply str_le_before, Hz.
Qed.

End sort.

(** ** Instances *)

Lemma sget_in {A} k (v : A) t : sdict_get k t = Some v -> In (k, v) t.
Proof.
  induction t as [|[k' v'] t IH]; cbn [sdict_get]; [discriminate|]. destruct (list_eqb k' k) eqn:E; intros H.
  - injection H as ->. apply list_eqb_eq in E as ->. left. reflexivity.
  - right. apply IH, H.
Qed.

Lemma sget_some {A} k (v : A) t : NoDup (map fst t) -> In (k, v) t -> sdict_get k t = Some v.
Proof.
  induction t as [|[k' v'] t IH]; cbn [sdict_get map fst]; intros D H; [destruct H|]. inversion D as [|? ? D1 D2]; subst.
  destruct H as [H|H].
  - injection H as -> ->. rewrite list_eqb_refl. reflexivity.
  - destruct (list_eqb k' k) eqn:E; [|apply IH; assumption]. apply list_eqb_eq in E as ->. destruct D1.
    apply in_map_iff. exists (k, v). split; [reflexivity|exact H].
Qed.

Lemma ok_eq {A} (x y : A) : Ok x = Ok y -> x = y.
Proof. congruence. Qed.

Lemma not_true v : value_true v = false <-> no_name v.
Proof.
  unfold no_name. destruct v as [|b|z|s|l]; cbn [value_true]; split.
  - auto.
  - reflexivity.
  - intros ->. auto.
  - intros [H|[H|[H|[H|H]]]]; inversion H. reflexivity.
  - intros H. apply negb_false_iff, Z.eqb_eq in H as ->. auto.
  - intros [H|[H|[H|[H|H]]]]; inversion H. reflexivity.
  - intros H. apply negb_false_iff, Z.eqb_eq in H. destruct s; [auto 6|rewrite len_cons in H; pose proof (len_nonneg s); lia].
  - intros [H|[H|[H|[H|H]]]]; inversion H. reflexivity.
  - intros H. apply negb_false_iff, Z.eqb_eq in H. destruct l; [auto 6|rewrite len_cons in H; pose proof (len_nonneg l); lia].
  - intros [H|[H|[H|[H|H]]]]; inversion H. reflexivity.
Qed.

Lemma relpath_ok (i : inst) path : NoDup (map fst (snd i)) -> relpath i = Ok path -> path_of i path.
Proof.
  intros D. unfold relpath. destruct (sdict_get (s2z "Name"%string) (snd i)) as [v|] eqn:E.
  - destruct (value_true v) eqn:T.
    + destruct v; cbn [value_format bind]; intros H; try discriminate H. apply ok_eq in H. subst path. apply (path_named i s).
      * intros ->. discriminate T.
      * apply sget_in, E.
    + intros H. injection H as <-. apply path_single. intros w Hw. apply (sget_some _ _ _ D) in Hw. rewrite E in Hw. injection Hw as <-. apply not_true, T.
  - intros H. injection H as <-. apply path_single. intros w Hw. apply (sget_some _ _ _ D) in Hw. rewrite E in Hw. discriminate Hw.
Qed.

Lemma relpath_err (i : inst) e : NoDup (map fst (snd i)) -> relpath i = Err e <->
  exists v, In (s2z "Name"%string, v) (snd i) /\
    (e = ValueError /\ (v = VBool true \/ exists z, z <> 0 /\ v = VNum z) \/ e = TypeError /\ exists s l, v = VStrs (s :: l)).
Proof.
  intros D. unfold relpath. split.
  - destruct (sdict_get (s2z "Name"%string) (snd i)) as [v|] eqn:E; [|discriminate]. destruct (value_true v) eqn:T; [|discriminate].
    destruct v as [|b|z|s|[|s l]]; try discriminate; cbn [value_format bind]; intros H; injection H as <-; (eexists; split; [apply sget_in, E|]).
    + left. split; [reflexivity|]. left. cbn in T. subst b. reflexivity.
    + left. split; [reflexivity|]. right. exists z. split; [|reflexivity]. intros ->. discriminate T.
    + right. split; [reflexivity|]. eauto.
  - intros (v & Hv & H). rewrite (sget_some _ _ _ D Hv). destruct H as [[-> [->|(z & Hz & ->)]]|[-> (s & l & ->)]].
    + reflexivity.
    + cbn [value_true]. apply Z.eqb_neq in Hz as ->. reflexivity.
    + cbn [value_true]. replace (len (s :: l) =? 0) with false; [reflexivity|]. rewrite len_cons. pose proof (len_nonneg l).
      symmetry. apply Z.eqb_neq. lia.
Qed.

Lemma combine_map {A} (f : A -> str) (g : A -> str) l : combine (map f l) (map g l) = map (fun p => (f p, g p)) l.
Proof. induction l as [|x l IH]; [reflexivity|]. cbn [map combine]. rewrite IH. reflexivity. Qed.

Lemma pairs_ok strs ns i path : pairs_of strs (match ns with Some (x :: s) => x :: s | _ => s2z "ROOT"%string end) i path (instance_pairs strs ns i path).
Proof.
  exists (or_empty (cm_super (fst i))), (or_empty (cm_dynasty (fst i))), (sorted_by fst (snd i)),
    (map (fun p => match snd p with VNone => [] | v => value_shown strs v end) (sorted_by fst (snd i))).
  split; [destruct (cm_super (fst i)); [left|right]; auto|].
  split; [destruct (cm_dynasty (fst i)); [left|right]; auto|].
  split; [apply sorted_by_perm|]. split; [apply sorted_by_sorted|]. split.
  - induction (sorted_by fst (snd i)) as [|p l IH]; cbn [map]; [constructor|]. constructor; [destruct (snd p) as [|[]| | |]; constructor|exact IH].
  - unfold instance_pairs. cbn [map app combine]. repeat (f_equal; []). f_equal. symmetry. apply combine_map.
Qed.

Lemma largest_ge l p : In p l -> len (fst p) <= largest l.
Proof. induction l as [|q l IH]; intros H; [destruct H|]. unfold largest in *. cbn [fold_right]. destruct H as [->|H]; [lia|]. specialize (IH H). lia. Qed.

Lemma largest_in l : l <> [] -> exists p, In p l /\ len (fst p) = largest l.
Proof.
  induction l as [|q l IH]; [congruence|]. intros _. destruct l as [|r l].
  - exists q. split; [left; reflexivity|]. unfold largest. cbn [fold_right]. pose proof (len_nonneg (fst q)). lia.
  - destruct IH as (p & Hp & E); [discriminate|]. unfold largest in *. cbn [fold_right] in *.
    destruct (Z.max_spec (len (fst q)) (Z.max (len (fst r)) (fold_right (fun p n => Z.max (len (fst p)) n) 0 l))) as [[_ M]|[_ M]]; rewrite M.
    + exists p. split; [right; exact Hp|exact E].
    + exists q. split; [left; reflexivity|reflexivity].
Qed.

Lemma lines_column w m : Forall (fun p : str * str => len (fst p) <= w) m -> Forall2 (in_column w) m (map (pair_line w) m).
Proof.
  induction 1 as [|p m Hp Hm IH]; cbn [map]; [constructor|]. constructor; [|exact IH]. exists (Z.to_nat (w - len (fst p))). split; [lia|reflexivity].
Qed.

Lemma lines_ok l : l <> [] -> shown_pairs l (concat (map (pair_line (largest l)) l) ++ [10]).
Proof.
  intros N. exists (largest l), (map (pair_line (largest l)) l). split; [apply largest_ge|]. split; [apply largest_in, N|]. split; [|reflexivity].
  apply lines_column, Forall_forall, largest_ge.
Qed.

Lemma instance_ok strs ns i text : print_instance strs ns i = (text, Ok tt) -> exists path, relpath i = Ok path /\
  shown_pairs (instance_pairs strs ns i path) text.
Proof.
  unfold print_instance. destruct (relpath i) as [path|e]; [|discriminate]. intros H. apply (f_equal fst) in H. cbn [printed fst] in H. subst text.
  exists path. split; [reflexivity|]. apply lines_ok. discriminate.
Qed.

Lemma instance_err strs ns i text e : print_instance strs ns i = (text, Err e) <-> text = [] /\ relpath i = Err e.
Proof.
  unfold print_instance. destruct (relpath i) as [path|x]; [split; [discriminate|intros [_ H]; discriminate H]|].
  split; [intros H; injection H as <- ->; auto|intros [-> H]; injection H as ->; reflexivity].
Qed.

(** ** What is shown determines the pairs *)

Lemma split_line (a b x y : str) : ~ In 10 a -> ~ In 10 b -> a ++ 10 :: x = b ++ 10 :: y -> a = b /\ x = y.
Proof.
  revert b. induction a as [|c a IH]; intros [|d b] Ha Hb E; cbn [app] in E.
  - injection E as E. auto.
  - injection E as <- _. destruct Hb. left. reflexivity.
  - injection E as -> _. destruct Ha. left. reflexivity.
  - injection E as -> E. apply IH in E as [-> ->]; [auto| |]; intros H; [apply Ha|apply Hb]; right; exact H.
Qed.

Lemma repeat_len {A} (x : A) k : len (repeat x k) = Z.of_nat k.
Proof. unfold len. rewrite repeat_length. reflexivity. Qed.

Lemma app_len_eq {A} (a b x y : list A) : len a = len b -> a ++ x = b ++ y -> a = b /\ x = y.
Proof.
  revert b. induction a as [|c a IH]; intros [|d b] L E; cbn [app] in E.
  - auto.
  - rewrite len_cons in L. pose proof (len_nonneg b). change (len (@nil A)) with 0 in L. lia.
  - rewrite len_cons in L. pose proof (len_nonneg a). change (len (@nil A)) with 0 in L. lia.
  - rewrite !len_cons in L. injection E as -> E. apply IH in E as [-> ->]; [auto|lia].
Qed.

Lemma padded_eq (a b : str) k m : (forall s, a <> s ++ [32]) -> (forall s, b <> s ++ [32]) -> a ++ repeat 32 k = b ++ repeat 32 m -> a = b.
Proof.
  assert (R : forall n, repeat 32 (S n) = repeat 32 n ++ [32]) by (intros n; induction n as [|n IH]; [reflexivity|cbn [repeat app] in *; rewrite <- IH; reflexivity]).
  revert m. induction k as [|k IH]; intros m Ha Hb E.
  - destruct m as [|m]; [rewrite !app_nil_r in E; exact E|]. rewrite R, app_assoc, app_nil_r in E. destruct (Ha _ E).
  - destruct m as [|m].
    + rewrite R, app_assoc, app_nil_r in E. symmetry in E. destruct (Hb _ E).
    + rewrite !R, !app_assoc in E. apply app_inj_tail in E as [E _]. eapply IH; eassumption.
Qed.

Lemma column_eq w p p' line line' x y : plain p -> plain p' -> in_column w p line -> in_column w p' line' -> line ++ x = line' ++ y -> p = p' /\ x = y.
Proof.
  intros (N & V & S) (N' & V' & S') (k & L & ->) (k' & L' & ->) E. destruct p as [n v], p' as [n' v']. cbn [fst snd] in *.
  rewrite <- !app_assoc in E. rewrite !(app_assoc n), !(app_assoc n') in E.
  apply app_len_eq in E as [E1 E2]; [|rewrite !len_app, !repeat_len; lia].
  apply padded_eq in E1; [|assumption|assumption]. subst n'. apply app_inv_head in E2. cbn [app] in E2. apply split_line in E2 as [-> ->]; auto.
Qed.

Lemma columns_eq w : forall l l' lines lines', Forall plain l -> Forall plain l' -> Forall2 (in_column w) l lines -> Forall2 (in_column w) l' lines' ->
  concat lines ++ [10] = concat lines' ++ [10] -> l = l'.
Proof.
  assert (H : forall p line x, plain p -> in_column w p line -> (line ++ x) ++ [10] <> [10]).
  { intros [n v] line x P (k & _ & ->) E. apply (f_equal len) in E. revert E. rewrite !len_app. cbn [fst snd]. change (len [10]) with 1.
    change (len (s2z " : "%string)) with 3. pose proof (len_nonneg n). pose proof (len_nonneg v). pose proof (len_nonneg x). pose proof (len_nonneg (repeat 32 k)). lia. }
  intros l l' lines lines' P P' F. revert l' lines' P'. induction F as [|p line l lines C F IH]; intros l' lines' P' F' E.
  - inversion F' as [|p' line' m m' C' F'']; subst; [reflexivity|]. cbn [concat] in E. symmetry in E. inversion P'; subst. destruct (H _ _ _ H2 C' E).
  - inversion F' as [|p' line' m m' C' F'']; subst.
    + cbn [concat] in E. inversion P; subst. destruct (H _ _ _ H2 C E).
    + cbn [concat] in E. rewrite <- !app_assoc in E. inversion P; inversion P'; subst. apply (column_eq w p p') in E as [-> E]; auto.
      f_equal. eapply IH; eauto.
Qed.

(** The first line gives the width. *)
Lemma genus_width w w' line line' x y : in_column w (s2z "__GENUS"%string, s2z "2"%string) line -> in_column w' (s2z "__GENUS"%string, s2z "2"%string) line' ->
  line ++ x = line' ++ y -> w = w'.
Proof.
  intros (k & L & ->) (k' & L' & ->) E. cbn [fst snd] in *. rewrite <- !app_assoc in E. apply app_inv_head in E.
  assert (K : k = k').
  { clear L L'. revert k' E. induction k as [|k IH]; intros [|k'] E.
    - reflexivity.
    - destruct k' as [|k']; cbn in E; discriminate E.
    - destruct k as [|k]; cbn in E; discriminate E.
    - f_equal. apply IH. cbn [repeat app] in E. injection E as E. exact E. }
  lia.
Qed.

Lemma shown_inj r r' text : let g := (s2z "__GENUS"%string, s2z "2"%string) in Forall plain (g :: r) -> Forall plain (g :: r') ->
  shown_pairs (g :: r) text -> shown_pairs (g :: r') text -> r = r'.
Proof.
  intros g P P' (w & lines & _ & _ & F & ->) (w' & lines' & _ & _ & F' & E).
  assert (W : w = w').
  { inversion F as [|? line ? ls C _]; subst. inversion F' as [|? line' ? ls' C' _]; subst. cbn [concat] in E. rewrite <- !app_assoc in E.
    eapply genus_width; eassumption. }
  subst w'. assert (Q : g :: r = g :: r') by (eapply columns_eq; eassumption). injection Q as Q. exact Q.
Qed.

(** ** Loops *)

Lemma print_all_stop {A} (f : A -> output) l ts x rest e t :
  Forall2 (fun x t => f x = (t, Ok tt)) l ts -> f x = (t, Err e) -> print_all f (l ++ x :: rest) = (concat ts ++ t, Err e).
Proof.
  intros F E. induction F as [|y u l ts Hy F IH]; cbn [app print_all concat].
  - rewrite E. reflexivity.
  - rewrite Hy, IH. cbn [then_print fst snd]. rewrite app_assoc. reflexivity.
Qed.

(** ** Instances without line breaks *)

Lemma join_line l : (forall s, In s l -> ~ In 10 s) -> ~ In 10 (join (s2z ", "%string) l).
Proof.
  induction l as [|s [|t l] IH]; intros H; [intros []|apply (H s); left; reflexivity|].
  change (join (s2z ", "%string) (s :: t :: l)) with (s ++ s2z ", "%string ++ join (s2z ", "%string) (t :: l)). rewrite !in_app_iff.
  intros [K|[K|K]]; [apply (H s (or_introl eq_refl) K)|cbn in K; intuition discriminate|].
  revert K. apply IH. intros u Hu. apply H. right. exact Hu.
Qed.

Lemma path_line strs i path : plain_instance strs i -> relpath i = Ok path -> ~ In 10 path.
Proof.
  intros (C & _ & _ & _ & P). unfold relpath.
  assert (S : ~ In 10 (cm_name (fst i) ++ s2z "=@"%string)) by (rewrite in_app_iff; intros [K|K]; [apply C, K|cbn in K; intuition discriminate]).
  destruct (sdict_get (s2z "Name"%string) (snd i)) as [v|] eqn:E.
  - destruct (value_true v).
    + destruct v as [|b|z|s|l]; cbn [value_format bind]; intros H; try discriminate H. apply ok_eq in H. subst path.
      apply sget_in in E. destruct (P _ _ s E (shows_str strs s)) as (_ & V & _). cbn [snd] in V.
      rewrite !in_app_iff. intros [K|[K|[K|K]]]; [apply C, K|cbn in K; intuition discriminate|apply V, K|cbn in K; intuition discriminate].
    + intros H. apply ok_eq in H. subst path. exact S.
  - intros H. apply ok_eq in H. subst path. exact S.
Qed.

Definition ns_text (ns : option str) : str := match ns with Some (x :: s) => x :: s | _ => s2z "ROOT"%string end.

Lemma name_end (s : str) x : x <> 32 -> forall t, s ++ [x] <> t ++ [32].
Proof. intros N t E. apply app_inj_tail in E as [_ E]. exact (N E). Qed.

Definition system_names : list str := map s2z ["__GENUS"; "__CLASS"; "__SUPERCLASS"; "__DYNASTY"; "__RELPATH"; "__PROPERTY_COUNT"; "__DERIVATION"; "__SERVER";
                              "__NAMESPACE"; "__PATH"]%string.

Lemma system_plain n v : In n system_names -> ~ In 10 v -> plain (n, v).
Proof.
  intros H V. assert (P : ~ In 10 n /\ forall s, n <> s ++ [32]); [|destruct P; repeat split; assumption].
  assert (E : existsb (Z.eqb 10) n = false /\ (last n 32 =? 32) = false).
  { cbn [system_names map In] in H. repeat (destruct H as [<-|H]; [split; reflexivity|]). destruct H. }
  destruct E as [E1 E2]. split.
  - intros K. assert (T : existsb (Z.eqb 10) n = true) by (apply existsb_exists; exists 10; split; [exact K|reflexivity]). congruence.
  - intros s ->. rewrite last_last in E2. discriminate E2.
Qed.

Lemma instance_plain strs ns i path : plain_instance strs i -> ~ In 10 (ns_text ns) -> relpath i = Ok path -> Forall plain (instance_pairs strs ns i path).
Proof.
  intros P N R. pose proof (path_line strs i path P R) as L. destruct P as (C & S & D & V & P).
  unfold instance_pairs. fold (ns_text ns). apply Forall_app. split.
  - assert (G : forall l, Forall (fun p => In (fst p) system_names /\ ~ In 10 (snd p)) l -> Forall plain l).
    { intros l F. eapply Forall_impl; [|exact F]. intros [n v] [H1 H2]. apply system_plain; assumption. }
    apply G. repeat (apply Forall_cons; [cbn [fst snd]; split; [unfold system_names; cbn [map In]; tauto|]|]); try apply Forall_nil.
    + cbn. intuition discriminate.
    + exact C.
    + destruct (cm_super (fst i)) as [s|]; [apply S; reflexivity|intros []].
    + destruct (cm_dynasty (fst i)) as [s|]; [apply D; reflexivity|intros []].
    + exact L.
    + apply LdsProofs.fmt_d_no; [discriminate|apply LdsProofs.not_digit; lia].
    + rewrite !in_app_iff. intros [K|[K|K]]; [cbn in K; intuition discriminate|revert K; apply join_line, V|cbn in K; intuition discriminate].
    + cbn. intuition discriminate.
    + exact N.
    + rewrite !in_app_iff. intros [K|[K|[K|K]]]; [cbn in K; intuition discriminate|apply N, K|cbn in K; intuition discriminate|apply L, K].
  - apply Forall_map, Forall_forall. intros [n v] H. apply (Permutation_in _ (sorted_by_perm fst (snd i))) in H. cbn [fst snd].
    apply (P n v); [exact H|]. destruct v as [|[]| | |]; constructor.
Qed.

Lemma shows_text strs v t : shows strs v t -> t = match v with VNone => [] | v => value_shown strs v end.
Proof. destruct 1; reflexivity. Qed.

Lemma lossless strs ns ns' (i i' : inst) text : plain_instance strs i -> plain_instance strs i' -> ~ In 10 (ns_text ns) -> ~ In 10 (ns_text ns') ->
  print_instance strs ns i = (text, Ok tt) -> print_instance strs ns' i' = (text, Ok tt) ->
  cm_name (fst i) = cm_name (fst i') /\ ns_text ns = ns_text ns' /\ relpath i = relpath i' /\
  forall name v t, In (name, v) (snd i) -> shows strs v t -> exists v', In (name, v') (snd i') /\ shows strs v' t.
Proof.
  intros P P' N N' H H'. apply instance_ok in H as (path & R & H). apply instance_ok in H' as (path' & R' & H').
  pose proof (instance_plain strs ns i path P N R) as F. pose proof (instance_plain strs ns' i' path' P' N' R') as F'.
  unfold instance_pairs in H, H', F, F'. cbn [app] in H, H', F, F'.
  pose proof (shown_inj _ _ _ F F' H H') as E.
  assert (E1 := f_equal (fun l => snd (nth 0 l ([], []))) E). cbn [nth snd] in E1.
  assert (E2 := f_equal (fun l => snd (nth 7 l ([], []))) E). cbn [nth snd] in E2.
  assert (E3 := f_equal (fun l => snd (nth 3 l ([], []))) E). cbn [nth snd] in E3.
  assert (E4 := f_equal (fun l => skipn 9 l) E). cbn [skipn] in E4.
  split; [exact E1|]. split; [exact E2|]. split; [rewrite R, R', E3; reflexivity|].
  intros name v t K S. apply shows_text in S.
  assert (I : In (name, t) (map (fun p : str * pval => (fst p, match snd p with VNone => [] | v => value_shown strs v end)) (sorted_by fst (snd i)))).
  { apply in_map_iff. exists (name, v). split; [cbn [fst snd]; rewrite S; destruct v; reflexivity|]. eapply Permutation_in; [symmetry; apply sorted_by_perm|exact K]. }
  rewrite E4 in I. apply in_map_iff in I as ([n' v'] & Q & I). apply pair_equal_spec in Q as [Q1 Q2]. cbn [fst snd] in *. subst n'.
  exists v'. split; [eapply Permutation_in; [apply sorted_by_perm|exact I]|]. rewrite <- Q2. destruct v' as [|[]| | |]; constructor.
Qed.

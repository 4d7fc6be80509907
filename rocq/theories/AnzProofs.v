From Verif Require Import Base CoreModel StrModel StrFacts BaseFacts DictModel TextModel LdsModel LdsProofs KcsModel KcsProofs WmsProofs BsdTexts AnzModel AnzSpec.
From Coq Require Import Lia String.
Import ListNotations.
Open Scope Z_scope.
Open Scope list_scope.

Section proofs.
Context (capitalize : str -> str) (members : str -> list member).
Notation known := (known capitalize members).
Notation format_map := (format_map capitalize members).
Notation debug_info := (debug_info capitalize).

(** Two runs with the same result that leave what is known. *)
Definition alike {A} (r r' : run (A * cache)) : Prop :=
  match r, r' with
  | Done (Ok (a, k)), Done (Ok (a', k')) => a = a' /\ known k /\ known k'
  | Done (Err e), Done (Err e') => e = e'
  | OutOfFuel, OutOfFuel => True
  | _, _ => False
  end.

Lemma alike_bind {A B} (r r' : run (A * cache)) (f f' : A * cache -> run (B * cache)) :
  alike r r' -> (forall a k k', known k -> known k' -> alike (f (a, k)) (f' (a, k'))) -> alike (rbind r f) (rbind r' f').
Proof.
  intros R F. destruct r as [[[a k]|e]|], r' as [[[a' k']|e']|]; cbn in R; try contradiction; cbn [rbind].
  - destruct R as (<- & K & K'). apply F; assumption.
  - exact R.
  - exact I.
Qed.

Definition steady (f : cache -> value -> run (str * cache)) : Prop := forall k k' v, known k -> known k' -> alike (f k v) (f k' v).

Lemma elements_alike f l : steady f -> forall i k k', known k -> known k' -> alike (elements f i l k) (elements f i l k').
Proof.
  intros F. induction l as [|v l IH]; intros i k k' K K'; cbn [elements].
  - cbn. auto.
  - apply alike_bind; [apply F; assumption|]. intros t k1 k1' K1 K1'. apply alike_bind; [apply IH; assumption|].
    intros s k2 k2' K2 K2'. cbn. auto.
Qed.

Lemma format_with_alike f c v k k' : steady f -> known k -> known k' -> alike (format_with f c v k) (format_with f c v k').
Proof.
  intros F K K'.
  assert (D : forall (r : result cres), alike (rbind (Done r) (fun r => Done (Ok (r, k)))) (rbind (Done r) (fun r => Done (Ok (r, k'))))) by (intros [r|e]; cbn; auto).
  destruct c, v; cbn [format_with]; try apply D.
  apply alike_bind; [apply elements_alike; assumption|]. intros s k1 k1' K1 K1'. cbn. auto.
Qed.

Lemma attributes_alike f v l : steady f -> forall k k', known k -> known k' -> alike (attributes f v l k) (attributes f v l k').
Proof.
  intros F. induction l as [|[[n d] c] l IH]; intros k k' K K'; cbn [attributes].
  - cbn. auto.
  - destruct (attribute n v) as [x|]; [|apply IH; assumption].
    apply alike_bind; [apply format_with_alike; assumption|]. intros r k1 k1' K1 K1'.
    destruct (format_attribute (Some d) (Some (fun _ => r)) (DObj [])) as [t|e]; cbn [rbind]; [|reflexivity].
    apply alike_bind; [apply IH; assumption|]. intros ts k2 k2' K2 K2'. cbn. auto.
Qed.

Lemma known_set name k : known k -> known (sdict_set name (debug_info (members name)) k).
Proof.
  intros K n l E. rewrite sdict_get_set in E. destruct (list_eqb name n) eqn:Q; [|apply K; exact E].
  apply list_eqb_eq in Q. subst n. injection E as <-. reflexivity.
Qed.

Lemma lookup name k : known k -> exists k', known k' /\ known_info capitalize members name k = (debug_info (members name), k').
Proof.
  intros K. unfold known_info. destruct (sdict_get name k) as [[|x l]|] eqn:E; try (eexists; split; [apply known_set; exact K|reflexivity]).
  exists k. split; [exact K|]. rewrite (K _ _ E). reflexivity.
Qed.

Lemma map_alike fuel : forall name v k k', known k -> known k' -> alike (format_map fuel k name v) (format_map fuel k' name v).
Proof.
  induction fuel as [|fuel IH]; intros name v k k' K K'; cbn [AnzModel.format_map]; [exact I|].
  destruct (lookup name k K) as (k1 & K1 & ->). destruct (lookup name k' K') as (k1' & K1' & ->).
  apply alike_bind.
  - apply attributes_alike; [|assumption..]. intros k2 k2' x K2 K2'. apply IH; assumption.
  - intros lines k2 k2' K2 K2'. cbn. auto.
Qed.

Lemma known_nil : known []. Proof. intros n l E. discriminate E. Qed.

Lemma alone fuel k name v : known k -> exists k', known k' /\
  format_map fuel k name v = match text_of capitalize members fuel name v with Done (Ok t) => Done (Ok (t, k')) | Done (Err e) => Done (Err e) | OutOfFuel => OutOfFuel end.
Proof.
  intros K. pose proof (map_alike fuel name v k [] K known_nil) as A. unfold text_of.
  destruct (format_map fuel k name v) as [[[t k1]|e]|], (format_map fuel [] name v) as [[[t' k1']|e']|]; cbn in A; try contradiction.
  - destruct A as (<- & A & _). exists k1. auto.
  - subst e'. exists k. auto.
  - exists k. auto.
Qed.

Lemma analyze_parts fuel l : forall k o, known k -> analyze capitalize members fuel k l = Some o ->
  parts (map snd l) (map (fun p => match snd (snd p) with Ok v => text_of capitalize members fuel (fst p) v | Err e => Done (Err e) end) l) o.
Proof.
  induction l as [|[n [d [v|e]]] l IH]; intros k o K E; cbn [analyze] in E; cbn [map fst snd].
  - injection E as <-. constructor.
  - destruct (alone fuel k n v K) as (k' & K' & Q). rewrite Q in E. clear Q.
    destruct (text_of capitalize members fuel n v) as [[t|e]|]; [| |discriminate E].
    + destruct (analyze capitalize members fuel k' l) as [[s r]|] eqn:A; [|discriminate E]. injection E as <-.
      specialize (IH _ _ K' A). cbn [fst snd]. rewrite <- app_assoc. constructor. exact IH.
    + injection E as <-. constructor.
  - injection E as <-. constructor.
Qed.

(** The members of a structure. *)
Lemma suffix_spec x n : has_suffix x n = true <-> exists p, n = p ++ x.
Proof.
  unfold has_suffix. rewrite starts_with_spec. split.
  - intros (r & E). exists (rev r). apply (f_equal (@rev Z)) in E. rewrite rev_involutive, rev_app_distr, rev_involutive in E. exact E.
  - intros (p & ->). exists (rev p). apply rev_app_distr.
Qed.

Definition callback_for (m : member) : option callback :=
  if has_suffix (s2z "checksum"%string) (m_name m) || has_suffix (s2z "offset"%string) (m_name m) then Some CbHex8 else callback_of (m_type m).

Lemma callback_shown m : shown_member m <-> exists c, callback_for m = Some c.
Proof.
  unfold shown_member, callback_for. rewrite <- !suffix_spec. split.
  - intros [S|[->| ->]]; [|eexists; reflexivity|rewrite orb_true_r; eexists; reflexivity].
    destruct (_ || _); [eexists; reflexivity|]. destruct (m_type m); try (eexists; reflexivity). contradiction.
  - intros (c & H). destruct (has_suffix (s2z "checksum"%string) (m_name m)); [auto|]. destruct (has_suffix (s2z "offset"%string) (m_name m)); [auto|].
    cbn [orb] in H. left. intros T. rewrite T in H. discriminate H.
Qed.

Lemma info_cons m l : debug_info (m :: l) = match callback_for m with Some c => [(m_name m, capitalize (spaced (m_name m)), c)] | None => [] end ++ debug_info l.
Proof. reflexivity. Qed.

Lemma info_members l n : (exists d c, In (n, d, c) (debug_info l)) <-> exists m, In m l /\ m_name m = n /\ shown_member m.
Proof.
  induction l as [|m l IH].
  - split; [intros (d & c & [])|intros (m & [] & _)].
  - rewrite info_cons. split.
    + intros (d & c & H). apply in_app_or in H as [H|H].
      * destruct (callback_for m) as [c'|] eqn:E; [|destruct H]. destruct H as [H|[]]. apply (f_equal (fun x => fst (fst x))) in H. cbn [fst] in H.
        exists m. split; [left; reflexivity|]. split; [exact H|]. apply callback_shown. exists c'. exact E.
      * destruct (proj1 IH (ex_intro _ d (ex_intro _ c H))) as (m' & M & N & S). exists m'. split; [right; exact M|auto].
    + intros (m' & [->|M] & <- & S).
      * apply callback_shown in S as (c & S). rewrite S. eexists _, c. left. reflexivity.
      * destruct (proj2 IH (ex_intro _ m' (conj M (conj eq_refl S)))) as (d & c & H). exists d, c. apply in_or_app. right. exact H.
Qed.

Lemma attribute_front d r t : format_attribute (Some d) (Some (fun _ => r)) (DObj []) = Ok t -> exists u, t = d ++ u.
Proof.
  unfold format_attribute. destruct r as [[s|s] b|[s|s]]; cbn beta iota; try (destruct (has_char 10 s)); try destruct b; cbn [format_value]; intros E; injection E as <-;
    rewrite <- ?app_assoc; eexists; reflexivity.
Qed.

Lemma attributes_lines f v l : forall k ts k', attributes f v (debug_info l) k = Done (Ok (ts, k')) ->
  exists ms, described v l ms /\ Forall2 (fun m t => exists u, t = capitalize (spaced (m_name m)) ++ u) ms ts.
Proof.
  induction l as [|m l IH]; intros k ts k' E.
  - injection E as <- <-. exists []. split; constructor.
  - rewrite info_cons in E. destruct (callback_for m) as [c|] eqn:C; cbn [app attributes] in E.
    + destruct (attribute (m_name m) v) as [x|] eqn:A.
      * destruct (format_with f c x k) as [[[r k1]|e]|]; cbn [rbind] in E; try discriminate E.
        destruct (format_attribute (Some (capitalize (spaced (m_name m)))) (Some (fun _ => r)) (DObj [])) as [t|e] eqn:T; cbn [rbind] in E; [|discriminate E].
        destruct (attributes f v (debug_info l) k1) as [[[ts1 k2]|e]|] eqn:R; cbn [rbind] in E; try discriminate E. injection E as <- <-.
        destruct (IH _ _ _ R) as (ms & D & F). exists (m :: ms). split.
        -- apply described_take; [apply callback_shown; exists c; exact C|rewrite A; discriminate|exact D].
        -- constructor; [eapply attribute_front; exact T|exact F].
      * destruct (IH _ _ _ E) as (ms & D & F). exists ms. split; [apply described_skip; [right; exact A|exact D]|exact F].
    + destruct (IH _ _ _ E) as (ms & D & F). exists ms. split; [|exact F]. apply described_skip; [|exact D]. left. intros S. apply callback_shown in S as (c & S). congruence.
Qed.

Lemma closed_tail ts : exists e, (e = [] \/ e = [10]) /\ closed ts = List.concat ts ++ e.
Proof.
  unfold closed. destruct (match rev ts with [] => true | t :: _ => _ end).
  - exists [10]. split; [auto|]. rewrite concat_app. reflexivity.
  - exists []. split; [auto|]. rewrite app_nil_r. reflexivity.
Qed.

Lemma text_lines fuel name v t : text_of capitalize members fuel name v = Done (Ok t) ->
  exists ms ts e, described v (members name) ms /\ Forall2 (fun m u => exists r, u = capitalize (spaced (m_name m)) ++ r) ms ts /\ (e = [] \/ e = [10]) /\ t = List.concat ts ++ e.
Proof.
  unfold text_of. destruct fuel as [|fuel]; [discriminate|]. cbn [AnzModel.format_map]. destruct (lookup name [] known_nil) as (k2 & K2 & ->).
  destruct (attributes _ v (debug_info (members name)) k2) as [[[ts k']|e]|] eqn:A; cbn [rbind]; try discriminate. intros E. injection E as <-.
  apply attributes_lines in A as (ms & D & F). destruct (closed_tail ts) as (e & He & E). exists ms, ts, e. auto.
Qed.

(** Sequences. *)
Lemma class_spec v c : element_class v c <-> class_name v = c.
Proof. split; [intros []; reflexivity|intros <-; destruct v; constructor]. Qed.

Lemma elements_texts fuel l : forall i k s k', known k ->
  elements (fun k x => format_map fuel k (class_name x) x) i l k = Done (Ok (s, k')) ->
  known k' /\ exists ts, Forall2 (fun v t => text_of capitalize members fuel (class_name v) v = Done (Ok t)) l ts /\ s = entries_from i ts.
Proof.
  induction l as [|v l IH]; intros i k s k' K E; cbn [elements] in E.
  - injection E as <- <-. split; [exact K|]. exists []. split; [constructor|reflexivity].
  - destruct (alone fuel k (class_name v) v K) as (k1 & K1 & Q). rewrite Q in E. clear Q.
    destruct (text_of capitalize members fuel (class_name v) v) as [[t|e]|] eqn:T; cbn [rbind] in E; try discriminate E.
    destruct (elements _ (i + 1) l k1) as [[[s1 k2]|e]|] eqn:L; cbn [rbind] in E; try discriminate E.
    injection E as <- <-. destruct (IH _ _ _ _ K1 L) as (K2 & ts & F & ->). split; [exact K2|].
    exists (t :: ts). split; [constructor; assumption|reflexivity].
Qed.

Lemma sequence_text fuel name m v l t : members name = [m] -> m_type m = ISeq ->
  ~ (exists p, m_name m = p ++ s2z "checksum"%string) -> ~ (exists p, m_name m = p ++ s2z "offset"%string) ->
  attribute (m_name m) v = Some (VSeq l) -> text_of capitalize members (S fuel) name v = Done (Ok t) ->
  exists ts e, Forall2 (fun x u => exists c, element_class x c /\ text_of capitalize members fuel c x = Done (Ok u)) l ts /\ (e = [] \/ e = [10]) /\
    t = capitalize (spaced (m_name m)) ++ [58; 10; 10] ++ entries_from 0 ts ++ e.
Proof.
  intros M T N1 N2 A. unfold text_of at 1. cbn [AnzModel.format_map]. destruct (lookup name [] known_nil) as (k2 & K2 & ->). rewrite M, info_cons.
  rewrite <- suffix_spec in N1, N2. apply not_true_is_false in N1, N2. unfold callback_for. rewrite N1, N2, T. cbn [orb callback_of app attributes].
  change (debug_info []) with (@nil (str * str * callback)). cbn [attributes]. rewrite A. cbn [format_with].
  destruct (elements _ 0 l k2) as [[[s k3]|e]|] eqn:E; cbn [rbind]; try discriminate. cbn [app format_attribute rbind].
  apply elements_texts in E as (_ & ts & F & ->); [|exact K2]. intros H. injection H as <-.
  match goal with |- context [closed ?x] => destruct (closed_tail x) as (e & He & ->) end. exists ts, e. split; [|split; [exact He|]].
  - eapply Forall2_imp; [|exact F]. intros x u U. exists (class_name x). split; [apply class_spec; reflexivity|exact U].
  - cbn [List.concat]. rewrite app_nil_r, <- !app_assoc. reflexivity.
Qed.

(** Structures of integers. *)
Definition int_text (n : str) (z : Z) : str :=
  if has_suffix (s2z "checksum"%string) n || has_suffix (s2z "offset"%string) n then [48; 120] ++ fmt_x 8 z else fmt_d z.

Definition int_line (n : str) (z : Z) : str :=
  let d := capitalize (spaced n) in d ++ alignment_string d ++ [58; 32] ++ int_text n z ++ [10].

Lemma int_text_line n z : ~ In 10 (int_text n z).
Proof. unfold int_text. destruct (_ || _); [exact (hex_line 8 z)|exact (dec_line z)]. Qed.

Lemma int_text_inj n z z' : int_text n z = int_text n z' -> z = z'.
Proof.
  unfold int_text. destruct (_ || _); intros E.
  - apply app_inv_head in E. apply fmt_int_inj in E; [exact E|lia].
  - apply fmt_int_inj in E; [exact E|lia].
Qed.

Lemma int_attributes f v l : integers l v -> forall k, exists zs, Forall2 (fun m z => attribute (m_name m) v = Some (VInt z)) l zs /\
  attributes f v (debug_info l) k = Done (Ok (map (fun p => int_line (m_name (fst p)) (snd p)) (combine l zs), k)).
Proof.
  induction l as [|m l IH]; intros H k.
  - exists []. split; [constructor|reflexivity].
  - apply Forall_cons_iff in H as ((T & z & Z) & H). destruct (IH H k) as (zs & F & E). exists (z :: zs). split; [constructor; assumption|].
    unfold AnzModel.debug_info in *. cbn [flat_map]. rewrite T. cbn [combine map fst snd].
    pose proof (int_text_line (m_name m) z) as N. unfold int_line at 1. unfold int_text in *.
    destruct (_ || _); cbn [callback_of app attributes]; rewrite Z; cbn [format_with format_simple rbind].
    + unfold format_attribute. rewrite (proj2 (has_char_false 10 _) N). cbn [format_value rbind dval_str]. rewrite E. reflexivity.
    + unfold format_attribute. rewrite (proj2 (has_char_false 10 _) N). cbn [format_value rbind dval_str]. rewrite E. reflexivity.
Qed.

Lemma int_lines_inj (l : list member) : forall zs zs' e e', List.length zs = List.length l -> List.length zs' = List.length l ->
  List.concat (map (fun p => int_line (m_name (fst p)) (snd p)) (combine l zs)) ++ e = List.concat (map (fun p => int_line (m_name (fst p)) (snd p)) (combine l zs')) ++ e' -> zs = zs'.
Proof.
  induction l as [|m l IH]; intros [|z zs] [|z' zs'] e e' L L' E; try discriminate L; try discriminate L'; [reflexivity|].
  cbn [combine map List.concat fst snd] in E. unfold int_line at 1 3 in E. cbn zeta in E. rewrite <- !app_assoc in E.
  do 3 apply app_inv_head in E. cbn [app] in E.
  apply split_line in E as [E1 E]; [|apply int_text_line..]. apply int_text_inj in E1. injection L as L. injection L' as L'. f_equal; [exact E1|eapply IH; eassumption].
Qed.

Lemma forall2_len {A B} (P : A -> B -> Prop) l l' : Forall2 P l l' -> List.length l = List.length l'.
Proof. induction 1; cbn [List.length]; congruence. Qed.

Lemma integers_lossless fuel fuel' k k' name v v' t k1 k1' : known k -> known k' -> integers (members name) v -> integers (members name) v' ->
  format_map fuel k name v = Done (Ok (t, k1)) -> format_map fuel' k' name v' = Done (Ok (t, k1')) ->
  Forall (fun m => attribute (m_name m) v = attribute (m_name m) v') (members name).
Proof.
  intros K K' H H' E E'. destruct fuel as [|fuel]; [discriminate E|]. destruct fuel' as [|fuel']; [discriminate E'|].
  cbn [AnzModel.format_map] in E, E'.
  destruct (lookup name k K) as (k2 & K2 & Q). rewrite Q in E. destruct (lookup name k' K') as (k2' & K2' & Q'). rewrite Q' in E'.
  destruct (int_attributes (fun k x => format_map fuel k (class_name x) x) v _ H k2) as (zs & F & A). rewrite A in E.
  destruct (int_attributes (fun k x => format_map fuel' k (class_name x) x) v' _ H' k2') as (zs' & F' & A'). rewrite A' in E'.
  cbn [rbind] in E, E'. apply (f_equal (fun r => match r with Done (Ok (t, _)) => t | _ => [] end)) in E, E'. cbv beta iota in E, E'. rewrite <- E' in E. clear E'.
  match type of E with closed ?a = closed ?b => destruct (closed_tail a) as (e & _ & Ea); destruct (closed_tail b) as (e' & _ & Eb); rewrite Ea, Eb in E end.
  apply int_lines_inj in E; [|symmetry; eapply forall2_len; eassumption..]. subst zs'. clear - F F'.
  revert F'. induction F as [|m z l zs M F IH]; intros F'; inversion F' as [|? ? ? ? M' F1']; subst; [constructor|].
  constructor; [rewrite M; symmetry; exact M'|apply IH; exact F1'].
Qed.

Lemma integers_shown fuel name v : integers (members name) v -> exists t, text_of capitalize members (S fuel) name v = Done (Ok t).
Proof.
  intros H. unfold text_of. cbn [AnzModel.format_map]. destruct (lookup name [] known_nil) as (k2 & K2 & ->).
  destruct (int_attributes (fun k x => format_map fuel k (class_name x) x) v _ H k2) as (zs & F & A). rewrite A. eexists. reflexivity.
Qed.

(** Values without a definition of their class. *)
Lemma undefined_text fuel v : members (class_name v) = [] -> text_of capitalize members (S fuel) (class_name v) v = Done (Ok [10]).
Proof. intros E. unfold text_of. cbn [AnzModel.format_map known_info sdict_get]. rewrite E. reflexivity. Qed.

(** A structure is described by its shown attributes only. *)
Lemma attributes_same f v v' l : (forall n d c, In (n, d, c) l -> attribute n v = attribute n v') -> forall k, attributes f v l k = attributes f v' l k.
Proof.
  induction l as [|[[n d] c] l IH]; intros H k; [reflexivity|]. cbn [attributes]. rewrite (H n d c) by (left; reflexivity).
  assert (IH' : forall k, attributes f v l k = attributes f v' l k) by (apply IH; intros; eapply H; right; eassumption).
  destruct (attribute n v') as [x|]; [|apply IH'].
  destruct (format_with f c x k) as [[[r k1]|e]|]; cbn [rbind]; try reflexivity.
  destruct (format_attribute (Some d) (Some (fun _ => r)) (DObj [])); cbn [rbind]; [|reflexivity]. rewrite IH'. reflexivity.
Qed.

Lemma text_same fuel name v v' : (forall m, In m (members name) -> shown_member m -> attribute (m_name m) v = attribute (m_name m) v') ->
  text_of capitalize members fuel name v = text_of capitalize members fuel name v'.
Proof.
  intros H. destruct fuel as [|fuel]; [reflexivity|]. unfold text_of. cbn [AnzModel.format_map]. destruct (lookup name [] known_nil) as (k2 & K2 & ->).
  rewrite (attributes_same _ v v'); [reflexivity|]. intros n d c I.
  destruct (proj1 (info_members (members name) n) (ex_intro _ d (ex_intro _ c I))) as (m & M & <- & S). apply H; assumption.
Qed.
End proofs.

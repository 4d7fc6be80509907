(** Proofs about the decoding of NSKeyedArchiver archives. *)

From Coq Require Import String.
From Verif Require Import Base BaseFacts CoreModel StrModel UuidModel UuidSpec UuidFacts DictModel DecModel DecSpec DecProofs RpProofs DhProofs NkaModel NkaSpec.
Local Open Scope list_scope.
Local Open Scope Z_scope.

(** ** Dictionaries *)

Lemma same_str fint a b : same fint (PStr a) (PStr b) = list_eqb a b.
Proof. reflexivity. Qed.

Lemma same_text fint k s : same fint k (text s) = true <-> k = text s.
Proof.
  split.
  - destruct k; unfold text, same; cbn [num]; try discriminate.
    + destruct (fint x); discriminate.
    + intros H. apply list_eqb_eq in H. subst. reflexivity.
  - intros ->. unfold text. rewrite same_str. apply list_eqb_refl.
Qed.

Lemma text_same fint k s : same fint (text s) k = true <-> k = text s.
Proof.
  split.
  - destruct k; unfold text, same; cbn [num]; try discriminate.
    + destruct (fint x); discriminate.
    + intros H. apply list_eqb_eq in H. subst. reflexivity.
  - intros ->. unfold text. rewrite same_str. apply list_eqb_refl.
Qed.

Lemma keyed_cons k v d : keyed ((k, v) :: d) -> exists s, k = PStr s /\ keyed d /\ forall x, ~ In (PStr s, x) d.
Proof.
  intros (names & E & ND). destruct names as [|s names]; [discriminate|]. cbn [map] in E. injection E as -> E. apply NoDup_cons_iff in ND as [N ND].
  exists s. split; [reflexivity|]. split; [exists names; split; assumption|]. intros x I. apply N.
  apply (in_map fst) in I. cbn [fst] in I. rewrite E in I. apply in_map_iff in I as (s' & E' & I). injection E' as ->. exact I.
Qed.

Lemma dget_has fint d k v : keyed d -> has d k v -> dget fint (text k) d = Some v.
Proof.
  intros K. unfold has. induction d as [|[k' v'] d IH]; intros I; [destruct I|]. apply keyed_cons in K as (s & -> & K & N). cbn [dget].
  unfold text at 1. rewrite same_str. destruct (list_eqb s (s2z k)) eqn:Q.
  - apply list_eqb_eq in Q. subst s. destruct I as [I|I]; [injection I as ->; reflexivity|]. exfalso. apply (N v). exact I.
  - destruct I as [I|I]; [injection I as -> _; rewrite list_eqb_refl in Q; discriminate|]. apply IH; assumption.
Qed.

Lemma dget_in fint d k v : dget fint k d = Some v -> exists k', In (k', v) d /\ same fint k' k = true.
Proof.
  induction d as [|[k' v'] d IH]; cbn [dget]; [discriminate|]. destruct (same fint k' k) eqn:Q.
  - intros E. injection E as ->. exists k'. split; [left; reflexivity|exact Q].
  - intros E. destruct (IH E) as (k2 & I & S'). exists k2. split; [right; exact I|exact S'].
Qed.

Lemma dget_lacks fint d k : lacks d k -> dget fint (text k) d = None.
Proof.
  intros L. destruct (dget fint (text k) d) eqn:Q; [|reflexivity]. apply dget_in in Q as (k' & I & S'). apply same_text in S'. subst k'. destruct (L _ I).
Qed.

Lemma has_fun d k v v' : keyed d -> has d k v -> has d k v' -> v = v'.
Proof. intros K A B. pose proof (dget_has (fun _ => None) d k v K A) as E. rewrite (dget_has _ d k v' K B) in E. injection E as ->. reflexivity. Qed.

(** ** References *)

Lemma get_uid_refers fint v u : refers v u -> get_uid fint v = Some (PInt u).
Proof. intros [->| ->]; [reflexivity|]. cbn [get_uid]. destruct (same fint (text "CF$UID") (text "CF$UID")) eqn:Q; [reflexivity|]. assert (same fint (text "CF$UID") (text "CF$UID") = true) by (apply same_text; reflexivity). congruence. Qed.

Lemma get_uid_dict fint d k v : has d k v -> k <> "CF$UID"%string -> s2z k <> s2z "CF$UID" -> get_uid fint (PDict d) = None.
Proof.
  intros H _ N. destruct d as [|[k1 x1] [|p d]]; [reflexivity| |reflexivity]. cbn [get_uid]. destruct H as [H|[]]. injection H as -> ->.
  destruct (same fint (text k) (text "CF$UID")) eqn:Q; [|reflexivity]. apply same_text in Q. unfold text in Q. injection Q as Q. destruct (N Q).
Qed.

Lemma get_uid_isa fint objs v s d : isa objs v s d -> get_uid fint (PDict d) = None.
Proof. intros (_ & _ & c & H & _). eapply get_uid_dict; [exact H| |]; discriminate. Qed.

Lemma subscript_object fint objs u v : object objs u v -> subscript fint (PList objs) (PInt u) = Ok v.
Proof.
  intros [Hu H]. cbn [subscript index_of]. unfold pyindex. destruct (Z.ltb_spec u 0); [lia|]. destruct (Z.ltb_spec u 0); [lia|].
  rewrite znth_error_nth by lia. rewrite H. reflexivity.
Qed.

Lemma object_fun objs u v v' : object objs u v -> object objs u v' -> v = v'.
Proof. intros [_ A] [_ B]. congruence. Qed.

(** ** Enough fuel *)

Definition evals {A} (f : nat -> run A) (a : A) : Prop := exists n, forall fuel, (n <= fuel)%nat -> f fuel = Done (Ok a).

Lemma evals_ret {A} (a : A) : evals (fun _ => Done (Ok a)) a.
Proof. exists 0%nat. reflexivity. Qed.

Lemma evals_bind {A B} (f : nat -> run A) (g : nat -> A -> run B) a b : evals f a -> evals (fun fuel => g fuel a) b -> evals (fun fuel => rbind (f fuel) (g fuel)) b.
Proof. intros [n Hn] [m Hm]. exists (Nat.max n m). intros fuel L. rewrite Hn by lia. apply Hm. lia. Qed.

Lemma evals_ext {A} (f g : nat -> run A) a : (forall fuel, g fuel = f fuel) -> evals f a -> evals g a.
Proof. intros E [n Hn]. exists n. intros fuel L. rewrite E. apply Hn, L. Qed.

Lemma evals_step {A} (f : nat -> run A) a : evals (fun fuel => f (S fuel)) a -> evals f a.
Proof. intros [n Hn]. exists (S n). intros fuel L. destruct fuel as [|fuel]; [lia|]. apply Hn. lia. Qed.

Lemma evals_fun {A} (f : nat -> run A) a b : evals f a -> evals f b -> a = b.
Proof. intros [n Hn] [m Hm]. specialize (Hn (Nat.max n m) ltac:(lia)). specialize (Hm (Nat.max n m) ltac:(lia)). congruence. Qed.

(** ** Values *)

Lemma urlsafe_spec d s : is_bytes d -> base64url d s -> s = urlsafe d.
Proof.
  intros B (t & T & F). assert (t = b64encode d) as ->.
  { pose proof (b64encode_spec d B) as T'. clear F. revert t T. induction T' as [|a n Hn|a b n Hn|a b c n d' s' Hn T' IH]; intros t T.
    - inversion T; reflexivity.
    - inversion T; subst. reflexivity.
    - inversion T; subst. reflexivity.
    - inversion T; subst. f_equal. f_equal. f_equal. f_equal. apply IH; [|assumption]. do 3 apply Forall_inv_tail in B. exact B. }
  unfold urlsafe. clear T. induction F as [|c c' t s H F IH]; [reflexivity|]. cbn [map]. f_equal; [|exact IH].
  destruct (Z.eqb_spec c 43), (Z.eqb_spec c 47); lia.
Qed.

Lemma urlsafe_text d : is_bytes d -> base64url d (urlsafe d).
Proof.
  intros B. exists (b64encode d). split; [apply b64encode_spec, B|]. unfold urlsafe. induction (b64encode d) as [|c t IH]; [constructor|]. cbn [map]. constructor; [|exact IH].
  destruct (Z.eqb_spec c 43), (Z.eqb_spec c 47); lia.
Qed.

Lemma uuid_be_fun u s t : uuid_be u s -> uuid_be u t -> s = t.
Proof.
  intros (a & b & c & d & e & -> & La & Lb & Lc & Ld & Le & sa & sb & sc & sd & se & A & B & C & D & E & ->) (a' & b' & c' & d' & e' & Q & La' & Lb' & Lc' & Ld' & Le' & sa' & sb' & sc' & sd' & se' & A' & B' & C' & D' & E' & ->).
  assert (S : forall (x y z w : bytes), len x = len y -> x ++ z = y ++ w -> x = y /\ z = w) by (intros x y z w L; apply RpProofs.app_split; unfold len in L; lia).
  apply S in Q as [<- Q]; [|lia]. apply S in Q as [<- Q]; [|lia]. apply S in Q as [<- Q]; [|lia]. apply S in Q as [<- <-]; [|lia].
  rewrite (hex_field_fun 8 _ _ _ eq_refl A A'), (hex_field_fun 4 _ _ _ eq_refl B B'), (hex_field_fun 4 _ _ _ eq_refl C C'), (hex_field_fun 4 _ _ _ eq_refl D D'), (hex_field_fun 12 _ _ _ eq_refl E E'). reflexivity.
Qed.

Lemma uuid_be_len u s : uuid_be u s -> len u = 16.
Proof. intros (a & b & c & d & e & -> & La & Lb & Lc & Ld & Le & _). rewrite !len_app. lia. Qed.

Lemma number_num fint v n : number fint v n <-> num fint v = Some n.
Proof.
  split.
  - intros H. inversion H; subst; cbn [num]; congruence.
  - destruct v; cbn [num]; intros E; try discriminate.
    + destruct b; injection E as <-; constructor.
    + injection E as <-. constructor.
    + constructor. exact E.
Qed.

Lemma truthy_empty fint v : truthy fint v = false <-> empty fint v.
Proof.
  unfold empty. rewrite number_num. split.
  - destruct v; cbn [truthy num]; intros E; auto.
    + destruct b; [discriminate|]. auto.
    + right. left. f_equal. apply negb_false_iff, Z.eqb_eq in E. exact E.
    + destruct (fint x); [|discriminate]. right. left. f_equal. apply negb_false_iff, Z.eqb_eq in E. exact E.
    + destruct d; [auto 7|discriminate].
    + destruct s; [auto 7|discriminate].
    + discriminate.
    + discriminate.
    + destruct l; [auto 7|discriminate].
    + destruct l; [auto 7|discriminate].
  - intros [->|[E|[->|[->|[->| ->]]]]]; try reflexivity. destruct v; cbn [num truthy] in *; try discriminate.
    + destruct b; [discriminate|reflexivity].
    + injection E as ->. reflexivity.
    + rewrite E. reflexivity.
Qed.

Lemma truthy_full fint v : truthy fint v = true <-> ~ empty fint v.
Proof. rewrite <- truthy_empty. destruct (truthy fint v); split; congruence. Qed.

Lemma same_alike fint a b : hashable a = true -> hashable b = true -> (same fint a b = true <-> alike fint a b).
Proof.
  intros Ha Hb. unfold alike. split.
  - unfold same. destruct (num fint a) as [n|] eqn:Na, (num fint b) as [m|] eqn:Nb; try discriminate.
    + intros E. apply Z.eqb_eq in E. subst m. right. exists n. split; apply number_num; assumption.
    + intros E. left. destruct a, b; try discriminate; try reflexivity; cbn [num] in *; f_equal; try (apply list_eqb_eq; exact E); try (apply Z.eqb_eq; exact E).
  - intros [->|(n & A & B)].
    + unfold same. destruct (num fint b) as [n|] eqn:Nb; [apply Z.eqb_refl|]. destruct b; try reflexivity; try apply Z.eqb_refl; try apply list_eqb_refl; discriminate.
    + apply number_num in A. apply number_num in B. unfold same. rewrite A, B. apply Z.eqb_refl.
Qed.

Lemma same_diff fint a b : hashable a = true -> hashable b = true -> ~ alike fint a b -> same fint a b = false.
Proof. intros Ha Hb N. destruct (same fint a b) eqn:Q; [|reflexivity]. apply same_alike in Q; [destruct (N Q)|exact Ha|exact Hb]. Qed.

Lemma dset_new fint k v d : Forall (fun a => same fint (fst a) k = false) d -> dset fint k v d = d ++ [(k, v)].
Proof. induction 1 as [|[k' v'] d H F IH]; [reflexivity|]. cbn [fst] in H. cbn [dset app]. rewrite H, IH. reflexivity. Qed.

Lemma scalar_hashable v : scalar v -> hashable v = true.
Proof. destruct v; cbn; tauto. Qed.

(** ** Classes *)

Section Decode.
Variable fint : Z -> option Z.
Variable objs : list pv.
Let D fuel v := decode fuel fint (PList objs) v.

Lemma D_ref v u o w : refers v u -> object objs u o -> evals (fun fuel => D fuel o) w -> evals (fun fuel => D fuel v) w.
Proof.
  intros R K E. apply evals_step. eapply evals_ext; [|exact E]. intros fuel. unfold D. cbn [decode]. rewrite (get_uid_refers _ _ _ R), (subscript_object _ _ _ _ K). reflexivity.
Qed.

Lemma class_evals c s : class_of objs c s -> exists d, evals (fun fuel => D fuel c) (PDict d) /\ dget fint (text "$classname") d = Some (PStr s) /\ s <> [].
Proof.
  induction 1 as [c u v s R K C IH|d s K L N NE].
  - destruct IH as (d & E & G & NE). exists d. split; [eapply D_ref; eassumption|]. split; assumption.
  - exists d. split; [|split; [apply dget_has; assumption|exact NE]]. apply evals_step. apply evals_ext with (f := fun _ => Done (Ok (PDict d))); [|apply evals_ret].
    intros fuel. unfold D. cbn [decode]. rewrite (get_uid_dict fint d "$classname" (PStr s)) by (exact N || discriminate). unfold decode_dict. rewrite dget_lacks by exact L. reflexivity.
Qed.

Lemma class_full c s : class_of objs c s -> truthy fint c = true.
Proof.
  intros C. destruct C as [c u v s R K C|d s K L N NE]; [destruct R as [->| ->]; reflexivity|]. destruct d; [destruct N|reflexivity].
Qed.

Lemma isa_evals v s d k w : isa objs v s d -> sdict_get s callbacks = Some k -> evals (fun fuel => decode_kind fint (PList objs) (D fuel) k d) w -> evals (fun fuel => D fuel v) w.
Proof.
  intros I G E. pose proof (get_uid_isa fint _ _ _ _ I) as U. destruct I as (-> & K & c & Hc & C). apply evals_step.
  eapply evals_ext with (f := fun fuel => rdo c' <- D fuel c; rdo name <- Done (class_name fint c');
        match name with None => Done (Ok (PDict d)) | Some n => if truthy fint n then rdo k <- Done (callback n); decode_kind fint (PList objs) (D fuel) k d else Done (Ok (PDict d)) end).
  { intros fuel. unfold D. cbn [decode]. rewrite U. unfold decode_dict. rewrite (dget_has fint d _ c K Hc), (class_full c s C). reflexivity. }
  destruct (class_evals c s C) as (cd & Ec & Gc & NE). eapply evals_bind; [exact Ec|]. cbn [class_name rbind]. rewrite Gc. destruct s as [|x s]; [congruence|]. cbn [truthy]. cbn [callback]. rewrite G. cbn [rbind]. exact E.
Qed.

Lemma kind_of s k l : Forall (fun n => sdict_get n callbacks = Some k) l -> In s l -> sdict_get s callbacks = Some k.
Proof. intros F I. rewrite Forall_forall in F. apply F, I. Qed.
Lemma kind_array s : In s array_names -> sdict_get s callbacks = Some KArray.
Proof. apply kind_of. repeat constructor. Qed.
Lemma kind_dictionary s : In s dictionary_names -> sdict_get s callbacks = Some KDictionary.
Proof. apply kind_of. repeat constructor. Qed.
Lemma kind_set s : In s set_names -> sdict_get s callbacks = Some KSet.
Proof. apply kind_of. repeat constructor. Qed.
Lemma kind_record s : In s record_names -> sdict_get s callbacks = Some KComposite.
Proof. apply kind_of. repeat constructor. Qed.

Lemma member_has d k v : keyed d -> has d k v -> member fint (text k) d = Ok v.
Proof. intros K H. unfold member. rewrite (dget_has fint d k v K H). reflexivity. Qed.

(** ** Archives *)

Lemma skipped_in l k : In k l -> skipped fint (map text l) (text k) = true.
Proof. intros I. unfold skipped. apply existsb_exists. exists (text k). split; [apply in_map, I|apply same_text; reflexivity]. Qed.
Lemma skipped_not l k : ~ In k (map text l) -> skipped fint (map text l) k = false.
Proof.
  intros N. unfold skipped. destruct (existsb (same fint k) (map text l)) eqn:Q; [|reflexivity]. apply existsb_exists in Q as (x & I & S'). apply in_map_iff in I as (y & <- & I).
  apply same_text in S'. subst k. destruct N. apply in_map, I.
Qed.

Let E v w := evals (fun fuel => D fuel v) w.

Lemma list_evals l t : Forall2 E l t -> evals (fun fuel => decode_list (D fuel) l) t.
Proof.
  induction 1 as [|v w l t H F IH]; [apply evals_ret|]. cbn [decode_list].
  apply (evals_bind (fun fuel => D fuel v) (fun fuel y => rdo t <- decode_list (D fuel) l; Done (Ok (y :: t))) w); [exact H|].
  apply (evals_bind (fun fuel => decode_list (D fuel) l) (fun fuel t => Done (Ok (w :: t))) t); [exact IH|]. apply evals_ret.
Qed.

Lemma pyindex_at {A} (a : list A) x b : pyindex (a ++ x :: b) (len a) = Ok x.
Proof.
  unfold pyindex. pose proof (len_nonneg a). destruct (Z.ltb_spec (len a) 0); [lia|]. destruct (Z.ltb_spec (len a) 0); [lia|]. rewrite znth_error_nth by lia.
  unfold len. rewrite Nat2Z.id, nth_error_app2, Nat.sub_diag by lia. reflexivity.
Qed.

Lemma pairs_evals ks kt : Forall2 E ks kt -> forall a os ot out, Forall2 E os ot -> length ks = length os ->
  Forall scalar kt -> ForallOrdPairs (fun x y => ~ alike fint x y) kt -> Forall (fun p => Forall (fun b => ~ alike fint (fst p) b) kt) out -> Forall (fun p => scalar (fst p)) out ->
  evals (fun fuel => decode_pairs fint (D fuel) (PList (a ++ os)) (len a) ks out) (out ++ combine kt ot).
Proof.
  induction 1 as [|k k' ks kt Hk F IH]; intros a os ot out Fo L Sc Dis Out Osc; cbn [decode_pairs].
  - cbn [combine]. rewrite app_nil_r. apply evals_ret.
  - destruct Fo as [|x y os ot Hx Fo]; [discriminate|]. apply Forall_cons_iff in Sc as [Sk Sc].
    inversion Dis as [|? ? Dk Dis']; subst.
    eapply (evals_bind (fun fuel => D fuel k)); [exact Hk|].
    cbn [subscript index_of]. rewrite pyindex_at. cbn [rbind].
    eapply (evals_bind (fun fuel => D fuel x)); [exact Hx|]. cbn beta.
    rewrite (scalar_hashable k' Sk). rewrite dset_new.
    2:{ rewrite Forall_forall in *. intros [k0 v0] I. cbn [fst]. apply same_diff; [apply scalar_hashable, (Osc _ I)|apply scalar_hashable, Sk|]. specialize (Out _ I). apply Forall_cons_iff in Out as [N _]. exact N. }
    replace (len a + 1) with (len (a ++ [x])) by (rewrite len_app; reflexivity).
    replace (a ++ x :: os) with ((a ++ [x]) ++ os) by (rewrite <- app_assoc; reflexivity).
    cbn [combine]. replace (out ++ (k', y) :: combine kt ot) with ((out ++ [(k', y)]) ++ combine kt ot) by (rewrite <- app_assoc; reflexivity).
    apply IH; [exact Fo|cbn [length] in L; lia|exact Sc|exact Dis'| |].
    + apply Forall_app. split; [|constructor; [exact Dk|constructor]]. eapply Forall_impl; [|exact Out]. intros p N. apply Forall_cons_iff in N as [_ N]. exact N.
    + apply Forall_app. split; [exact Osc|constructor; [exact Sk|constructor]].
Qed.

Lemma keyed_tail p d : keyed (p :: d) -> keyed d.
Proof. destruct p as [k v]. intros K. apply keyed_cons in K as (s & _ & K & _). exact K. Qed.

Theorem archives_evals :
  (forall v w, archives fint objs v w -> E v w) /\
  (forall l t, all_archive fint objs l t -> Forall2 E l t) /\
  (forall skip d t, members fint objs skip d t -> forall out, keyed d -> Forall (fun p => exists s, fst p = PStr s /\ forall x, ~ In (PStr s, x) d) out ->
     evals (fun fuel => decode_fields fint (D fuel) (map text skip) d out) (out ++ t)) /\
  (forall v w, contents fint objs v w -> exists u o, get_uid fint v = Some u /\ subscript fint (PList objs) u = Ok o /\ evals (fun fuel => decode_container fint (D fuel) o) w) /\
  (forall l t, elements fint objs l t -> forall r last w, (forall last', evals (fun fuel => decode_elements fint (PList objs) (D fuel) r last') w) -> evals (fun fuel => decode_elements fint (PList objs) (D fuel) (l ++ r) last) w).
Proof.
  apply archives_mut.
  - intros v u o w R K _ IH. eapply D_ref; eassumption.
  - apply evals_step, evals_ret.
  - apply evals_step, evals_ret.
  - intros b. apply evals_step, evals_ret.
  - intros n. apply evals_step, evals_ret.
  - intros x. apply evals_step, evals_ret.
  - intros d s B U. apply evals_step. rewrite (urlsafe_spec d s B U). apply evals_ret.
  - intros s N. apply evals_step. apply evals_ext with (f := fun _ => Done (Ok (PStr s))); [|apply evals_ret]. intros fuel. unfold D. cbn [decode get_uid].
    destruct (list_eqb s (s2z "$null")) eqn:Q; [apply list_eqb_eq in Q; congruence|reflexivity].
  - intros l t _ IH. apply evals_step. apply evals_ext with (f := fun fuel => rdo t <- decode_list (D fuel) l; Done (Ok (PList t))); [reflexivity|].
    eapply (evals_bind (fun fuel => decode_list (D fuel) l)); [apply list_evals, IH|]. apply evals_ret.
  - intros v name d l t I N H _ IH. eapply isa_evals; [exact I|apply kind_array, N|]. destruct I as (-> & K & _).
    cbn [decode_kind]. unfold decode_array. rewrite (member_has _ _ _ K H). cbn [rbind iterate].
    eapply (evals_bind (fun fuel => decode_list (D fuel) l)); [apply list_evals, IH|]. apply evals_ret.
  - intros v name d ks os kt ot I N Hk Ho _ IHk _ IHo L Sc Dis. eapply isa_evals; [exact I|apply kind_dictionary, N|]. destruct I as (-> & K & _).
    cbn [decode_kind]. unfold decode_dictionary. rewrite (member_has _ _ _ K Hk), (member_has _ _ _ K Ho). cbn [rbind iterate]. unfold len. rewrite L, Z.eqb_refl. cbn [guard rbind].
    eapply (evals_bind (fun fuel => decode_pairs fint (D fuel) (PList os) 0 ks [])); [|apply evals_ret].
    apply (pairs_evals ks kt IHk [] os ot []); try assumption; constructor.
  - intros v d b s I H B U. eapply isa_evals; [exact I|reflexivity|]. destruct I as (-> & K & _). cbn [decode_kind]. unfold decode_uuid. rewrite (member_has _ _ _ K H). cbn [rbind iterate].
    unfold len. rewrite map_length. fold (len b). rewrite (uuid_be_len _ _ U). cbn [Z.eqb Pos.eqb guard rbind]. rewrite (uuid_be_fun b s (uuid_str b) U (uuid_be_text b B (uuid_be_len _ _ U))). apply evals_ret.
  - intros v d b r bs rs I Hb Hr _ IHb NE _ IHr. eapply isa_evals; [exact I|reflexivity|]. destruct I as (-> & K & _). cbn [decode_kind]. unfold decode_url.
    rewrite (member_has _ _ _ K Hb), (member_has _ _ _ K Hr). cbn [rbind].
    eapply (evals_bind (fun fuel => D fuel b)); [exact IHb|]. eapply (evals_bind (fun fuel => D fuel r)); [exact IHr|]. destruct bs as [|c bs]; [congruence|]. apply evals_ret.
  - intros v d b r bs w I Hb Hr _ IHb Em _ IHr. eapply isa_evals; [exact I|reflexivity|]. destruct I as (-> & K & _). cbn [decode_kind]. unfold decode_url.
    rewrite (member_has _ _ _ K Hb), (member_has _ _ _ K Hr). cbn [rbind].
    eapply (evals_bind (fun fuel => D fuel b)); [exact IHb|]. eapply (evals_bind (fun fuel => D fuel r)); [exact IHr|]. cbn beta. apply truthy_empty in Em. rewrite Em. apply evals_ret.
  - intros v name d t I N _ IH. eapply isa_evals; [exact I|apply kind_record, N|]. destruct I as (-> & K & _). cbn [decode_kind]. unfold decode_composite.
    eapply (evals_bind (fun fuel => decode_fields fint (D fuel) [text "$class"] d [])); [apply (IH [] K); constructor|]. apply evals_ret.
  - intros v name d l x t w I N H _ IHl _ (u & o & G & Su & Ev). eapply isa_evals; [exact I|apply kind_set, N|]. destruct I as (-> & K & _). cbn [decode_kind]. unfold decode_set. rewrite (member_has _ _ _ K H). cbn [rbind iterate].
    eapply (evals_bind (fun fuel => decode_elements fint (PList objs) (D fuel) (l ++ [x]) None) _ (Some w)); [|apply evals_ret]. apply IHl. intros last'.
    cbn [decode_elements]. rewrite G, Su. cbn [rbind]. eapply (evals_bind (fun fuel => decode_container fint (D fuel) o)); [exact Ev|]. apply evals_ret.
  - intros v d x w I H _ (u & o & G & Su & Ev). eapply isa_evals; [exact I|reflexivity|]. destruct I as (-> & K & _). cbn [decode_kind]. unfold decode_hash_table. rewrite (member_has _ _ _ K H). cbn [rbind].
    rewrite G, Su. cbn [rbind]. exact Ev.
  - constructor.
  - intros v w l t _ Hv _ IH. constructor; assumption.
  - intros skip out K _. rewrite app_nil_r. apply evals_ret.
  - intros skip k v d t I _ IH out K Out. cbn [decode_fields]. rewrite (skipped_in _ _ I). apply IH; [apply keyed_tail in K; exact K|].
    eapply Forall_impl; [|exact Out]. intros p (s & E' & N). exists s. split; [exact E'|]. intros x J. apply (N x). right. exact J.
  - intros skip k v d t Em _ IH out K Out. cbn [decode_fields].
    assert (Out' : Forall (fun p : pv * pv => exists s, fst p = PStr s /\ (forall x, ~ In (PStr s, x) d)) out).
    { eapply Forall_impl; [|exact Out]. intros p (s & E' & N). exists s. split; [exact E'|]. intros x J. apply (N x). right. exact J. }
    apply keyed_tail in K. apply truthy_empty in Em. rewrite Em. destruct (skipped fint (map text skip) k); apply IH; assumption.
  - intros skip k v w d t N Full _ IHv _ IH out K Out. cbn [decode_fields]. rewrite (skipped_not _ _ N). apply truthy_full in Full. rewrite Full.
    eapply (evals_bind (fun fuel => D fuel v)); [exact IHv|]. cbn beta. apply keyed_cons in K as (s & -> & K & Nd).
    rewrite dset_new.
    2:{ eapply Forall_impl; [|exact Out]. intros [k' v'] (s' & E' & N'). cbn [fst] in *. subst k'. rewrite same_str. apply list_eqb_neq. intros ->. apply (N' v). left. reflexivity. }
    replace (out ++ (PStr s, w) :: t) with ((out ++ [(PStr s, w)]) ++ t) by (rewrite <- app_assoc; reflexivity). apply IH; [exact K|].
    apply Forall_app. split; [|constructor; [exists s; split; [reflexivity|exact Nd]|constructor]].
    eapply Forall_impl; [|exact Out]. intros p (s' & E' & N'). exists s'. split; [exact E'|]. intros x J. apply (N' x). right. exact J.
  - intros v u d t R K Kd _ _ IH. exists (PInt u), (PDict d). split; [apply get_uid_refers, R|]. split; [apply subscript_object, K|]. cbn [decode_container].
    eapply (evals_bind (fun fuel => decode_fields fint (D fuel) (container_skip) d [])); [apply (IH [] Kd); constructor|]. apply evals_ret.
  - intros r last w H. apply H.
  - intros v w l t _ (u & o & G & Su & Ev) _ IH r last w' H. cbn [app decode_elements]. rewrite G, Su. cbn [rbind].
    eapply (evals_bind (fun fuel => decode_container fint (D fuel) o)); [exact Ev|]. apply IH, H.
Qed.

(** ** Errors *)

Definition fails {A} (f : nat -> run A) (e : exn) : Prop := exists n, forall fuel, (n <= fuel)%nat -> f fuel = Done (Err e).
Lemma fails_ret {A} e : fails (fun _ => Done (@Err A e)) e.
Proof. exists 0%nat. reflexivity. Qed.
Lemma fails_step {A} (f : nat -> run A) e : fails (fun fuel => f (S fuel)) e -> fails f e.
Proof. intros [n Hn]. exists (S n). intros fuel L. destruct fuel as [|fuel]; [lia|]. apply Hn. lia. Qed.
Lemma fails_ext {A} (f g : nat -> run A) e : (forall fuel, g fuel = f fuel) -> fails f e -> fails g e.
Proof. intros Q [n Hn]. exists n. intros fuel L. rewrite Q. apply Hn, L. Qed.
Lemma fails_first {A B} (f : nat -> run A) (g : nat -> A -> run B) e : fails f e -> fails (fun fuel => rbind (f fuel) (g fuel)) e.
Proof. intros [n Hn]. exists n. intros fuel L. rewrite Hn by exact L. reflexivity. Qed.
Lemma fails_second {A B} (f : nat -> run A) (g : nat -> A -> run B) a e : evals f a -> fails (fun fuel => g fuel a) e -> fails (fun fuel => rbind (f fuel) (g fuel)) e.
Proof. intros [n Hn] [m Hm]. exists (Nat.max n m). intros fuel L. rewrite Hn by lia. apply Hm. lia. Qed.

Lemma class_cases c s : class_of objs c s -> exists d, dget fint (text "$classname") d = Some (PStr s) /\ s <> [] /\ forall fuel, D fuel c = OutOfFuel \/ D fuel c = Done (Ok (PDict d)).
Proof.
  induction 1 as [c u v s R K C IH|d s K L N NE].
  - destruct IH as (d & G & NE & H). exists d. split; [exact G|]. split; [exact NE|]. intros [|fuel]; [left; reflexivity|]. unfold D. cbn [decode]. rewrite (get_uid_refers _ _ _ R), (subscript_object _ _ _ _ K). apply H.
  - exists d. split; [apply dget_has; assumption|]. split; [exact NE|]. intros [|fuel]; [left; reflexivity|]. right.
    unfold D. cbn [decode]. rewrite (get_uid_dict fint d "$classname" (PStr s)) by (exact N || discriminate). unfold decode_dict. rewrite dget_lacks by exact L. reflexivity.
Qed.

Lemma isa_cases v s d : isa objs v s d -> forall fuel, D (S fuel) v = OutOfFuel \/
  D (S fuel) v = match sdict_get s callbacks with Some k => decode_kind fint (PList objs) (D fuel) k d | None => Done (Err RuntimeError) end.
Proof.
  intros I fuel. pose proof (get_uid_isa fint _ _ _ _ I) as U. destruct I as (-> & K & c & Hc & C). destruct (class_cases c s C) as (cd & G & NE & H).
  unfold D. cbn [decode]. rewrite U. unfold decode_dict. rewrite (dget_has fint d _ c K Hc), (class_full c s C). fold (D fuel c). destruct (H fuel) as [-> | ->]; [left; reflexivity|].
  right. cbn [rbind class_name]. rewrite G. destruct s as [|x s]; [congruence|]. cbn [truthy callback]. destruct (sdict_get (x :: s) callbacks); reflexivity.
Qed.

Lemma isa_eq v s d : isa objs v s d -> exists n, forall fuel, (n <= fuel)%nat ->
  D (S fuel) v = match sdict_get s callbacks with Some k => decode_kind fint (PList objs) (D fuel) k d | None => Done (Err RuntimeError) end.
Proof.
  intros I. pose proof (get_uid_isa fint _ _ _ _ I) as U. destruct I as (-> & K & c & Hc & C). destruct (class_evals c s C) as (cd & [n Hn] & G & NE). exists n. intros fuel L.
  unfold D. cbn [decode]. rewrite U. unfold decode_dict. rewrite (dget_has fint d _ c K Hc), (class_full c s C). fold (D fuel c). rewrite Hn by exact L.
  cbn [rbind class_name]. rewrite G. destruct s as [|x s]; [congruence|]. cbn [truthy callback]. destruct (sdict_get (x :: s) callbacks); reflexivity.
Qed.

Lemma isa_fails v s d e : isa objs v s d ->
  fails (fun fuel => match sdict_get s callbacks with Some k => decode_kind fint (PList objs) (D fuel) k d | None => Done (Err RuntimeError) end) e -> fails (fun fuel => D fuel v) e.
Proof.
  intros I [m Hm]. destruct (isa_eq v s d I) as [n Hn]. exists (S (Nat.max n m)). intros [|fuel] L; [lia|]. rewrite Hn by lia. apply Hm. lia.
Qed.

Lemma callbacks_known s k : sdict_get s callbacks = Some k -> In s all_names.
Proof.
  assert (G : forall l, Forall (fun p : str * kind => In (fst p) all_names) l -> sdict_get s l = Some k -> In s all_names).
  { induction l as [|[s' k'] l IH]; intros F E'; [discriminate|]. apply Forall_cons_iff in F as [A F]. cbn [sdict_get] in E'. destruct (list_eqb s' s) eqn:Q; [apply list_eqb_eq in Q; subst; exact A|]. apply IH; assumption. }
  apply G. unfold callbacks. repeat (constructor; [cbn [fst]; unfold all_names, array_names, dictionary_names, set_names, record_names; cbn [app]; repeat (try (left; reflexivity); right); left; reflexivity|]). constructor.
Qed.

Lemma member_lacks d k : lacks d k -> member fint (text k) d = Err RuntimeError.
Proof. intros L. unfold member. rewrite dget_lacks by exact L. reflexivity. Qed.

Lemma list_fails l t x r e : Forall2 E l t -> fails (fun fuel => D fuel x) e -> fails (fun fuel => decode_list (D fuel) (l ++ x :: r)) e.
Proof.
  intros F H. induction F as [|v w l t Hv F IH]; cbn [app decode_list].
  - apply (fails_first (fun fuel => D fuel x)), H.
  - eapply (fails_second (fun fuel => D fuel v)); [exact Hv|]. apply (fails_first (fun fuel => decode_list (D fuel) (l ++ x :: r))), IH.
Qed.

Lemma subscript_past u : len objs <= u -> subscript fint (PList objs) (PInt u) = Err IndexError.
Proof.
  intros L. pose proof (len_nonneg objs). cbn [subscript index_of]. unfold pyindex. destruct (Z.ltb_spec u 0); [lia|]. destruct (Z.ltb_spec u 0); [lia|]. rewrite znth_error_nth by lia.
  destruct (nth_error objs (Z.to_nat u)) eqn:Q; [|reflexivity]. assert (nth_error objs (Z.to_nat u) <> None) as N by congruence. apply nth_error_Some in N. unfold len in L. lia.
Qed.

Lemma elements_fails l t : elements fint objs l t -> forall r e, (forall last, fails (fun fuel => decode_elements fint (PList objs) (D fuel) r last) e) ->
  forall last, fails (fun fuel => decode_elements fint (PList objs) (D fuel) (l ++ r) last) e.
Proof.
  induction 1 as [|v w l t C F IH]; intros r e H last; [apply H|]. cbn [app decode_elements].
  destruct archives_evals as (_ & _ & _ & A & _). destruct (A _ _ C) as (u & o & G & Su & Ev). rewrite G, Su. cbn [rbind].
  eapply (fails_second (fun fuel => decode_container fint (D fuel) o)); [exact Ev|]. apply IH, H.
Qed.

Theorem broken_fails v e : broken fint objs v e -> fails (fun fuel => D fuel v) e.
Proof.
  destruct archives_evals as (_ & AA & _).
  induction 1 as [v u R L|x|v s d I N|v s d k I L H|v s d ks os I N Hk Ho L|v d b I H L|v s d I N H|v s d l t x u c o r I N H F R K|v u o e R K _ IH|l t x r e A _ IH|v s d l t x r e I N H A _ IH].
  - apply fails_step. eapply fails_ext; [|apply fails_ret]. intros fuel. unfold D. cbn [decode]. rewrite (get_uid_refers _ _ _ R), (subscript_past _ L). reflexivity.
  - apply fails_step, fails_ret.
  - eapply isa_fails; [exact I|]. destruct (sdict_get s callbacks) eqn:Q; [apply callbacks_known in Q; destruct (N Q)|apply fails_ret].
  - eapply isa_fails; [exact I|]. destruct H as [[N ->]|[[N ->]|[[N [-> | ->]]|[[-> ->]|[[-> [-> | ->]]|[-> ->]]]]]].
    + rewrite (kind_array _ N). cbn [decode_kind]. unfold decode_array. rewrite (member_lacks _ _ L). apply fails_ret.
    + rewrite (kind_set _ N). cbn [decode_kind]. unfold decode_set. rewrite (member_lacks _ _ L). apply fails_ret.
    + rewrite (kind_dictionary _ N). cbn [decode_kind]. unfold decode_dictionary. rewrite (member_lacks _ _ L). apply fails_ret.
    + rewrite (kind_dictionary _ N). cbn [decode_kind]. unfold decode_dictionary. rewrite (member_lacks _ _ L). unfold member. destruct (dget fint (text "NS.keys") d); apply fails_ret.
    + change (sdict_get (s2z "NSUUID") callbacks) with (Some KUuid). cbn [decode_kind]. unfold decode_uuid. rewrite (member_lacks _ _ L). apply fails_ret.
    + change (sdict_get (s2z "NSURL") callbacks) with (Some KUrl). cbn [decode_kind]. unfold decode_url. rewrite (member_lacks _ _ L). apply fails_ret.
    + change (sdict_get (s2z "NSURL") callbacks) with (Some KUrl). cbn [decode_kind]. unfold decode_url. rewrite (member_lacks _ _ L). unfold member. destruct (dget fint (text "NS.base") d); apply fails_ret.
    + change (sdict_get (s2z "NSHashTable") callbacks) with (Some KHashTable). cbn [decode_kind]. unfold decode_hash_table. rewrite (member_lacks _ _ L). apply fails_ret.
  - eapply isa_fails; [exact I|]. rewrite (kind_dictionary _ N). destruct I as (_ & K & _). cbn [decode_kind]. unfold decode_dictionary. rewrite (member_has _ _ _ K Hk), (member_has _ _ _ K Ho). cbn [rbind iterate].
    destruct (Z.eqb_spec (len ks) (len os)) as [Q|_]; [unfold len in Q; lia|]. apply fails_ret.
  - eapply isa_fails; [exact I|]. change (sdict_get (s2z "NSUUID") callbacks) with (Some KUuid). destruct I as (_ & K & _). cbn [decode_kind]. unfold decode_uuid. rewrite (member_has _ _ _ K H). cbn [rbind iterate].
    unfold len at 1. rewrite map_length. fold (len b). destruct (Z.eqb_spec (len b) 16); [contradiction|]. apply fails_ret.
  - eapply isa_fails; [exact I|]. rewrite (kind_set _ N). destruct I as (_ & K & _). cbn [decode_kind]. unfold decode_set. rewrite (member_has _ _ _ K H). apply fails_ret.
  - eapply isa_fails; [exact I|]. rewrite (kind_set _ N). destruct I as (_ & Kd & _). cbn [decode_kind]. unfold decode_set. rewrite (member_has _ _ _ Kd H). cbn [rbind iterate].
    apply (fails_first (fun fuel => decode_elements fint (PList objs) (D fuel) (l ++ x :: r) None)). eapply elements_fails; [exact F|]. intros last. cbn [decode_elements].
    rewrite (get_uid_refers _ _ _ R), (subscript_object _ _ _ _ K). cbn [rbind decode_container iterate map forallb].
    assert (Q : skipped fint container_skip (PStr [c]) = false).
    { unfold skipped, container_skip. cbn [existsb]. destruct (same fint (PStr [c]) (text "$class")) eqn:Q1; [apply same_text in Q1; discriminate|]. destruct (same fint (PStr [c]) (text "container")) eqn:Q2; [apply same_text in Q2; discriminate|]. reflexivity. }
    rewrite Q. apply fails_ret.
  - apply fails_step. eapply fails_ext; [|exact IH]. intros fuel. unfold D. cbn [decode]. rewrite (get_uid_refers _ _ _ R), (subscript_object _ _ _ _ K). reflexivity.
  - apply fails_step. apply fails_ext with (f := fun fuel => rdo t <- decode_list (D fuel) (l ++ x :: r); Done (Ok (PList t))); [reflexivity|].
    apply (fails_first (fun fuel => decode_list (D fuel) (l ++ x :: r))). eapply list_fails; [apply AA, A|exact IH].
  - eapply isa_fails; [exact I|]. rewrite (kind_array _ N). destruct I as (_ & K & _). cbn [decode_kind]. unfold decode_array. rewrite (member_has _ _ _ K H). cbn [rbind iterate].
    apply (fails_first (fun fuel => decode_list (D fuel) (l ++ x :: r))). eapply list_fails; [apply AA, A|exact IH].
Qed.

(** ** Cycles *)

Lemma list_success (dec : pv -> run pv) l t : decode_list dec l = Done (Ok t) -> forall x, In x l -> exists w, dec x = Done (Ok w).
Proof.
  revert t. induction l as [|y l IH]; intros t H x I; [destruct I|]. cbn [decode_list] in H. destruct (dec y) as [[w|]|] eqn:Q; try discriminate. cbn [rbind] in H.
  destruct (decode_list dec l) as [[t'|]|] eqn:Q'; try discriminate. destruct I as [->|I]; [exists w; exact Q|]. eapply IH; [reflexivity|exact I].
Qed.

Lemma pairs_success (dec : pv -> run pv) values : forall ks i out t, decode_pairs fint dec values i ks out = Done (Ok t) ->
  (forall x, In x ks -> exists w, dec x = Done (Ok w)) /\ (forall j x, i <= j < i + len ks -> subscript fint values (PInt j) = Ok x -> exists w, dec x = Done (Ok w)).
Proof.
  induction ks as [|k ks IH]; intros i out t H; cbn [decode_pairs] in H.
  - split; [intros x []|]. intros j x L. change (len (@nil pv)) with 0 in L. lia.
  - destruct (dec k) as [[k'|]|] eqn:Qk; try discriminate. cbn [rbind] in H. destruct (subscript fint values (PInt i)) as [x|] eqn:Qs; try discriminate. cbn [rbind] in H.
    destruct (dec x) as [[y|]|] eqn:Qx; try discriminate. cbn [rbind] in H. destruct (hashable k'); [|discriminate]. destruct (IH _ _ _ H) as [A B]. split.
    + intros z [<-|I]; [exists k'; exact Qk|]. apply A, I.
    + intros j z L Sj. rewrite len_cons in L. destruct (Z.eq_dec j i) as [->|N].
      * rewrite Qs in Sj. injection Sj as ->. exists y. exact Qx.
      * apply (B j z); [lia|exact Sj].
Qed.

Lemma fields_success (dec : pv -> run pv) skip : forall d out t, decode_fields fint dec skip d out = Done (Ok t) -> forall k x, In (k, x) d -> skipped fint skip k = false -> truthy fint x = true -> exists w, dec x = Done (Ok w).
Proof.
  induction d as [|[k' x'] d IH]; intros out t H k x I N Tr; [destruct I|]. cbn [decode_fields] in H. destruct I as [I|I].
  - injection I as -> ->. rewrite N, Tr in H. destruct (dec x) as [[w|]|] eqn:Q; try discriminate. exists w. reflexivity.
  - destruct (skipped fint skip k'); [eapply IH; eassumption|]. destruct (truthy fint x'); [|eapply IH; eassumption]. destruct (dec x') as [[w|]|]; try discriminate. cbn [rbind] in H. eapply IH; eassumption.
Qed.

Lemma needs_success v x fuel w : needs objs v x -> D (S fuel) v = Done (Ok w) -> exists w', D fuel x = Done (Ok w').
Proof.
  intros H Hw. destruct H as [v u o R K|l x I|d c s K Hc C|v s d l x I N H J|v s d ks os x I N Hk Ho J|v s d ks os x I N Hk Ho J|v d b r x I Hb Hr J|v s d k x I N J Nk Full].
  - unfold D in Hw. cbn [decode] in Hw. rewrite (get_uid_refers _ _ _ R), (subscript_object _ _ _ _ K) in Hw. exists w. exact Hw.
  - unfold D in Hw. cbn [decode get_uid] in Hw. destruct (decode_list (decode fuel fint (PList objs)) l) as [[t|]|] eqn:Q; try discriminate. eapply list_success; eassumption.
  - unfold D in Hw. cbn [decode] in Hw. rewrite (get_uid_dict fint d "$class" c) in Hw by (exact Hc || discriminate). unfold decode_dict in Hw. rewrite (dget_has fint d _ c K Hc), (class_full c s C) in Hw.
    unfold D. destruct (decode fuel fint (PList objs) c) as [[w'|]|]; try discriminate. exists w'. reflexivity.
  - destruct (isa_cases v s d I fuel) as [Q|Q]; rewrite Q in Hw; [discriminate|]. rewrite (kind_array _ N) in Hw. destruct I as (_ & K & _). cbn [decode_kind] in Hw. unfold decode_array in Hw. rewrite (member_has _ _ _ K H) in Hw. cbn [rbind iterate] in Hw.
    destruct (decode_list (D fuel) l) as [[t|]|] eqn:Q'; try discriminate. eapply list_success; eassumption.
  - destruct (isa_cases v s d I fuel) as [Q|Q]; rewrite Q in Hw; [discriminate|]. rewrite (kind_dictionary _ N) in Hw. destruct I as (_ & K & _). cbn [decode_kind] in Hw. unfold decode_dictionary in Hw. rewrite (member_has _ _ _ K Hk), (member_has _ _ _ K Ho) in Hw. cbn [rbind iterate] in Hw.
    destruct (len ks =? len os); [|discriminate]. cbn [guard rbind] in Hw. destruct (decode_pairs fint (D fuel) (PList os) 0 ks []) as [[t|]|] eqn:Q'; try discriminate. apply pairs_success in Q' as [A _]. apply A, J.
  - destruct (isa_cases v s d I fuel) as [Q|Q]; rewrite Q in Hw; [discriminate|]. rewrite (kind_dictionary _ N) in Hw. destruct I as (_ & K & _). cbn [decode_kind] in Hw. unfold decode_dictionary in Hw. rewrite (member_has _ _ _ K Hk), (member_has _ _ _ K Ho) in Hw. cbn [rbind iterate] in Hw.
    destruct (Z.eqb_spec (len ks) (len os)) as [L|]; [|discriminate]. cbn [guard rbind] in Hw. destruct (decode_pairs fint (D fuel) (PList os) 0 ks []) as [[t|]|] eqn:Q'; try discriminate. apply pairs_success in Q' as [_ B].
    apply in_split in J as (a & b & ->). apply (B (len a)).
    + rewrite L, len_app, len_cons. pose proof (len_nonneg a). pose proof (len_nonneg b). lia.
    + cbn [subscript index_of]. apply pyindex_at.
  - destruct (isa_cases v _ d I fuel) as [Q|Q]; rewrite Q in Hw; [discriminate|]. change (sdict_get (s2z "NSURL") callbacks) with (Some KUrl) in Hw. destruct I as (_ & K & _). cbn [decode_kind] in Hw. unfold decode_url in Hw.
    rewrite (member_has _ _ _ K Hb), (member_has _ _ _ K Hr) in Hw. cbn [rbind] in Hw. destruct (D fuel b) as [[y|]|] eqn:Q1; try discriminate. cbn [rbind] in Hw. destruct (D fuel r) as [[z|]|] eqn:Q2; try discriminate.
    destruct J as [-> | ->]; eexists; eassumption.
  - destruct (isa_cases v s d I fuel) as [Q|Q]; rewrite Q in Hw; [discriminate|]. rewrite (kind_record _ N) in Hw. cbn [decode_kind] in Hw. unfold decode_composite in Hw.
    destruct (decode_fields fint (D fuel) [text "$class"] d []) as [[t|]|] eqn:Q'; try discriminate. eapply fields_success; [exact Q'|exact J| |].
    + change [text "$class"] with (map text ["$class"%string]). apply skipped_not. cbn [map In]. intros [<-|[]]. apply Nk. reflexivity.
    + apply truthy_full. intros [->|[Nu|[->|[->|[->| ->]]]]]; try (destruct Full as (F1 & F2 & F3 & F4 & F5 & F6 & F7 & F8); congruence).
      destruct Full as (F1 & F2 & F3 & F4 & _). inversion Nu; subst; [destruct (F3 false)|destruct (F2 0)|destruct (F4 x0)]; reflexivity.
Qed.

Theorem cycle_fails (chain : nat -> pv) : (forall i, needs objs (chain i) (chain (S i))) -> forall fuel w, D fuel (chain 0%nat) <> Done (Ok w).
Proof.
  intros H fuel. revert chain H. induction fuel as [|fuel IH]; intros chain H w; [discriminate|]. intros Hw.
  destruct (needs_success _ _ _ _ (H 0%nat) Hw) as [w' Hw']. apply (IH (fun i => chain (S i)) (fun i => H (S i)) w' Hw').
Qed.

(** ** Termination *)

Definition fin {A} (r : run A) : Prop := r <> OutOfFuel.
Lemma fin_bind {A B} (r : run A) (f : A -> run B) : fin r -> (forall a, r = Done (Ok a) -> fin (f a)) -> fin (rbind r f).
Proof. intros H K. destruct r as [[a|e]|]; cbn [rbind]; [apply K; reflexivity|discriminate|destruct (H eq_refl)]. Qed.
Lemma fin_done {A} (r : result A) : fin (Done r).
Proof. discriminate. Qed.

Definition kids (v : pv) : list pv :=
  match get_uid fint v with Some u => match subscript fint (PList objs) u with Ok o => [o] | Err _ => [] end | None => [] end ++
  match v with PList l => l | PDict d => map fst d ++ map snd d | _ => [] end.

Lemma subscript_target u o : subscript fint (PList objs) u = Ok o -> exists i, index u i /\ target objs i o.
Proof.
  cbn [subscript]. destruct (index_of u) as [i|] eqn:Q; [|discriminate]. intros H. exists i. split.
  - destruct u; cbn [index_of] in Q; try discriminate; injection Q as <-; constructor.
  - unfold pyindex in H. destruct (Z.ltb_spec i 0) as [Hi|Hi].
    + destruct (Z.ltb_spec (i + len objs) 0); [discriminate|]. rewrite znth_error_nth in H by lia. destruct (nth_error objs (Z.to_nat (i + len objs))) eqn:Q'; [|discriminate]. injection H as ->.
      right. split; [exact Hi|]. split; [lia|]. replace (len objs + i) with (i + len objs) by lia. exact Q'.
    + destruct (Z.ltb_spec i 0); [lia|]. rewrite znth_error_nth in H by lia. destruct (nth_error objs (Z.to_nat i)) eqn:Q'; [|discriminate]. injection H as ->. left. split; [exact Hi|exact Q'].
Qed.

Lemma kids_mentions v x : In x (kids v) -> mentions objs v x.
Proof.
  unfold kids. intros I. apply in_app_or in I as [I|I].
  - destruct (get_uid fint v) as [u|] eqn:U; [|destruct I]. destruct (subscript fint (PList objs) u) as [o|] eqn:S'; [|destruct I]. destruct I as [<-|[]].
    apply subscript_target in S' as (i & Hi & T). apply (mentions_ref objs v i o); [|exact T]. destruct v; cbn [get_uid] in U; try discriminate.
    + injection U as <-. inversion Hi; subst. left. reflexivity.
    + destruct l as [|[k x] [|p l]]; try discriminate. destruct (same fint k (text "CF$UID")) eqn:Q; [|discriminate]. apply same_text in Q. subst k. right. exists x. split; [|reflexivity].
      destruct x; try discriminate; injection U as <-; exact Hi.
  - destruct v; try destruct I.
    + apply mentions_element. exact I.
    + apply in_app_or in I as [I|I]; apply in_map_iff in I as ([k y] & <- & I); cbn [fst snd]; [eapply mentions_key|eapply mentions_value]; exact I.
Qed.

Lemma kids_list l x : In x l -> In x (kids (PList l)).
Proof. intros I. apply in_or_app. right. exact I. Qed.
Lemma kids_value d k x : In (k, x) d -> In x (kids (PDict d)).
Proof. intros I. apply in_or_app. right. apply in_or_app. right. apply in_map_iff. exists (k, x). split; [reflexivity|exact I]. Qed.
Lemma kids_ref v u o : get_uid fint v = Some u -> subscript fint (PList objs) u = Ok o -> In o (kids v).
Proof. intros U S'. unfold kids. rewrite U, S'. left. reflexivity. Qed.

Lemma iterate_kids v l x : iterate v = Ok l -> In x l -> scalar x \/ In x (kids v).
Proof.
  destruct v; cbn [iterate]; intros H I; try discriminate; injection H as <-.
  - apply in_map_iff in I as (c & <- & _). left. exact Logic.I.
  - apply in_map_iff in I as (c & <- & _). left. exact Logic.I.
  - right. apply kids_list, I.
  - right. apply in_or_app. right. apply in_or_app. left. exact I.
Qed.

Lemma pyindex_in {A} (l : list A) i x : pyindex l i = Ok x -> In x l.
Proof.
  unfold pyindex. set (j := if i <? 0 then i + len l else i). destruct (Z.ltb_spec j 0); [discriminate|]. rewrite znth_error_nth by lia. destruct (nth_error l (Z.to_nat j)) eqn:Q; [|discriminate]. intros E'. injection E' as ->. eapply nth_error_In, Q.
Qed.

Lemma subscript_kids v i x : subscript fint v (PInt i) = Ok x -> scalar x \/ In x (kids v).
Proof.
  destruct v; cbn [subscript index_of]; intros H; try discriminate.
  - destruct (pyindex d i); [|discriminate]. injection H as <-. left. exact Logic.I.
  - destruct (pyindex s i); [|discriminate]. injection H as <-. left. exact Logic.I.
  - right. apply kids_list. eapply pyindex_in, H.
  - cbn [hashable] in H. destruct (dget fint (PInt i) l) as [y|] eqn:Q; [|discriminate]. injection H as ->. apply dget_in in Q as (k & I & _). right. eapply kids_value, I.
Qed.

Fixpoint desc (n : nat) (v : pv) : list pv := match n with O => [] | S n => kids v ++ flat_map (desc n) (kids v) end.
Lemma desc_one n v x : In x (kids v) -> In x (desc (S n) v).
Proof. intros I. apply in_or_app. left. exact I. Qed.
Lemma desc_step n v y x : In y (kids v) -> In x (desc n y) -> In x (desc (S n) v).
Proof. intros I J. apply in_or_app. right. apply in_flat_map. exists y. split; assumption. Qed.

Section Fin.
Variable dec : pv -> run pv.

Lemma fin_list l : (forall x, In x l -> fin (dec x)) -> fin (decode_list dec l).
Proof.
  induction l as [|x l IH]; intros H; [apply fin_done|]. cbn [decode_list]. apply fin_bind; [apply H; left; reflexivity|]. intros y _. apply fin_bind; [apply IH; intros z I; apply H; right; exact I|]. intros t _. apply fin_done.
Qed.
Lemma fin_fields skip d : forall out, (forall k x, In (k, x) d -> fin (dec x)) -> fin (decode_fields fint dec skip d out).
Proof.
  induction d as [|[k x] d IH]; intros out H; [apply fin_done|]. cbn [decode_fields].
  assert (H' : forall k x, In (k, x) d -> fin (dec x)) by (intros k' x' I; apply (H k' x'); right; exact I).
  destruct (skipped fint skip k); [apply IH, H'|]. destruct (truthy fint x); [|apply IH, H']. apply fin_bind; [apply (H k x); left; reflexivity|]. intros y _. apply IH, H'.
Qed.
Lemma fin_container o : (forall x, In x (kids o) -> fin (dec x)) -> fin (decode_container fint dec o).
Proof.
  intros H. destruct o; cbn [decode_container]; try (apply fin_bind; [apply fin_done|]; intros; apply fin_done). apply fin_bind; [|intros; apply fin_done]. apply fin_fields. intros k x I. apply H. eapply kids_value, I.
Qed.
Lemma fin_pairs values ks : (forall x, In x ks -> fin (dec x)) -> (forall i x, subscript fint values (PInt i) = Ok x -> fin (dec x)) -> forall i out, fin (decode_pairs fint dec values i ks out).
Proof.
  induction ks as [|k ks IH]; intros Hk Hv i out; [apply fin_done|]. cbn [decode_pairs]. apply fin_bind; [apply Hk; left; reflexivity|]. intros k' _. apply fin_bind; [apply fin_done|]. intros x Q. injection Q as Q.
  apply fin_bind; [eapply Hv, Q|]. intros y _. destruct (hashable k'); [|apply fin_done]. apply IH; [intros z I; apply Hk; right; exact I|exact Hv].
Qed.
Lemma fin_elements l : (forall v u o x, In v l -> get_uid fint v = Some u -> subscript fint (PList objs) u = Ok o -> In x (kids o) -> fin (dec x)) -> forall last, fin (decode_elements fint (PList objs) dec l last).
Proof.
  induction l as [|v l IH]; intros H last; [apply fin_done|]. cbn [decode_elements]. apply fin_bind; [apply fin_done|]. intros o Q. injection Q as Q. apply fin_bind.
  - destruct (get_uid fint v) as [u|] eqn:U; [|discriminate]. apply fin_container. intros x I. apply (H v u o x); [left; reflexivity|exact U|exact Q|exact I].
  - intros y _. apply IH. intros v' u' o' x I. apply H. right. exact I.
Qed.

Lemma member_in d k v : member fint k d = Ok v -> exists k', In (k', v) d.
Proof. unfold member. destruct (dget fint k d) as [y|] eqn:Q; [|discriminate]. intros E'. injection E' as ->. apply dget_in in Q as (k' & I & _). exists k'. exact I. Qed.

Lemma fin_kind k d : (forall x, scalar x -> fin (dec x)) -> (forall x, In x (desc 4 (PDict d)) -> fin (dec x)) -> fin (decode_kind fint (PList objs) dec k d).
Proof.
  intros Sc H.
  assert (V : forall k' v, In (k', v) d -> fin (dec v)) by (intros k' v I; apply H, desc_one, (kids_value _ k'), I).
  assert (V2 : forall k' v x, In (k', v) d -> In x (kids v) -> fin (dec x)) by (intros k' v x I J; apply H; apply (desc_step _ _ v); [apply (kids_value _ k'), I|apply desc_one, J]).
  destruct k; cbn [decode_kind].
  - unfold decode_composite. apply fin_bind; [apply fin_fields, V|intros; apply fin_done].
  - unfold decode_array. apply fin_bind; [apply fin_done|]. intros o Qo. injection Qo as Qo. apply member_in in Qo as (k' & Io). apply fin_bind; [apply fin_done|]. intros l Ql. injection Ql as Ql.
    apply fin_bind; [|intros; apply fin_done]. apply fin_list. intros x J. destruct (iterate_kids o l x Ql J) as [S'|K]; [apply Sc, S'|]. eapply V2; eassumption.
  - unfold decode_dictionary. apply fin_bind; [apply fin_done|]. intros ks Qk. injection Qk as Qk. apply member_in in Qk as (k1 & I1). apply fin_bind; [apply fin_done|]. intros os Qo. injection Qo as Qo. apply member_in in Qo as (k2 & I2).
    apply fin_bind; [apply fin_done|]. intros kl Ql. injection Ql as Ql. apply fin_bind; [apply fin_done|]. intros ol _. apply fin_bind; [apply fin_done|]. intros _ _. apply fin_bind; [|intros; apply fin_done]. apply fin_pairs.
    + intros x J. destruct (iterate_kids ks kl x Ql J) as [S'|K]; [apply Sc, S'|]. eapply V2; [exact I1|exact K].
    + intros i x J. destruct (subscript_kids os i x J) as [S'|K]; [apply Sc, S'|]. eapply V2; [exact I2|exact K].
  - unfold decode_hash_table. apply fin_bind; [apply fin_done|]. intros v Qv. injection Qv as Qv. apply member_in in Qv as (k' & I). destruct (get_uid fint v) as [u|] eqn:U; [|apply fin_done]. apply fin_bind; [apply fin_done|]. intros r Qr. injection Qr as Qr.
    apply fin_container. intros x J. apply H. apply (desc_step _ _ v); [apply (kids_value _ k'), I|]. apply (desc_step _ _ r); [eapply kids_ref; eassumption|]. apply desc_one, J.
  - unfold decode_set. apply fin_bind; [apply fin_done|]. intros o Qo. injection Qo as Qo. apply member_in in Qo as (k' & I). apply fin_bind; [apply fin_done|]. intros l Ql. injection Ql as Ql. apply fin_bind; [|intros; apply fin_done].
    apply fin_elements. intros v u r x J U Q K. destruct (iterate_kids o l v Ql J) as [S'|Kv]; [destruct v; try destruct S'; discriminate|].
    apply H. apply (desc_step _ _ o); [apply (kids_value _ k'), I|]. apply (desc_step _ _ v); [exact Kv|]. apply (desc_step _ _ r); [eapply kids_ref; eassumption|]. apply desc_one, K.
  - unfold decode_url. apply fin_bind; [apply fin_done|]. intros b Qb. injection Qb as Qb. apply member_in in Qb as (k1 & I1). apply fin_bind; [apply fin_done|]. intros r Qr. injection Qr as Qr. apply member_in in Qr as (k2 & I2).
    apply fin_bind; [eapply V, I1|]. intros base _. apply fin_bind; [eapply V, I2|]. intros rel _. apply fin_done.
  - unfold decode_uuid. apply fin_bind; [apply fin_done|]. intros v _. apply fin_bind; [apply fin_done|]. intros l _. apply fin_bind; [apply fin_done|]. intros _ _. apply fin_done.
Qed.
End Fin.

Definition halts (v : pv) : Prop := exists n, forall fuel, (n <= fuel)%nat -> fin (D fuel v).

Lemma halts_all l : (forall x, In x l -> halts x) -> exists n, forall fuel, (n <= fuel)%nat -> forall x, In x l -> fin (D fuel x).
Proof.
  induction l as [|y l IH]; intros H; [exists 0%nat; intros fuel _ x []|]. destruct (H y (or_introl eq_refl)) as [n Hn]. destruct (IH (fun x I => H x (or_intror I))) as [m Hm].
  exists (Nat.max n m). intros fuel L x [<-|I]; [apply Hn; lia|]. apply Hm; [lia|exact I].
Qed.

Lemma get_uid_scalar v : scalar v -> get_uid fint v = None.
Proof. destruct v; cbn [scalar get_uid]; tauto. Qed.

Lemma halts_scalar x fuel : scalar x -> fin (D (S fuel) x).
Proof. intros S'. unfold D. cbn [decode]. rewrite (get_uid_scalar x S'). destruct x; try destruct S'; apply fin_done. Qed.

Lemma halts_desc v : (forall x, In x (desc 4 v) -> halts x) -> halts v.
Proof.
  intros H. destruct (halts_all _ H) as [n Hn]. exists (S (S n)). intros [|fuel] L; [lia|]. unfold D. cbn [decode]. destruct (get_uid fint v) as [u|] eqn:U.
  - apply fin_bind; [apply fin_done|]. intros r Q. injection Q as Q. apply (Hn fuel); [lia|]. apply desc_one. eapply kids_ref; eassumption.
  - destruct v; try apply fin_done.
    + apply fin_bind; [|intros; apply fin_done]. apply fin_list. intros x I. apply (Hn fuel); [lia|]. apply desc_one, kids_list, I.
    + assert (Sc : forall x, scalar x -> fin (D fuel x)) by (intros x S'; destruct fuel as [|fuel]; [lia|]; apply halts_scalar, S').
      assert (Hd : forall x, In x (desc 4 (PDict l)) -> fin (D fuel x)) by (intros x I; apply Hn; [lia|exact I]).
      unfold decode_dict. destruct (dget fint (text "$class") l) as [c|] eqn:Q; [|apply fin_done]. destruct (truthy fint c); [|apply fin_done]. apply dget_in in Q as (k & I & _).
      apply fin_bind; [apply Hd, desc_one, (kids_value _ k), I|]. intros c' _. apply fin_bind; [apply fin_done|]. intros [name|] _; [|apply fin_done]. destruct (truthy fint name); [|apply fin_done].
      apply fin_bind; [apply fin_done|]. intros kd _. apply fin_kind; assumption.
Qed.

Theorem acyclic_halts v : Acc (fun y x => mentions objs x y) v -> halts v.
Proof.
  intros A. assert (G : halts v /\ forall n x, In x (desc n v) -> halts x); [|exact (proj1 G)].
  induction A as [v _ IH].
  assert (G : forall n x, In x (desc n v) -> halts x).
  { intros [|n] x I; [destruct I|]. cbn [desc] in I. apply in_app_or in I as [I|I].
    - apply (IH x), kids_mentions, I.
    - apply in_flat_map in I as (y & I & J). destruct (IH y (kids_mentions _ _ I)) as [_ Hy]. eapply Hy, J. }
  split; [|exact G]. apply halts_desc. apply G.
Qed.

(** ** Files *)

Lemma top_evals t out : top fint objs t out -> forall acc, keyed t -> Forall (fun p => exists s, fst p = PStr s /\ forall x, ~ In (PStr s, x) t) acc ->
  evals (fun fuel => decode_top fuel fint (PList objs) t acc) (acc ++ out).
Proof.
  destruct archives_evals as (AE & _).
  assert (W : forall (p : pv * pv) t acc, Forall (fun q : pv * pv => exists s, fst q = PStr s /\ forall x, ~ In (PStr s, x) (p :: t)) acc -> Forall (fun q : pv * pv => exists s, fst q = PStr s /\ forall x, ~ In (PStr s, x) t) acc).
  { intros p t' acc F. eapply Forall_impl; [|exact F]. intros q (s & E' & N). exists s. split; [exact E'|]. intros x I. apply (N x). right. exact I. }
  assert (X : forall s (v : pv) (t acc : list (pv * pv)) w, Forall (fun q : pv * pv => exists s', fst q = PStr s' /\ forall x, ~ In (PStr s', x) ((PStr s, v) :: t)) acc -> dset fint (PStr s) w acc = acc ++ [(PStr s, w)]).
  { intros s v t' acc w F. apply dset_new. eapply Forall_impl; [|exact F]. intros [k y] (s' & E' & N). cbn [fst] in *. subst k. rewrite same_str. apply list_eqb_neq. intros ->. apply (N v). left. reflexivity. }
  induction 1 as [|k v u o w d t R K A T IH|k v d t Sc T IH]; intros acc Ky F.
  - rewrite app_nil_r. apply evals_ret.
  - cbn [decode_top]. rewrite (get_uid_refers _ _ _ R), (subscript_object _ _ _ _ K). cbn [rbind]. pose proof (keyed_cons _ _ _ Ky) as (s & -> & Kt & N).
    eapply (evals_bind (fun fuel => D fuel o)); [apply AE, A|]. cbn beta. rewrite (X _ _ _ _ _ F).
    replace (acc ++ (PStr s, w) :: t) with ((acc ++ [(PStr s, w)]) ++ t) by (rewrite <- app_assoc; reflexivity). apply IH; [exact Kt|].
    apply Forall_app. split; [eapply W, F|]. constructor; [exists s; split; [reflexivity|exact N]|constructor].
  - cbn [decode_top]. rewrite (get_uid_scalar v Sc). cbn [rbind]. pose proof (keyed_cons _ _ _ Ky) as (s & -> & Kt & N). rewrite (X _ _ _ _ _ F).
    replace (acc ++ (PStr s, v) :: t) with ((acc ++ [(PStr s, v)]) ++ t) by (rewrite <- app_assoc; reflexivity). apply IH; [exact Kt|].
    apply Forall_app. split; [eapply W, F|]. constructor; [exists s; split; [reflexivity|exact N]|constructor].
Qed.

Theorem file_evals d t out version : keyed d -> has d "$archiver" (text "NSKeyedArchiver") -> has d "$version" version -> number fint version 100000 -> has d "$objects" (PList objs) -> has d "$top" (PDict t) -> keyed t ->
  top fint objs t out -> evals (fun fuel => decode_file fuel fint (PDict d)) (PDict out).
Proof.
  intros K Ha Hv Nv Ho Ht Kt T. apply evals_ext with (f := fun fuel => rdo l <- decode_top fuel fint (PList objs) t []; Done (Ok (PDict l))).
  - intros fuel. cbn [decode_file]. rewrite (dget_has fint d _ _ K Ha), (dget_has fint d _ _ K Hv), (dget_has fint d _ _ K Ho), (dget_has fint d _ _ K Ht).
    assert (S1 : same fint (text "NSKeyedArchiver") (text "NSKeyedArchiver") = true) by (apply same_text; reflexivity). rewrite S1. apply number_num in Nv. unfold same. rewrite Nv. cbn [num]. rewrite Z.eqb_refl. cbn [andb negb].
    destruct objs as [|o os]; reflexivity.
  - eapply (evals_bind (fun fuel => decode_top fuel fint (PList objs) t [])); [apply (top_evals _ _ T [] Kt); constructor|]. apply evals_ret.
Qed.
End Decode.

(** Other archives. *)
Theorem file_other fint d : keyed d -> (forall v, has d "$archiver" (text "NSKeyedArchiver") -> has d "$version" v -> ~ number fint v 100000) ->
  forall fuel, decode_file fuel fint (PDict d) = Done (Err RuntimeError).
Proof.
  intros K H fuel. cbn [decode_file]. destruct (dget fint (text "$archiver") d) as [a|] eqn:Qa; [|reflexivity]. destruct (dget fint (text "$version") d) as [v|] eqn:Qv; [|reflexivity].
  apply dget_in in Qa as (ka & Ia & Sa). apply dget_in in Qv as (kv & Iv & Sv). apply same_text in Sa. apply same_text in Sv. subst ka kv.
  destruct (same fint a (text "NSKeyedArchiver")) eqn:Q1; [|reflexivity]. apply same_text in Q1. subst a. destruct (same fint v (PInt 100000)) eqn:Q2; [|reflexivity]. exfalso.
  apply (H v Ia Iv). apply number_num. unfold same in Q2. cbn [num] in Q2. destruct (num fint v) as [n|]; [apply Z.eqb_eq in Q2; congruence|]. destruct v; discriminate.
Qed.

(** Archives without $top or $objects. *)
Lemma archiver_ok fint v : number fint v 100000 -> same fint (text "NSKeyedArchiver") (text "NSKeyedArchiver") && same fint v (PInt 100000) = true.
Proof.
  intros Nv. assert (S1 : same fint (text "NSKeyedArchiver") (text "NSKeyedArchiver") = true) by (apply same_text; reflexivity). rewrite S1.
  apply number_num in Nv. unfold same. rewrite Nv. cbn [num]. rewrite Z.eqb_refl. reflexivity.
Qed.

Theorem file_no_top fint d version : keyed d -> has d "$archiver" (text "NSKeyedArchiver") -> has d "$version" version -> number fint version 100000 ->
  lacks d "$top" -> forall fuel, decode_file fuel fint (PDict d) = Done (Ok (PDict [])).
Proof.
  intros K Ha Hv Nv Lt fuel. cbn [decode_file]. rewrite (dget_has fint d _ _ K Ha), (dget_has fint d _ _ K Hv), (dget_lacks fint d _ Lt), (archiver_ok fint version Nv). destruct fuel; reflexivity.
Qed.

Theorem file_no_objects fint d t out version : keyed d -> has d "$archiver" (text "NSKeyedArchiver") -> has d "$version" version -> number fint version 100000 ->
  lacks d "$objects" -> has d "$top" (PDict t) -> keyed t ->
  (top fint [] t out -> evals (fun fuel => decode_file fuel fint (PDict d)) (PDict out)) /\
  (forall name i fuel, t = [(text name, PUid i)] -> 0 <= i -> decode_file fuel fint (PDict d) = Done (Err IndexError)).
Proof.
  intros K Ha Hv Nv Lo Ht Kt.
  assert (E : forall fuel, decode_file fuel fint (PDict d) = rdo l <- decode_top fuel fint (PList []) t []; Done (Ok (PDict l))).
  { intros fuel. cbn [decode_file]. rewrite (dget_has fint d _ _ K Ha), (dget_has fint d _ _ K Hv), (dget_has fint d _ _ K Ht), (dget_lacks fint d _ Lo), (archiver_ok fint version Nv). reflexivity. }
  split.
  - intros T. apply evals_ext with (f := fun fuel => rdo l <- decode_top fuel fint (PList []) t []; Done (Ok (PDict l))); [intros; apply E|].
    eapply (evals_bind (fun fuel => decode_top fuel fint (PList []) t [])); [apply (top_evals _ _ _ _ T [] Kt); constructor|]. apply evals_ret.
  - intros name i fuel -> Hi. rewrite E. cbn. unfold pyindex. destruct (Z.ltb_spec i 0); [lia|]. cbn. destruct (Z.ltb_spec i 0); [lia|]. reflexivity.
Qed.

(** ** Layouts *)

Lemma Forall2_same_length {A B} (P : A -> B -> Prop) l t : Forall2 P l t -> length l = length t.
Proof. induction 1; cbn [length]; congruence. Qed.

Section Layout.
Variable fint : Z -> option Z.
Variable R : Z -> Z -> Prop.
Variables objs objs' : list pv.
Hypothesis lay : layouts R objs objs'.
Let fm (d d' : list (pv * pv)) := Forall2 (fun a b => fst a = fst b /\ moved R (snd a) (snd b)) d d'.

Lemma refers_fun v u u' : refers v u -> refers v u' -> u = u'.
Proof. intros [->| ->] [E|E]; congruence. Qed.

Lemma moved_refers v v' u : moved R v v' -> refers v u -> exists u', refers v' u' /\ R u u'.
Proof.
  intros M F. destruct M as [v v' u0 u' F0 F' H|v N1 N2 N3|l l' _|d d' N _].
  - rewrite (refers_fun _ _ _ F F0). exists u'. split; assumption.
  - destruct F as [->| ->]; [destruct (N1 u eq_refl)|destruct (N3 _ eq_refl)].
  - destruct F; discriminate.
  - destruct (N u F).
Qed.

Lemma moved_object v v' u o : moved R v v' -> refers v u -> object objs u o -> exists u' o', refers v' u' /\ object objs' u' o' /\ moved R o o'.
Proof.
  intros M F K. destruct (moved_refers _ _ _ M F) as (u' & F' & H). destruct (lay _ _ H) as (w & w' & Kw & K' & M'). rewrite (object_fun _ _ _ _ K Kw). exists u', w'. split; [exact F'|]. split; assumption.
Qed.

Lemma moved_inv_list l v' : moved R (PList l) v' -> exists l', v' = PList l' /\ Forall2 (moved R) l l'.
Proof.
  intros M. inversion M as [v w u u' F|v N1 N2 N3|a b F|d d' N F]; subst; [destruct F; discriminate|destruct (N2 l eq_refl)|]. exists b. split; [reflexivity|assumption].
Qed.
Lemma moved_inv_dict d v' k x : moved R (PDict d) v' -> has d k x -> s2z k <> s2z "CF$UID" -> exists d', v' = PDict d' /\ fm d d'.
Proof.
  intros M H Nk. inversion M as [v w u u' F|v N1 N2 N3|a b F|a b N F]; subst.
  - destruct F as [F|F]; [discriminate|]. injection F as ->. destruct H as [H|[]]. unfold text in H. injection H as H _. exfalso. apply Nk. symmetry. exact H.
  - destruct (N3 d eq_refl).
  - exists b. split; [reflexivity|exact F].
Qed.
Lemma moved_inv_same v v' : moved R v v' -> (forall u, ~ refers v u) -> (forall l, v <> PList l) -> (forall l, v <> PDict l) -> v' = v.
Proof.
  intros M N1 N2 N3. destruct M as [v w u u' F|v _ _ _|l l' _|d d' _ _]; [destruct (N1 u F)|reflexivity|destruct (N2 l eq_refl)|destruct (N3 d eq_refl)].
Qed.

Lemma fm_keys d d' : fm d d' -> map fst d' = map fst d.
Proof. induction 1 as [|[k v] [k' v'] d d' [E _] F IH]; [reflexivity|]. cbn [fst map] in *. congruence. Qed.
Lemma fm_keyed d d' : fm d d' -> keyed d -> keyed d'.
Proof. intros F (n & E & ND). exists n. rewrite (fm_keys _ _ F). split; assumption. Qed.
Lemma fm_has d d' k v : fm d d' -> has d k v -> exists v', has d' k v' /\ moved R v v'.
Proof.
  unfold has. induction 1 as [|[a v1] [b v2] d d' [E M] F IH]; intros I; [destruct I|]. cbn [fst snd] in *. subst b. destruct I as [I|I].
  - injection I as -> ->. exists v2. split; [left; reflexivity|exact M].
  - destruct (IH I) as (v' & I' & M'). exists v'. split; [right; exact I'|exact M'].
Qed.
Lemma fm_lacks d d' k : fm d d' -> lacks d k -> lacks d' k.
Proof.
  intros F L v I. assert (J : In (text k) (map fst d)). { rewrite <- (fm_keys _ _ F). apply in_map_iff. exists (text k, v). split; [reflexivity|exact I]. }
  apply in_map_iff in J as ([a x] & E & J). cbn [fst] in E. subst a. apply (L x J).
Qed.

Lemma moved_class c s : class_of objs c s -> forall c', moved R c c' -> class_of objs' c' s.
Proof.
  induction 1 as [c u v s F K C IH|d s K L N NE]; intros c' M.
  - destruct (moved_object _ _ _ _ M F K) as (u' & o' & F' & K' & M'). eapply class_ref; [exact F'|exact K'|]. apply IH, M'.
  - destruct (moved_inv_dict _ _ _ _ M N) as (d' & -> & F); [discriminate|]. destruct (fm_has _ _ _ _ F N) as (v' & N' & M').
    apply moved_inv_same in M'; [|intros u [Q|Q]; discriminate|discriminate|discriminate]. subst v'.
    apply class_rec; [eapply fm_keyed; eassumption|eapply fm_lacks; eassumption|exact N'|exact NE].
Qed.

Lemma moved_isa v s d v' : isa objs v s d -> moved R v v' -> exists d', isa objs' v' s d' /\ fm d d'.
Proof.
  intros (-> & K & c & H & C) M. destruct (moved_inv_dict _ _ _ _ M H) as (d' & -> & F); [discriminate|]. destruct (fm_has _ _ _ _ F H) as (c' & H' & M'). exists d'. split; [|exact F].
  split; [reflexivity|]. split; [eapply fm_keyed; eassumption|]. exists c'. split; [exact H'|]. eapply moved_class; eassumption.
Qed.

Lemma moved_has_list d d' k l : fm d d' -> has d k (PList l) -> exists l', has d' k (PList l') /\ Forall2 (moved R) l l'.
Proof. intros F H. destruct (fm_has _ _ _ _ F H) as (v' & H' & M). apply moved_inv_list in M as (l' & -> & F'). exists l'. split; assumption. Qed.

Lemma moved_empty v v' : moved R v v' -> (empty fint v <-> empty fint v').
Proof.
  intros M. rewrite <- !truthy_empty. destruct M as [v v' u u' F F' _|v _ _ _|l l' F|d d' _ F].
  - destruct F as [->| ->], F' as [->| ->]; reflexivity.
  - reflexivity.
  - destruct F; reflexivity.
  - destruct F; reflexivity.
Qed.

Theorem moved_archives :
  (forall v w, archives fint objs v w -> forall v', moved R v v' -> archives fint objs' v' w) /\
  (forall l t, all_archive fint objs l t -> forall l', Forall2 (moved R) l l' -> all_archive fint objs' l' t) /\
  (forall skip d t, members fint objs skip d t -> forall d', fm d d' -> members fint objs' skip d' t) /\
  (forall v w, contents fint objs v w -> forall v', moved R v v' -> contents fint objs' v' w) /\
  (forall l t, elements fint objs l t -> forall l', Forall2 (moved R) l l' -> elements fint objs' l' t).
Proof.
  assert (NR : forall v u, refers v u -> match v with PUid _ | PDict _ => True | _ => False end) by (intros v u [->| ->]; exact Logic.I).
  Ltac plain M NR := apply moved_inv_same in M; [subst|let u := fresh in let G := fresh in intros u G; destruct (NR _ _ G)|discriminate|discriminate].
  apply archives_mut.
  - intros v u o w F K _ IH v' M. destruct (moved_object _ _ _ _ M F K) as (u' & o' & F' & K' & M'). eapply ar_ref; [exact F'|exact K'|]. apply IH, M'.
  - intros v' M. plain M NR. constructor.
  - intros v' M. unfold text in M. plain M NR. apply ar_null.
  - intros b v' M. plain M NR. constructor.
  - intros n v' M. plain M NR. constructor.
  - intros x v' M. plain M NR. constructor.
  - intros d s B U v' M. plain M NR. constructor; assumption.
  - intros s N v' M. plain M NR. constructor; assumption.
  - intros l t _ IH v' M. apply moved_inv_list in M as (l' & -> & F). apply ar_list, IH, F.
  - intros v name d l t I N H _ IH v' M. destruct (moved_isa _ _ _ _ I M) as (d' & I' & F). destruct (moved_has_list _ _ _ _ F H) as (l' & H' & Fl). eapply ar_array; [exact I'|exact N|exact H'|]. apply IH, Fl.
  - intros v name d ks os kt ot I N Hk Ho _ IHk _ IHo L Sc Dis v' M. destruct (moved_isa _ _ _ _ I M) as (d' & I' & F). destruct (moved_has_list _ _ _ _ F Hk) as (ks' & Hk' & Fk). destruct (moved_has_list _ _ _ _ F Ho) as (os' & Ho' & Fo).
    eapply ar_dict; [exact I'|exact N|exact Hk'|exact Ho'|apply IHk, Fk|apply IHo, Fo| |exact Sc|exact Dis]. pose proof (Forall2_same_length _ _ _ Fk). pose proof (Forall2_same_length _ _ _ Fo). lia.
  - intros v d b s I H B U v' M. destruct (moved_isa _ _ _ _ I M) as (d' & I' & F). destruct (fm_has _ _ _ _ F H) as (b' & H' & Mb). plain Mb NR. eapply ar_uuid; eassumption.
  - intros v d b r bs rs I Hb Hr _ IHb NE _ IHr v' M. destruct (moved_isa _ _ _ _ I M) as (d' & I' & F). destruct (fm_has _ _ _ _ F Hb) as (b' & Hb' & Mb). destruct (fm_has _ _ _ _ F Hr) as (r' & Hr' & Mr).
    eapply ar_url; [exact I'|exact Hb'|exact Hr'|apply IHb, Mb|exact NE|apply IHr, Mr].
  - intros v d b r bs w I Hb Hr _ IHb NE _ IHr v' M. destruct (moved_isa _ _ _ _ I M) as (d' & I' & F). destruct (fm_has _ _ _ _ F Hb) as (b' & Hb' & Mb). destruct (fm_has _ _ _ _ F Hr) as (r' & Hr' & Mr).
    eapply ar_url_only; [exact I'|exact Hb'|exact Hr'|apply IHb, Mb|exact NE|apply IHr, Mr].
  - intros v name d t I N _ IH v' M. destruct (moved_isa _ _ _ _ I M) as (d' & I' & F). eapply ar_record; [exact I'|exact N|]. apply IH, F.
  - intros v name d l x t w I N H _ IHl _ IHx v' M. destruct (moved_isa _ _ _ _ I M) as (d' & I' & F). destruct (moved_has_list _ _ _ _ F H) as (l' & H' & Fl). apply Forall2_app_inv_l in Fl as (l1 & l2 & F1 & F2 & ->).
    inversion F2 as [|? x' ? l3 Mx F3]; subst. inversion F3; subst. eapply ar_set; [exact I'|exact N|exact H'|apply IHl, F1|apply IHx, Mx].
  - intros v d x w I H _ IHx v' M. destruct (moved_isa _ _ _ _ I M) as (d' & I' & F). destruct (fm_has _ _ _ _ F H) as (x' & H' & Mx). eapply ar_hash_table; [exact I'|exact H'|apply IHx, Mx].
  - intros l' F. inversion F. constructor.
  - intros v w l t _ Hv _ IH l' F. inversion F as [|? v' ? r' M F']; subst. constructor; [apply Hv, M|apply IH, F'].
  - intros skip d' F. inversion F. constructor.
  - intros skip k v d t I _ IH d' F. inversion F as [|? [k' v'] ? r' [E M] F']; subst. cbn [fst snd] in *. subst k'. apply members_skip; [exact I|apply IH, F'].
  - intros skip k v d t Em _ IH d' F. inversion F as [|? [k' v'] ? r' [E M] F']; subst. cbn [fst snd] in *. subst k'. apply members_empty; [apply (moved_empty _ _ M), Em|apply IH, F'].
  - intros skip k v w d t N Full _ IHv _ IH d' F. inversion F as [|? [k' v'] ? r' [E M] F']; subst. cbn [fst snd] in *. subst k'. apply members_cons; [exact N|rewrite <- (moved_empty _ _ M); exact Full|apply IHv, M|apply IH, F'].
  - intros v u d t F K Kd NoRef _ IH v' M. destruct (moved_object _ _ _ _ M F K) as (u' & o' & F' & K' & M').
    inversion M' as [? ? a b Ra Rb Hab|? N1 N2 N3|? ? Fl|a b N Fd]; subst.
    + destruct (NoRef _ Ra).
    + destruct (N3 d eq_refl).
    + eapply contents_of; [exact F'|exact K'|eapply fm_keyed; eassumption| |].
      { intros n [Q|Q]; [discriminate|]. injection Q as ->. inversion Fd as [|[k x] ? ? ? [Ek Mx] F0]; subst. inversion F0; subst. cbn [fst snd] in *. subst k. apply (NoRef n). right.
        inversion Mx as [? ? ? ? ? Q'|? _ _ _|? ? Q'|? ? ? Q']; subst; [destruct Q'; discriminate|reflexivity]. } apply IH, Fd.
  - intros l' F. inversion F. constructor.
  - intros v w l t _ Hv _ IH l' F. inversion F as [|? v' ? r' M F']; subst. constructor; [apply Hv, M|apply IH, F'].
Qed.
End Layout.

(** ** JSON *)

Theorem archives_json fint objs :
  (forall v w, archives fint objs v w -> json w) /\
  (forall l t, all_archive fint objs l t -> Forall json t) /\
  (forall skip d t, members fint objs skip d t -> keyed d -> Forall (fun a => scalar (fst a) /\ json (snd a)) t) /\
  (forall v w, contents fint objs v w -> json w) /\
  (forall l t, elements fint objs l t -> Forall json t).
Proof.
  apply archives_mut; try (intros; apply json_scalar; exact Logic.I).
  - intros v u o w _ _ _ IH. exact IH.
  - intros l t _ IH. apply json_list, IH.
  - intros v name d l t _ _ _ _ IH. apply json_list, IH.
  - intros v name d ks os kt ot _ _ _ _ _ _ _ IHo _ Sc _. apply json_dict. clear -Sc IHo. revert ot IHo. induction Sc as [|k kt Hk Sc IH]; intros ot F; [constructor|]. destruct F as [|o ot Ho F]; [constructor|]. cbn [combine]. constructor; [split; assumption|]. apply IH, F.
  - intros v d b r bs w _ _ _ _ _ _ _ IH. exact IH.
  - intros v name d t (_ & K & _) _ _ IH. apply json_dict, IH, K.
  - intros v name d l x t w _ _ _ _ _ _ IH. exact IH.
  - intros v d x w _ _ _ IH. exact IH.
  - constructor.
  - intros v w l t _ Hv _ IH. constructor; assumption.
  - constructor.
  - intros skip k v d t _ _ IH K. apply IH. eapply keyed_tail, K.
  - intros skip k v d t _ _ IH K. apply IH. eapply keyed_tail, K.
  - intros skip k v w d t _ _ _ Hv _ IH K. apply keyed_cons in K as (s & -> & K & _). constructor; [split; [exact Logic.I|exact Hv]|apply IH, K].
  - intros v u d t _ _ K _ _ IH. apply json_dict, IH, K.
  - constructor.
  - intros v w l t _ Hv _ IH. constructor; assumption.
Qed.

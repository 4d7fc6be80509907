From Verif Require Import Base BaseFacts SeqModel SeqSpec SeqFacts CoreModel CoreProofs StrModel StrFacts DictModel Utf16Model GzipModel RdModel RdSpec RdFacts TvModel TvSpec TvProofs CatModel CatSpec CatProofs FhModel FhSpec FhProofs WcdModel WcdSpec.

(** ** Dictionaries *)

Definition sdict_of {A} (l : list (str * A)) (t : sdict A) : sdict A := fold_left (fun t kv => sdict_set (fst kv) (snd kv) t) l t.

Lemma list_eqb_sym a b : list_eqb a b = list_eqb b a.
Proof. destruct (list_eqb a b) eqn:E. { apply list_eqb_eq in E. subst. symmetry. apply list_eqb_refl. } destruct (list_eqb b a) eqn:F; [|reflexivity]. apply list_eqb_eq in F. subst. rewrite list_eqb_refl in E. discriminate. Qed.

Lemma existsb_In_str x l : existsb (list_eqb x) l = true <-> In x l.
Proof.
  rewrite existsb_exists. split.
  - intros (y & H & E). apply list_eqb_eq in E. now subst.
  - intros H. exists x. split; [exact H|apply list_eqb_refl].
Qed.

Lemma firsts_snoc l x : firsts (l ++ [x]) = if existsb (list_eqb x) l then firsts l else firsts l ++ [x].
Proof.
  induction l as [|y l IH]; [reflexivity|]. cbn [app firsts existsb]. rewrite IH. rewrite (list_eqb_sym x y).
  destruct (list_eqb y x) eqn:E; cbn [orb].
  - destruct (existsb (list_eqb x) l); [reflexivity|]. rewrite filter_app. cbn [filter]. rewrite E. cbn [negb]. now rewrite app_nil_r.
  - destruct (existsb (list_eqb x) l); [reflexivity|]. rewrite filter_app. cbn [filter]. rewrite E. reflexivity.
Qed.

Lemma firsts_in l x : In x (firsts l) <-> In x l.
Proof.
  induction l as [|y l IH]; [reflexivity|]. cbn [firsts In]. rewrite filter_In, IH. destruct (list_eqb y x) eqn:E.
  - apply list_eqb_eq in E. subst. intuition auto.
  - cbn [negb]. intuition auto.
Qed.

Lemma firsts_nodup l : NoDup (firsts l).
Proof.
  induction l as [|y l IH]; [constructor|]. cbn [firsts]. constructor; [|apply NoDup_filter; exact IH].
  rewrite filter_In. intros [_ H]. rewrite list_eqb_refl in H. discriminate.
Qed.

Lemma sdict_set_keys {A} k (v : A) t : map fst (sdict_set k v t) = if existsb (list_eqb k) (map fst t) then map fst t else map fst t ++ [k].
Proof.
  induction t as [|[k1 v1] t IH]; [reflexivity|]. cbn [sdict_set map fst existsb]. rewrite (list_eqb_sym k k1). destruct (list_eqb k1 k) eqn:E; cbn [orb map fst].
  - apply list_eqb_eq in E. now subst.
  - rewrite IH. destruct (existsb _ _); reflexivity.
Qed.

Lemma sdict_of_keys {A} (l : list (str * A)) : map fst (sdict_of l []) = firsts (map fst l).
Proof.
  induction l as [|[k v] l IH] using rev_ind; [reflexivity|]. unfold sdict_of in *. rewrite fold_left_app. cbn [fold_left fst snd].
  rewrite sdict_set_keys, IH, map_app. cbn [map fst]. rewrite firsts_snoc.
  assert (E : existsb (list_eqb k) (firsts (map fst l)) = existsb (list_eqb k) (map fst l)).
  { apply eq_iff_eq_true. now rewrite !existsb_In_str, firsts_in. }
  rewrite E. reflexivity.
Qed.

Lemma sdict_get_in {A} (t : sdict A) k v : NoDup (map fst t) -> (sdict_get k t = Some v <-> In (k, v) t).
Proof.
  induction t as [|[k1 v1] t IH]; intros N; cbn [sdict_get In]; [split; [discriminate|tauto]|]. cbn [map fst] in N. apply NoDup_cons_iff in N as [N1 N2].
  destruct (list_eqb k1 k) eqn:E.
  - apply list_eqb_eq in E. subst k1. split; [intros H; left; congruence|]. intros [H|H]; [congruence|]. exfalso. apply N1. apply in_map_iff. exists (k, v). auto.
  - rewrite IH by exact N2. split; [auto|]. intros [H|H]; [|exact H]. assert (k1 = k) by congruence. subst. rewrite list_eqb_refl in E. discriminate.
Qed.

Lemma sdict_of_get {A} (l : list (str * A)) k v :
  sdict_get k (sdict_of l []) = Some v <-> exists before after, l = before ++ (k, v) :: after /\ ~ In k (map fst after).
Proof.
  induction l as [|[k1 v1] l IH] using rev_ind.
  - cbn. split; [discriminate|]. intros (a & b & H & _). destruct a; discriminate.
  - unfold sdict_of in *. rewrite fold_left_app. cbn [fold_left fst snd]. rewrite sdict_get_set. destruct (list_eqb k1 k) eqn:E.
    + apply list_eqb_eq in E. subst k1. split.
      * intros H. exists l, []. split; [congruence|intros []].
      * intros (a & b & H & N). destruct b as [|[k2 v2] b] using rev_ind.
        { apply app_inj_tail in H as [_ H]. congruence. }
        clear IHb. rewrite app_comm_cons, app_assoc in H. apply app_inj_tail in H as [_ H]. exfalso. apply N. rewrite map_app. apply in_or_app. right. left. cbn. congruence.
    + rewrite IH. split; intros (a & b & H & N).
      * exists a, (b ++ [(k1, v1)]). split; [rewrite H, <- app_assoc; reflexivity|]. rewrite map_app, in_app_iff. intros [C|[C|[]]]; [tauto|]. cbn in C. subst. rewrite list_eqb_refl in E. discriminate.
      * destruct b as [|[k2 v2] b] using rev_ind.
        { apply app_inj_tail in H as [_ H]. assert (k1 = k) by congruence. subst. rewrite list_eqb_refl in E. discriminate. }
        clear IHb. rewrite app_comm_cons, app_assoc in H. apply app_inj_tail in H as [H _]. exists a, b. split; [exact H|]. intros C. apply N. rewrite map_app. apply in_or_app. now left.
Qed.

Lemma sdict_of_nodup {A} (l : list (str * A)) : NoDup (map fst (sdict_of l [])).
Proof. rewrite sdict_of_keys. apply firsts_nodup. Qed.

Lemma dict_ext {A} (s t : sdict A) : NoDup (map fst s) -> map fst s = map fst t -> (forall k v, In (k, v) s <-> In (k, v) t) -> s = t.
Proof.
  revert t. induction s as [|[k v] s IH]; intros [|[k2 v2] t] N E H; cbn [map fst] in *; try discriminate; [reflexivity|].
  injection E as <- E. apply NoDup_cons_iff in N as [N1 N2].
  assert (v2 = v). { assert (In (k, v2) ((k, v) :: s)) as C by (apply H; left; reflexivity). destruct C as [C|C]; [congruence|]. exfalso. apply N1. apply in_map_iff. exists (k, v2). auto. }
  subst v2. f_equal. apply IH; [exact N2|exact E|]. intros k' v'. specialize (H k' v'). cbn [In] in H. split; intros C.
  - assert (D : (k, v) = (k', v') \/ In (k', v') t) by (apply H; auto). destruct D as [D|D]; [|exact D]. exfalso. apply N1. apply in_map_iff. exists (k', v'). split; [cbn; congruence|exact C].
  - assert (D : (k, v) = (k', v') \/ In (k', v') s) by (apply H; auto). destruct D as [D|D]; [|exact D]. exfalso. apply N1. rewrite E. apply in_map_iff. exists (k', v'). split; [cbn; congruence|exact C].
Qed.

Lemma assigned_iff {A} (l : list (str * A)) t : assigned l t <-> t = sdict_of l [].
Proof.
  unfold assigned. split.
  - intros [K H]. apply dict_ext.
    + rewrite K. apply firsts_nodup.
    + now rewrite sdict_of_keys.
    + intros k v. rewrite H. rewrite <- sdict_of_get. apply sdict_get_in, sdict_of_nodup.
  - intros ->. split; [apply sdict_of_keys|]. intros k v. rewrite <- sdict_of_get. symmetry. apply sdict_get_in, sdict_of_nodup.
Qed.

(** ** Data of structures *)

Lemma len_pos_nil {A} (l : list A) : (len l =? 0) = false <-> l <> [].
Proof. unfold len. destruct l; cbn; [split; [discriminate|congruence]|]. split; [discriminate|reflexivity]. Qed.

Lemma rd_stream_iff {A} (r : reader A) e data a : reads r e -> (forall a d, e a d -> d <> []) -> is_bytes data ->
  (rd_stream r data = Ok a <-> exists d rest, e a d /\ data = d ++ rest).
Proof.
  intros R E B. unfold rd_stream, guard. destruct (len data =? 0) eqn:L; cbn [negb bind].
  - split; [discriminate|]. intros (d & rest & H & ->). apply E in H. destruct d; [congruence|]. unfold len in L. cbn in L. lia.
  - apply rd_data_iff; assumption.
Qed.

Definition soft (x : exn) : Prop := x = ParseError \/ x = ValueError.

Lemma rd_stream_errors {A} (r : reader A) e data x : reads r e -> is_bytes data -> rd_stream r data = Err x -> soft x.
Proof.
  intros R B. unfold rd_stream, guard, soft. destruct (len data =? 0); cbn [negb bind]; [intros H; right; congruence|].
  intros H. left. exact (rd_data_errors _ _ _ _ R B H).
Qed.

Lemma rd_stream_size_iff {A} (r : reader A) e data a n : reads r e -> (forall a d, e a d -> d <> []) -> is_bytes data ->
  (rd_stream_size r data = Ok (a, n) <-> exists d rest, e a d /\ data = d ++ rest /\ n = len d).
Proof.
  intros R E B. unfold rd_stream_size, guard. destruct (len data =? 0) eqn:L; cbn [negb bind].
  - split; [discriminate|]. intros (d & rest & H & -> & _). apply E in H. destruct d; [congruence|]. unfold len in L. cbn in L. lia.
  - destruct (R data 0 B) as [R1 _]; [split; [lia|apply len_nonneg]|]. rewrite R1. split.
    + intros (d & H & (pre & post & S & Lp) & ->). destruct pre; [|unfold len in Lp; cbn in Lp; lia]. exists d, post. repeat split; auto.
    + intros (d & rest & H & S & ->). exists d. split; [exact H|]. split; [exists [], rest; auto|lia].
Qed.

Lemma rd_stream_size_errors {A} (r : reader A) e data x : reads r e -> is_bytes data -> rd_stream_size r data = Err x -> soft x.
Proof.
  intros R B. unfold rd_stream_size, guard, soft. destruct (len data =? 0); cbn [negb bind]; [intros H; right; congruence|].
  intros H. left. destruct (R data 0 B) as [_ R2]; [split; [lia|apply len_nonneg]|]. exact (R2 _ H).
Qed.

Lemma slice_from_nonneg (data : bytes) off : 0 <= off -> pyslice_from data off = zskipn off data.
Proof.
  intros H. unfold pyslice_from, slice_index. destruct (Z.ltb_spec off 0); [lia|]. destruct (Z.min_spec off (len data)) as [[A ->]|[A ->]]; [reflexivity|].
  rewrite !zskipn_all by lia. reflexivity.
Qed.

Lemma is_bytes_skip off d : is_bytes d -> is_bytes (zskipn off d).
Proof.
  unfold is_bytes. revert off. induction d as [|x d IH]; intros off H; [constructor|]. cbn [zskipn]. destruct (off <=? 0); [exact H|]. apply IH. now inversion H.
Qed.

Lemma stored_skip data off d : 0 <= off -> d <> [] -> (stored_at data off d <-> exists rest, zskipn off data = d ++ rest).
Proof.
  intros H N. destruct (Z.le_gt_cases off (len data)) as [L|L].
  - apply stored_at_from. lia.
  - split.
    + intros (pre & post & -> & Lp). rewrite !len_app in L. pose proof (len_nonneg d). pose proof (len_nonneg post). lia.
    + intros [rest E]. rewrite zskipn_all in E by lia. destruct d; [congruence|discriminate].
Qed.

Lemma at_iff {A} (r : reader A) e data off a : reads r e -> (forall a d, e a d -> d <> []) -> is_bytes data -> 0 <= off ->
  (rd_stream r (pyslice_from data off) = Ok a <-> exists d, e a d /\ stored_at data off d).
Proof.
  intros R E B H. rewrite slice_from_nonneg by exact H. rewrite (rd_stream_iff _ _ _ _ R E) by (apply is_bytes_skip; exact B). split.
  - intros (d & rest & X & Y). exists d. split; [exact X|]. apply stored_skip; eauto.
  - intros (d & X & Y). apply stored_skip in Y as [rest Y]; eauto.
Qed.

Lemma at_errors {A} (r : reader A) e data off x : reads r e -> is_bytes data -> 0 <= off -> rd_stream r (pyslice_from data off) = Err x -> soft x.
Proof. intros R B H. rewrite slice_from_nonneg by exact H. apply (rd_stream_errors r e); [exact R|]. apply is_bytes_skip. exact B. Qed.

(** ** Structures *)

Lemma reads_cim_string ansi : reads (rd_cim_string ansi) (cim_bytes ansi).
Proof.
  unfold rd_cim_string. eapply reads_iff; [eapply reads_bind; [apply reads_i8|intros ?; apply reads_cstring]|]. intros s d _. cbv beta. unfold cim_bytes. split.
  - intros (f & d1 & d2 & H1 & H2 & ->). apply fields_more; [exists f; exact H1|]. rewrite <- (app_nil_r d2). apply fields_more; [exact H2|]. now apply fields_nil.
  - intros H. f_out. match goal with H : any _ _ |- _ => destruct H as [f H] end. exists f. eexists _, _. split; [eassumption|]. split; [eassumption|]. now rewrite app_nil_r.
Qed.

Lemma i8_ne v d : i8 v d -> d <> [].
Proof. intros [_ ->]. discriminate. Qed.

Lemma le_enc_ne n v : (0 < n)%nat -> le_enc n v <> [].
Proof. intros H E. apply (f_equal len) in E. rewrite len_le_enc in E. unfold len in E at 1. cbn in E. lia. Qed.

Lemma i32_ne v d : i32 v d -> d <> [].
Proof. intros [_ ->]. apply le_enc_ne. lia. Qed.

Lemma fields_ne (P : bytes -> Prop) l d : (forall x, P x -> x <> []) -> fields (P :: l) d -> d <> [].
Proof. intros N H. apply fields_cons in H as (d1 & d2 & H & _ & ->). apply N in H. destruct d1; [congruence|discriminate]. Qed.

Lemma cim_ne ansi s d : cim_bytes ansi s d -> d <> [].
Proof. apply fields_ne. intros x [v H]. exact (i8_ne _ _ H). Qed.

Lemma cim_string_iff ansi off data s : is_bytes data -> 0 <= off -> (cim_string ansi off data = Ok s <-> cim_at ansi data off s).
Proof. intros B H. unfold cim_string, cim_at. apply at_iff; [apply reads_cim_string|intros a d; apply cim_ne|exact B|exact H]. Qed.

Lemma cim_string_errors ansi off data x : is_bytes data -> 0 <= off -> cim_string ansi off data = Err x -> soft x.
Proof. intros B H. unfold cim_string. apply (at_errors _ _ _ _ _ (reads_cim_string ansi)); assumption. Qed.

(** Names. *)

Lemma known_get i s : dict_get i predefined_names = Some s <-> known_name i s.
Proof.
  unfold known_name, predefined_names. cbn [dict_get]. split.
  - repeat match goal with |- context [?a =? i] => destruct (Z.eqb_spec a i); [subst i; intros H; injection H as <-; repeat (first [left; reflexivity|right])|] end. discriminate.
  - intros H. repeat (destruct H as [H|H]; [injection H as <- <-; reflexivity|]). destruct H.
Qed.

Lemma predefined_iff i s : (match dict_get i predefined_names with Some s => s | None => s2z "UNKNOWN_"%string ++ fmt_d i end) = s <-> predefined i s.
Proof.
  destruct (dict_get i predefined_names) as [t|] eqn:E.
  - split.
    + intros ->. apply pn_known. now apply known_get.
    + intros [u H|H]; [apply known_get in H; congruence|]. exfalso. exact (H t (proj1 (known_get _ _) E)).
  - split.
    + intros <-. apply pn_unknown. intros u H. apply known_get in H. congruence.
    + intros [u H|H]; [apply known_get in H; congruence|reflexivity].
Qed.

Lemma msb_land n : n32 n -> (Z.land n 0x80000000 =? 0) = (n <? 2 ^ 31) /\ Z.land n 0x7fffffff = n mod 2 ^ 31.
Proof.
  intros H. unfold n32 in H. split.
  - change 0x80000000 with (2 ^ 31). destruct (Z.ltb_spec n (2 ^ 31)).
    + apply Z.eqb_eq. apply Z.bits_inj'. intros i Hi. rewrite Z.land_spec, Z.bits_0, Z.pow2_bits_eqb by lia. destruct (Z.eqb_spec 31 i) as [<-|]; [|apply andb_false_r].
      rewrite andb_true_r. destruct (Z.eq_dec n 0) as [->|]; [apply Z.bits_0|]. apply Z.bits_above_log2; [lia|]. apply Z.log2_lt_pow2; lia.
    + apply Z.eqb_neq. intros E. apply (f_equal (fun z => Z.testbit z 31)) in E. rewrite Z.land_spec, Z.bits_0, Z.pow2_bits_true, andb_true_r in E by lia.
      assert (Z.log2 n = 31) as L by (apply Z.log2_unique; lia). rewrite <- L in E. rewrite Z.bit_log2 in E by lia. discriminate.
  - change 0x7fffffff with (Z.ones 31). apply Z.land_ones. lia.
Qed.

Lemma name_at_iff ansi n values s : is_bytes values -> n32 n -> (name_at ansi n values = Ok s <-> named ansi values n s).
Proof.
  intros B H. unfold name_at. destruct (msb_land n H) as [-> ->]. unfold n32 in H. destruct (Z.ltb_spec n (2 ^ 31)); cbn [negb].
  - rewrite cim_string_iff by (assumption || lia). split; [intros C; now apply nd_string|]. intros N. inversion N; subst; [assumption|lia].
  - assert (E : n mod 2 ^ 31 = n - 2 ^ 31) by lia. rewrite E. transitivity (predefined (n - 2 ^ 31) s).
    + rewrite <- predefined_iff. split; [intros X; congruence|intros ->; reflexivity].
    + split.
      * intros P. replace n with (2 ^ 31 + (n - 2 ^ 31)) by lia. apply nd_predefined; [lia|exact P].
      * intros N. inversion N as [off t Ho C|i t Hi P]; subst; [lia|]. now replace (2 ^ 31 + i - 2 ^ 31) with i by lia.
Qed.

Lemma name_at_errors ansi n values x : is_bytes values -> n32 n -> name_at ansi n values = Err x -> soft x.
Proof.
  intros B H. unfold name_at. destruct (msb_land n H) as [-> _]. unfold n32 in H. destruct (Z.ltb_spec n (2 ^ 31)); cbn [negb]; [|discriminate].
  apply cim_string_errors; [exact B|lia].
Qed.

(** Qualifier descriptors. *)

Lemma reads_sint n : (0 < n)%nat -> reads (rd_int (FS LE n)) (sint n).
Proof.
  intros Hn. eapply reads_iff; [apply reads_int; cbn; lia|]. intros v d _. unfold sint. cbn [fval_ok enc_field enc_int].
  assert (E : 256 ^ Z.of_nat n = 2 ^ (8 * Z.of_nat n)) by (change 256 with (2 ^ 8); rewrite <- Z.pow_mul_r by lia; reflexivity). rewrite E. split.
  - intros [[_ H] ->]. split; [exact H|]. reflexivity.
  - intros [H ->]. split; [split; [exact Hn|exact H]|]. reflexivity.
Qed.

Lemma reads_rint k e : reads (rd_int k) e -> reads (rd_rint k) (fun r d => exists z, r = RInt z /\ e z d).
Proof.
  intros R. unfold rd_rint. eapply reads_iff; [eapply reads_bind; [exact R|intros; apply reads_ret]|]. intros r d _. cbv beta. split.
  - intros (z & d1 & d2 & H & [-> ->] & ->). rewrite app_nil_r. eauto.
  - intros (z & -> & H). exists z, d, []. rewrite app_nil_r. auto.
Qed.

Lemma reads_rfloat n : reads (rd_rfloat n) (fun r d => r = RFloat d /\ len d = n).
Proof.
  unfold rd_rfloat. eapply reads_iff; [eapply reads_bind; [apply reads_bytes|intros; apply reads_ret]|]. intros r d _. cbv beta. split.
  - intros (z & d1 & d2 & [H ->] & [-> ->] & ->). rewrite app_nil_r. auto.
  - intros (-> & H). exists d, d, []. rewrite app_nil_r. auto.
Qed.

Definition bool_bytes (b : bool) (d : bytes) : Prop := d = if b then [255; 255] else [0; 0].

Lemma reads_bool16 : reads rd_bool16 bool_bytes.
Proof.
  unfold rd_bool16. eapply reads_iff; [eapply reads_bind; [apply reads_i16|intros; apply reads_some]|]. intros b d _. cbv beta. unfold bool_bytes, bool16. split.
  - intros (z & d1 & d2 & [H ->] & [E ->] & ->). rewrite app_nil_r. destruct (Z.eqb_spec z 0); [injection E as <-; subst; reflexivity|]. destruct (Z.eqb_spec z 65535); [|discriminate]. injection E as <-. subst. reflexivity.
  - intros ->. destruct b.
    + exists 65535, [255; 255], []. split; [split; [unfold n16; lia|reflexivity]|]. split; [split; reflexivity|reflexivity].
    + exists 0, [0; 0], []. split; [split; [unfold n16; lia|reflexivity]|]. split; [split; reflexivity|reflexivity].
Qed.

Lemma reads_rbool : reads (rd b <- rd_bool16; rd_ret (RBool b)) (fun r d => exists b, r = RBool b /\ bool_bytes b d).
Proof.
  eapply reads_iff; [eapply reads_bind; [apply reads_bool16|intros; apply reads_ret]|]. intros r d _. cbv beta. split.
  - intros (z & d1 & d2 & H & [-> ->] & ->). rewrite app_nil_r. eauto.
  - intros (z & -> & H). exists z, d, []. rewrite app_nil_r. auto.
Qed.

Lemma existsb_z x l : existsb (Z.eqb x) l = true <-> In x l.
Proof.
  rewrite existsb_exists. split; [intros (y & H & E); apply Z.eqb_eq in E; now subst|]. intros H. exists x. split; [exact H|apply Z.eqb_refl].
Qed.

Lemma reads_roffset type : reads (rd x <- rd_guard (existsb (Z.eqb type) offset_types); rd z <- rd_int (FU LE 4); rd_ret (ROffset z))
  (fun r d => In type offset_types /\ exists z, r = ROffset z /\ i32 z d).
Proof.
  eapply reads_iff; [eapply reads_bind; [apply reads_guard|intros; eapply reads_bind; [apply reads_i32|intros; apply reads_ret]]|]. intros r d _. cbv beta. split.
  - intros (u & d1 & d2 & [H ->] & (z & d3 & d4 & H2 & [-> ->] & ->) & ->). rewrite app_nil_r. cbn [app]. split; [now apply existsb_z|eauto].
  - intros [H (z & -> & H2)]. exists tt, [], d. split; [split; [now apply existsb_z|reflexivity]|]. split; [|reflexivity]. exists z, d, []. rewrite app_nil_r. auto.
Qed.

Ltac raw_case := match goal with
  | |- _ <-> raw_bytes _ _ _ => split; [intros (z & -> & H); constructor; exact H|intros H; inversion H; subst; [eexists; split; [reflexivity|assumption]|exfalso; cbn in *; lia]]
  end.

Lemma reads_raw type : reads (rd_raw type) (fun r d => raw_bytes type r d).
Proof.
  unfold rd_raw.
  destruct (Z.eqb_spec type 0x2) as [->|N1]; [eapply reads_iff; [apply reads_rint, reads_sint; lia|intros r d _; raw_case]|].
  destruct (Z.eqb_spec type 0x3) as [->|N2]; [eapply reads_iff; [apply reads_rint, reads_sint; lia|intros r d _; raw_case]|].
  destruct (Z.eqb_spec type 0x4) as [->|N3]; [eapply reads_iff; [apply reads_rfloat|intros r d _; cbv beta]|].
  { split; [intros [-> H]; constructor; exact H|intros H; inversion H; subst; [auto|exfalso; cbn in *; lia]]. }
  destruct (Z.eqb_spec type 0x5) as [->|N4]; [eapply reads_iff; [apply reads_rfloat|intros r d _; cbv beta]|].
  { split; [intros [-> H]; constructor; exact H|intros H; inversion H; subst; [auto|exfalso; cbn in *; lia]]. }
  destruct (Z.eqb_spec type 0xb) as [->|N5]; [eapply reads_iff; [apply reads_rbool|intros r d _; cbv beta]|].
  { unfold bool_bytes. split; [intros (b & -> & ->); destruct b; constructor|]. intros H; inversion H; subst; [exists false; auto|exists true; auto|exfalso; cbn in *; lia]. }
  destruct (Z.eqb_spec type 0x10) as [->|N6]; [eapply reads_iff; [apply reads_rint, reads_sint; lia|intros r d _; raw_case]|].
  destruct (Z.eqb_spec type 0x11) as [->|N7]; [eapply reads_iff; [apply reads_rint, reads_i8|intros r d _; raw_case]|].
  destruct (Z.eqb_spec type 0x12) as [->|N8]; [eapply reads_iff; [apply reads_rint, reads_i16|intros r d _; raw_case]|].
  destruct (Z.eqb_spec type 0x13) as [->|N9]; [eapply reads_iff; [apply reads_rint, reads_i32|intros r d _; raw_case]|].
  destruct (Z.eqb_spec type 0x14) as [->|N10]; [eapply reads_iff; [apply reads_rint, reads_sint; lia|intros r d _; raw_case]|].
  destruct (Z.eqb_spec type 0x15) as [->|N11]; [eapply reads_iff; [apply reads_rint, reads_i64|intros r d _; raw_case]|].
  eapply reads_iff; [apply reads_roffset|intros r d _; cbv beta]. split.
  - intros [H (z & -> & H2)]. apply rb_offset; [|exact H2]. unfold offset_types in H. destruct H as [H|H]; [left; congruence|right; exact H].
  - intros H. inversion H; subst; try congruence. split; [|eauto]. unfold offset_types. match goal with H : _ \/ _ |- _ => destruct H as [->|H]; [left; reflexivity|right; exact H] end.
Qed.

Lemma reads_qdesc : reads rd_qdesc qdesc_bytes.
Proof.
  unfold rd_qdesc. eapply reads_iff; [fh_reads ltac:(apply reads_raw)|]. intros q d _. cbv beta. unfold qdesc_bytes. split.
  - intros (a1 & ? & ? & H1 & (a2 & ? & ? & H2 & (a3 & ? & ? & H3 & (a4 & ? & ? & H4 & [-> ->] & ->) & ->) & ->) & ->). cbn [qd_name qd_type qd_raw]. f_in.
  - destruct q as [n t r]. cbn [qd_name qd_type qd_raw]. intros H. f_out. match goal with H : any _ _ |- _ => destruct H as [? H] end. r_in. split; reflexivity.
Qed.

Lemma qdesc_ne q d : qdesc_bytes q d -> d <> [].
Proof. apply fields_ne. intros x. apply i32_ne. Qed.

(** ** Qualifiers *)

Lemma qualifier_value_iff ansi values q d v : is_bytes values -> qdesc_bytes q d ->
  (qualifier_value ansi values q = Ok v <-> value_of ansi values (qd_type q) (qd_raw q) v).
Proof.
  intros B H. unfold qdesc_bytes in H. f_out. match goal with H : raw_bytes _ _ _ |- _ => rename H into R end. unfold qualifier_value. destruct q as [n t r]. cbn [qd_name qd_type qd_raw] in *.
  destruct R; cbn [Z.eqb Pos.eqb existsb orb bind];
    try solve [split; [intros E; injection E as <-; constructor; discriminate|intros E; inversion E; subst; try congruence; reflexivity]].
  match goal with H : i32 v0 _ |- _ => destruct H as [Hv _]; unfold n32 in Hv end.
  match goal with H : _ \/ _ |- _ => destruct H as [->|Ht] end.
  - cbn [Z.eqb Pos.eqb existsb orb]. pose proof (fun s => cim_string_iff ansi v0 values s B (proj1 Hv)) as C. destruct (cim_string ansi v0 values) as [s|ex] eqn:E; cbn [bind].
    + split; [intros X; injection X as <-; apply vo_string, C; reflexivity|]. intros X. inversion X; subst; [|congruence]. f_equal. f_equal. match goal with Q : cim_at _ _ _ _ |- _ => apply C in Q end. congruence.
    + split; [discriminate|]. intros X. inversion X; subst; [|congruence]. match goal with Q : cim_at _ _ _ _ |- _ => apply C in Q end. discriminate.
  - cbn [In] in Ht. repeat (destruct Ht as [<-|Ht]; [cbn [Z.eqb Pos.eqb existsb orb]; split; [intros E; injection E as <-; constructor; lia|intros E; inversion E; subst; reflexivity]|]). destruct Ht.
Qed.

Lemma qualifier_value_errors ansi values q d x : is_bytes values -> qdesc_bytes q d -> qualifier_value ansi values q = Err x -> soft x.
Proof.
  intros B H. unfold qdesc_bytes in H. f_out. match goal with H : raw_bytes _ _ _ |- _ => rename H into R end. unfold qualifier_value. destruct q as [n t r]. cbn [qd_name qd_type qd_raw] in *.
  destruct R; cbn [Z.eqb Pos.eqb existsb orb bind]; try discriminate.
  match goal with H : i32 v _ |- _ => destruct H as [Hv _]; unfold n32 in Hv end.
  match goal with H : _ \/ _ |- _ => destruct H as [->|Ht] end.
  - cbn [Z.eqb Pos.eqb existsb orb]. destruct (cim_string ansi v values) eqn:E; cbn [bind]; [discriminate|]. intros X. injection X as <-. eapply cim_string_errors; [exact B| |exact E]. lia.
  - cbn [In] in Ht. repeat (destruct Ht as [<-|Ht]; [cbn [Z.eqb Pos.eqb existsb orb]; discriminate|]). destruct Ht.
Qed.

Lemma app_eq_len {A} (a b c d : list A) : length a = length c -> a ++ b = c ++ d -> a = c /\ b = d.
Proof.
  revert c. induction a as [|x a IH]; intros [|y c] L E; try discriminate; [auto|]. cbn in *. injection L as L. injection E as <- E. destruct (IH _ L E) as [-> ->]. auto.
Qed.

Lemma skip_more (data : bytes) off d rest : 0 <= off -> zskipn off data = d ++ rest -> zskipn (off + len d) data = rest.
Proof.
  intros H E. replace (off + len d) with (off + len d) by lia. rewrite <- (zskipn_zskipn data off (len d)) by (pose proof (len_nonneg d); lia). rewrite E. apply zskipn_app_len. reflexivity.
Qed.

Lemma skip_len (data : bytes) off : 0 <= off <= len data -> len (zskipn off data) = len data - off.
Proof. intros H. rewrite zskipn_skipn. unfold len in *. rewrite skipn_length. lia. Qed.

Lemma loop_iff ansi lower values data fuel off t t2 : is_bytes values -> is_bytes data -> 0 <= off <= len data -> len data - off <= Z.of_nat fuel ->
  (qualifiers_loop ansi lower values data fuel off t = Ok t2 <->
   exists qs ds l, Forall2 qdesc_bytes qs ds /\ zskipn off data = concat ds /\ Forall2 (qualifier_of ansi lower values) qs l /\ t2 = sdict_of l t).
Proof.
  intros Bv Bd. revert off t. induction fuel as [|fuel IH]; intros off t Ho Hf; cbn [qualifiers_loop].
  - destruct (Z.ltb_spec off (len data)); [lia|]. rewrite zskipn_all by lia. split.
    + intros E. injection E as <-. exists [], [], []. repeat split; constructor.
    + intros (qs & ds & l & F & E & G & ->). destruct F as [|q d qs ds Q F].
      * inversion G; subst. reflexivity.
      * exfalso. apply qdesc_ne in Q. destruct d; [congruence|discriminate].
  - destruct (Z.ltb_spec off (len data)).
    2:{ rewrite zskipn_all by lia. split.
        + intros E. injection E as <-. exists [], [], []. repeat split; constructor.
        + intros (qs & ds & l & F & E & G & ->). destruct F as [|q d qs ds Q F].
          * inversion G; subst. reflexivity.
          * exfalso. apply qdesc_ne in Q. destruct d; [congruence|discriminate]. }
    rewrite slice_from_nonneg by lia. assert (Bs : is_bytes (zskipn off data)) by (apply is_bytes_skip; exact Bd).
    pose proof (fun q n => rd_stream_size_iff rd_qdesc _ (zskipn off data) q n reads_qdesc (fun a d => qdesc_ne a d) Bs) as R.
    destruct (rd_stream_size rd_qdesc (zskipn off data)) as [[q n]|x] eqn:E; cbn [bind].
    + assert (X := proj1 (R q n) eq_refl). destruct X as (d & rest & Q & S & ->).
      assert (Nq : n32 (qd_name q)) by (unfold qdesc_bytes in Q; apply fields_cons in Q as (? & ? & [Hq _] & _); exact Hq).
      assert (U : forall qs ds, Forall2 qdesc_bytes qs ds -> zskipn off data = concat ds -> exists qs2 ds2, qs = q :: qs2 /\ ds = d :: ds2 /\ rest = concat ds2).
      { intros qs ds F C. destruct F as [|q2 d2 qs ds Q2 F].
        - apply (f_equal len) in C. rewrite skip_len in C by lia. change (len (concat [])) with 0 in C. lia.
        - cbn [concat] in C. assert (E2 : Ok (q, len d) = Ok (q2, len d2)) by (apply R; exists d2, (concat ds); auto).
          injection E2 as <- L. rewrite S in C. apply app_eq_len in C; [|unfold len in L; lia]. destruct C as [-> ->]. eauto. }
      pose proof (fun s => name_at_iff ansi (qd_name q) values s Bv Nq) as RN. pose proof (fun v => qualifier_value_iff ansi values q d v Bv Q) as RV.
      destruct (name_at ansi (qd_name q) values) as [name|x] eqn:EN; cbn [bind].
      2:{ split; [discriminate|]. intros (qs & ds & l & F & C & G & ->). destruct (U _ _ F C) as (qs2 & ds2 & -> & -> & _). inversion G as [|? kv ? l2 [[name [Hn _]] _] G2]; subst. apply RN in Hn. discriminate. }
      destruct (qualifier_value ansi values q) as [v|x] eqn:EV; cbn [bind].
      2:{ split; [discriminate|]. intros (qs & ds & l & F & C & G & ->). destruct (U _ _ F C) as (qs2 & ds2 & -> & -> & _). inversion G as [|? kv ? l2 [_ Hv] G2]; subst. apply RV in Hv. discriminate. }
      assert (Hd : 0 < len d) by (apply qdesc_ne in Q; destruct d; [congruence|unfold len; cbn; lia]).
      assert (Hl : off + len d <= len data). { apply (f_equal len) in S. rewrite skip_len, len_app in S by lia. pose proof (len_nonneg rest). lia. }
      rewrite IH by lia. rewrite (skip_more _ _ _ _ (proj1 Ho) S). split.
      * intros (qs & ds & l & F & C & G & ->). exists (q :: qs), (d :: ds), ((lower name, v) :: l). split; [constructor; assumption|]. split; [cbn; congruence|]. split; [|reflexivity].
        constructor; [|exact G]. split; [exists name; split; [now apply RN|reflexivity]|now apply RV].
      * intros (qs & ds & l & F & C & G & ->). destruct (U _ _ F C) as (qs2 & ds2 & -> & -> & C2). inversion F; subst. inversion G as [|? [k v2] ? l2 [[name2 [Hn Hk]] Hv] G2]; subst. cbn [fst snd] in *.
        exists qs2, ds2, l2. split; [assumption|]. split; [reflexivity|]. split; [exact G2|]. apply RN in Hn. apply RV in Hv. unfold sdict_of. cbn [fold_left fst snd]. congruence.
    + split; [discriminate|]. intros (qs & ds & l & F & C & G & ->). destruct F as [|q2 d2 qs ds Q2 F].
      * apply (f_equal len) in C. rewrite skip_len in C by lia. change (len (concat [])) with 0 in C. lia.
      * assert (X : Err x = Ok (q2, len d2)) by (apply R; exists d2, (concat ds); auto). discriminate.
Qed.

Lemma loop_errors ansi lower values data fuel off t x : is_bytes values -> is_bytes data -> 0 <= off <= len data -> len data - off <= Z.of_nat fuel ->
  qualifiers_loop ansi lower values data fuel off t = Err x -> soft x.
Proof.
  intros Bv Bd. revert off t. induction fuel as [|fuel IH]; intros off t Ho Hf; cbn [qualifiers_loop].
  - destruct (Z.ltb_spec off (len data)); [lia|discriminate].
  - destruct (Z.ltb_spec off (len data)); [|discriminate].
    rewrite slice_from_nonneg by lia. assert (Bs : is_bytes (zskipn off data)) by (apply is_bytes_skip; exact Bd).
    pose proof (fun q n => rd_stream_size_iff rd_qdesc _ (zskipn off data) q n reads_qdesc (fun a d => qdesc_ne a d) Bs) as R.
    destruct (rd_stream_size rd_qdesc (zskipn off data)) as [[q n]|y] eqn:E; cbn [bind].
    2:{ intros X. injection X as <-. exact (rd_stream_size_errors _ _ _ _ reads_qdesc Bs E). }
    assert (X := proj1 (R q n) eq_refl). destruct X as (d & rest & Q & S & ->).
    assert (Nq : n32 (qd_name q)) by (unfold qdesc_bytes in Q; apply fields_cons in Q as (? & ? & [Hq _] & _); exact Hq).
    destruct (name_at ansi (qd_name q) values) as [name|y] eqn:EN; cbn [bind]. 2:{ intros X. injection X as <-. eapply name_at_errors; [exact Bv|exact Nq|exact EN]. }
    destruct (qualifier_value ansi values q) as [v|y] eqn:EV; cbn [bind]. 2:{ intros X. injection X as <-. eapply qualifier_value_errors; [exact Bv|exact Q|exact EV]. }
    assert (Hd : 0 < len d) by (apply qdesc_ne in Q; destruct d; [congruence|unfold len; cbn; lia]).
    assert (Hl : off + len d <= len data). { apply (f_equal len) in S. rewrite skip_len, len_app in S by lia. pose proof (len_nonneg rest). lia. }
    apply IH; lia.
Qed.

Lemma qualifiers_iff ansi lower values data t : is_bytes values -> is_bytes data -> (qualifiers ansi lower values data = Ok t <-> qualifiers_of ansi lower values data t).
Proof.
  intros Bv Bd. unfold qualifiers, qualifiers_of. rewrite loop_iff; [|exact Bv|exact Bd|pose proof (len_nonneg data); lia|unfold len; lia]. rewrite zskipn_0 by lia.
  split; intros (qs & ds & l & F & E & G & H); exists qs, ds, l; (split; [exact F|split; [exact E|split; [exact G|]]]); now apply assigned_iff.
Qed.

Lemma qualifiers_errors ansi lower values data x : is_bytes values -> is_bytes data -> qualifiers ansi lower values data = Err x -> soft x.
Proof. intros Bv Bd. unfold qualifiers. apply loop_errors; [exact Bv|exact Bd|pose proof (len_nonneg data); lia|unfold len; lia]. Qed.

(** ** Properties *)

Lemma reads_pdef : reads rd_pdef pdef_bytes.
Proof.
  unfold rd_pdef. eapply reads_iff; [fh_reads fail|]. intros p d _. cbv beta. unfold pdef_bytes. split.
  - intros (a1 & ? & ? & H1 & (a2 & ? & ? & H2 & (a3 & ? & ? & H3 & (a4 & ? & ? & H4 & (a5 & ? & ? & H5 & (a6 & ? & ? & [H6 ->] & [-> ->] & ->) & ->) & ->) & ->) & ->) & ->).
    cbn [pd_type pd_index pd_offset pd_quals]. replace (len a6 + 4) with a5 by lia. assert (H7 := eq_refl a6). f_in.
  - destruct p as [t i o q]. cbn [pd_type pd_index pd_offset pd_quals]. intros H. f_out. subst. match goal with H : any _ _ |- _ => destruct H as [? H] end.
    do 5 (do 3 eexists; split; [|split; [|reflexivity]]; [eassumption|]). eexists _, _, []. split; [|split; [split; reflexivity|reflexivity]]. split; [lia|reflexivity].
Qed.

Lemma pdef_ne p d : pdef_bytes p d -> d <> [].
Proof. apply fields_ne. intros x. apply i32_ne. Qed.

Lemma stored_bytes data off d : is_bytes data -> stored_at data off d -> is_bytes d.
Proof. intros B (pre & post & -> & _). apply Forall_app in B as [_ B]. now apply Forall_app in B as [B _]. Qed.

Lemma pdef_quals_bytes p d : pdef_bytes p d -> is_bytes d -> is_bytes (pd_quals p).
Proof. intros H B. unfold pdef_bytes in H. f_out. subst. do 5 (apply Forall_app in B as [_ B]). apply Forall_app in B as [B _]. exact B. Qed.

Definition desc_ok (x : Z * Z) : Prop := n32 (fst x) /\ n32 (snd x).

Lemma properties_iff ansi lower values l t t2 : is_bytes values -> Forall desc_ok l ->
  (properties ansi lower values l t = Ok t2 <->
   exists ps, Forall2 (property_of ansi lower values) l ps /\ t2 = sdict_of (map (fun p => (p_name p, p)) ps) t).
Proof.
  intros Bv D. revert t. induction D as [|[n o] l [Dn Do] D IH]; intros t; cbn [properties].
  - split; [intros E; injection E as <-; exists []; split; [constructor|reflexivity]|]. intros (ps & F & ->). inversion F; subst. reflexivity.
  - cbn [fst snd] in *. unfold n32 in Do. pose proof (fun s => name_at_iff ansi n values s Bv Dn) as RN. destruct (name_at ansi n values) as [name|x] eqn:EN; cbn [bind].
    2:{ split; [discriminate|]. intros (ps & F & ->). inversion F as [|? p ? ps2 [Hn _] F2]; subst. apply RN in Hn. discriminate. }
    pose proof (fun p => at_iff rd_pdef _ values o p reads_pdef (fun a d => pdef_ne a d) Bv (proj1 Do)) as RP.
    destruct (rd_stream rd_pdef (pyslice_from values o)) as [p|x] eqn:EP; cbn [bind].
    2:{ split; [discriminate|]. intros (ps & F & ->). inversion F as [|? p ? ps2 [_ (q & d & Hp & S & _)] F2]; subst. assert (X : Err x = Ok (mkpd (p_type p) (p_index p) (p_offset p) q)) by (apply RP; eauto). discriminate. }
    assert (X := proj1 (RP p) eq_refl). destruct X as (d & Hp & S). assert (Bq : is_bytes (pd_quals p)) by (eapply pdef_quals_bytes; [exact Hp|eapply stored_bytes; eauto]).
    pose proof (fun t => qualifiers_iff ansi lower values (pd_quals p) t Bv Bq) as RQ.
    assert (U : forall y, property_of ansi lower values (n, o) y -> qualifiers ansi lower values (pd_quals p) = Ok (p_quals y) /\ p_name y = name /\ p_index y = pd_index p /\ p_offset y = pd_offset p /\ p_type y = pd_type p).
    { intros y [Hn (q & d2 & Hp2 & S2 & Hq)]. cbn [fst snd] in *. assert (X : Ok p = Ok (mkpd (p_type y) (p_index y) (p_offset y) q)) by (apply RP; eauto). injection X as ->. cbn [pd_quals pd_index pd_offset pd_type] in *.
      apply RN in Hn. apply RQ in Hq. split; [exact Hq|]. split; [congruence|auto]. }
    destruct (qualifiers ansi lower values (pd_quals p)) as [quals|x] eqn:EQ; cbn [bind].
    2:{ split; [discriminate|]. intros (ps & F & ->). inversion F as [|? y ? ps2 Hy F2]; subst. apply U in Hy as [Hy _]. discriminate. }
    rewrite IH. split.
    + intros (ps & F & ->). exists (mkprop name (pd_index p) (pd_offset p) (pd_type p) quals :: ps). split; [|reflexivity]. constructor; [|exact F].
      split; [cbn; now apply RN|]. cbn [p_name p_index p_offset p_type p_quals]. exists (pd_quals p), d. destruct p as [a b c e]. cbn [pd_quals pd_index pd_offset pd_type fst snd] in *. split; [exact Hp|]. split; [exact S|]. now apply RQ.
    + intros (ps & F & ->). inversion F as [|? y ? ps2 Hy F2]; subst. exists ps2. split; [exact F2|]. apply U in Hy as (A1 & A2 & A3 & A4 & A5). unfold sdict_of. cbn [map fold_left fst snd].
      destruct y as [a b c e f]. cbn [p_name p_index p_offset p_type p_quals] in *. subst. injection A1 as <-. reflexivity.
Qed.

Lemma properties_errors ansi lower values l t x : is_bytes values -> Forall desc_ok l -> properties ansi lower values l t = Err x -> soft x.
Proof.
  intros Bv D. revert t. induction D as [|[n o] l [Dn Do] D IH]; intros t; cbn [properties]; [discriminate|]. cbn [fst snd] in *. unfold n32 in Do.
  destruct (name_at ansi n values) as [name|y] eqn:EN; cbn [bind]. 2:{ intros X. injection X as <-. eapply name_at_errors; [exact Bv|exact Dn|exact EN]. }
  pose proof (fun p => at_iff rd_pdef _ values o p reads_pdef (fun a d => pdef_ne a d) Bv (proj1 Do)) as RP.
  destruct (rd_stream rd_pdef (pyslice_from values o)) as [p|y] eqn:EP; cbn [bind]. 2:{ intros X. injection X as <-. eapply at_errors; [exact reads_pdef|exact Bv|exact (proj1 Do)|exact EP]. }
  assert (X := proj1 (RP p) eq_refl). destruct X as (d & Hp & S). assert (Bq : is_bytes (pd_quals p)) by (eapply pdef_quals_bytes; [exact Hp|eapply stored_bytes; eauto]).
  destruct (qualifiers ansi lower values (pd_quals p)) as [quals|y] eqn:EQ; cbn [bind]. 2:{ intros X. injection X as <-. eapply qualifiers_errors; [exact Bv|exact Bq|exact EQ]. }
  apply IH.
Qed.

(** ** Class definition blocks *)

Lemma reads_pdesc : reads rd_pdesc pdesc_bytes.
Proof.
  unfold rd_pdesc. eapply reads_iff; [fh_reads fail|]. intros [o n] d _. cbv beta. unfold pdesc_bytes. cbn [fst snd]. split.
  - intros (a1 & ? & ? & H1 & (a2 & ? & ? & H2 & [E ->] & ->) & ->). assert (o = a1 /\ n = a2) as [-> ->] by (split; congruence). f_in.
  - intros H. f_out. r_in. split; reflexivity.
Qed.

Lemma reads_cblock : reads rd_cblock cblock_bytes.
Proof.
  unfold rd_cblock. eapply reads_iff; [fh_reads ltac:(apply reads_pdesc)|]. intros b d _. cbv beta. unfold cblock_bytes.
  assert (Em : forall v, Z.land v 0x7ffffff = v mod 2 ^ 27) by (intros v; change 0x7ffffff with (Z.ones 27); apply Z.land_ones; lia). split.
  - intros (a1 & ? & ? & H1 & (a2 & ? & ? & H2 & (a3 & ? & ? & H3 & (a4 & ? & ? & H4 & (a5 & ? & ? & [H5 ->] & (a6 & ? & ? & H6 & (a7 & ? & ? & [H7 ->] & (a8 & ? & ? & H8 & (a9 & ? & ? & [H9 G9] &
      (a10 & ? & ? & [H10 ->] & (a11 & ? & ? & H11 & (a12 & ? & ? & [H12 ->] & [-> ->] & ->) & ->) & ->) & ->) & ->) & ->) & ->) & ->) & ->) & ->) & ->) & ->).
    cbn [cb_name cb_super cb_quals cb_descs cb_values]. rewrite count_len in H9 by (destruct H8 as [H8 _]; unfold n32 in H8; lia). subst a8.
    rewrite Em in H12. exists a10. subst a3. replace (len a5 + 4) with a4 by lia. replace (len a7 + 4) with a6 by lia.
    assert (Q5 := eq_refl a5). assert (Q7 := eq_refl a7). assert (Q10 := eq_refl a10). assert (Q12 := eq_refl a12).
    do 8 (apply fields_more; [first [eassumption | eexists; eassumption]|]). apply fields_more; [exact G9|]. apply fields_more; [exact Q10|]. apply fields_more; [exists a11; auto|]. apply fields_more; [exact Q12|]. now apply fields_nil.
  - destruct b as [n s q ps vs]. cbn [cb_name cb_super cb_quals cb_descs cb_values]. intros [def H]. f_out. subst. match goal with H : any _ _ |- _ => destruct H as [? H] end.
    match goal with H : exists v, i32 v _ /\ _ |- _ => destruct H as (vsize & Hv & Lv) end.
    do 4 (do 3 eexists; split; [|split; [|reflexivity]]; [eassumption|]). do 3 eexists. split; [|split; [|reflexivity]]; [split; [|reflexivity]; lia|].
    do 3 eexists. split; [|split; [|reflexivity]]; [eassumption|]. do 3 eexists. split; [|split; [|reflexivity]]; [split; [|reflexivity]; lia|].
    do 3 eexists. split; [|split; [|reflexivity]]; [eassumption|]. do 3 eexists. split; [|split; [|reflexivity]]; [split; [|eassumption]; unfold len; lia|].
    do 3 eexists. split; [|split; [|reflexivity]]; [split; reflexivity|]. do 3 eexists. split; [|split; [|reflexivity]]; [eassumption|].
    eexists _, _, []. split; [|split; [split; reflexivity|reflexivity]]. split; [rewrite Em; auto|reflexivity].
Qed.

Lemma cblock_ne b d : cblock_bytes b d -> d <> [].
Proof. intros [def H]. revert H. apply fields_ne. intros x [v H]. exact (i8_ne _ _ H). Qed.

Lemma cblock_parts b d : cblock_bytes b d -> is_bytes d ->
  is_bytes (cb_super b) /\ is_bytes (cb_quals b) /\ is_bytes (cb_values b) /\ n32 (cb_name b) /\ Forall desc_ok (cb_descs b).
Proof.
  intros [def H] B. f_out. subst. match goal with H : exists ds, Forall2 _ _ ds /\ _ |- _ => destruct H as (ds & F & E) end.
  unfold is_bytes in *. repeat match goal with H : Forall is_byte (_ ++ _) |- _ => apply Forall_app in H as [? H] end.
  repeat match goal with H : i32 _ _ |- _ => destruct H as [H _] end.
  split; [assumption|]. split; [assumption|]. split; [assumption|]. split; [assumption|].
  clear - F. induction F as [|px dx lx dsx H F IH]; [constructor|]. constructor; [|exact IH]. unfold pdesc_bytes in H. f_out. repeat match goal with H : i32 _ _ |- _ => destruct H as [H _] end. split; assumption.
Qed.

Lemma qualifiers_nil ansi lower values t : qualifiers_of ansi lower values [] t <-> t = [].
Proof.
  unfold qualifiers_of. split.
  - intros (qs & ds & l & F & E & G & H). destruct F as [|q d qs ds Q F]; [inversion G; subst; apply assigned_iff in H; exact H|]. exfalso. apply qdesc_ne in Q. destruct d; [congruence|discriminate].
  - intros ->. exists [], [], []. repeat split; try constructor; intros H; [destruct H|]. destruct H as (a & b & H & _). destruct a; discriminate.
Qed.

Lemma class_block_iff ansi lower data c : is_bytes data -> (class_block ansi lower data = Ok c <-> class_of ansi lower data c).
Proof.
  intros B. unfold class_block, class_of. pose proof (fun b => rd_stream_iff rd_cblock _ data b reads_cblock (fun a d => cblock_ne a d) B) as RB.
  destruct (rd_stream rd_cblock data) as [b|x] eqn:EB; cbn [bind].
  2:{ split; [discriminate|]. intros (b & d & rest & ps & Hb & E & _). assert (X : Err x = Ok b) by (apply RB; eauto). discriminate. }
  assert (X := proj1 (RB b) eq_refl). destruct X as (d & rest & Hb & E). assert (Bd : is_bytes d) by (rewrite E in B; now apply Forall_app in B as [B _]).
  destruct (cblock_parts b d Hb Bd) as (Bs & Bq & Bv & Nn & D). unfold n32 in Nn.
  assert (U : forall b2 d2 rest2, cblock_bytes b2 d2 -> data = d2 ++ rest2 -> b2 = b). { intros b2 d2 rest2 H2 E2. assert (X : Ok b = Ok b2) by (apply RB; eauto). congruence. }
  pose proof (fun s => cim_string_iff ansi (cb_name b) (cb_values b) s Bv (proj1 Nn)) as RN. destruct (cim_string ansi (cb_name b) (cb_values b)) as [name|x] eqn:EN; cbn [bind].
  2:{ split; [discriminate|]. intros (b2 & d2 & rest2 & ps & H2 & E2 & Hn & _). rewrite (U _ _ _ H2 E2) in Hn. apply RN in Hn. discriminate. }
  set (rs := if 0 <? len (cb_super b) then do s <- cim_string ansi 0 (cb_super b); Ok (Some s) else Ok None).
  assert (RS : forall o, rs = Ok o <-> match o with None => cb_super b = [] | Some s => cim_at ansi (cb_super b) 0 s end).
  { intros o. unfold rs. destruct (Z.ltb_spec 0 (len (cb_super b))) as [L|L].
    - pose proof (fun s => cim_string_iff ansi 0 (cb_super b) s Bs (Z.le_refl 0)) as RC. destruct (cim_string ansi 0 (cb_super b)) as [s|x]; cbn [bind].
      + split; [intros X; injection X as <-; now apply RC|]. destruct o as [t|]; [intros C; apply RC in C; congruence|]. intros C. rewrite C in L. cbn in L. lia.
      + split; [discriminate|]. destruct o as [t|]; [intros C; apply RC in C; discriminate|]. intros C. rewrite C in L. cbn in L. lia.
    - assert (cb_super b = []) as C by (destruct (cb_super b); [reflexivity|unfold len in L; cbn in L; lia]). split; [intros X; injection X as <-; exact C|]. destruct o as [t|]; [|reflexivity].
      rewrite C. intros (d2 & H2 & (pre & post & H3 & _)). apply cim_ne in H2. destruct d2; [congruence|]. destruct pre; discriminate. }
  destruct rs as [super|x]; cbn [bind].
  2:{ split; [discriminate|]. intros (b2 & d2 & rest2 & ps & H2 & E2 & _ & Hs & _). rewrite (U _ _ _ H2 E2) in Hs. apply RS in Hs. discriminate. }
  set (rq := if 0 <? len (cb_quals b) then qualifiers ansi lower (cb_values b) (cb_quals b) else Ok []).
  assert (RQ : forall t, rq = Ok t <-> qualifiers_of ansi lower (cb_values b) (cb_quals b) t).
  { intros t. unfold rq. destruct (Z.ltb_spec 0 (len (cb_quals b))) as [L|L]; [apply qualifiers_iff; assumption|].
    assert (cb_quals b = []) as -> by (destruct (cb_quals b); [reflexivity|unfold len in L; cbn in L; lia]). rewrite qualifiers_nil. split; [intros X; congruence|intros ->; reflexivity]. }
  destruct rq as [quals|x]; cbn [bind].
  2:{ split; [discriminate|]. intros (b2 & d2 & rest2 & ps & H2 & E2 & _ & _ & Hq & _). rewrite (U _ _ _ H2 E2) in Hq. apply RQ in Hq. discriminate. }
  pose proof (fun t => properties_iff ansi lower (cb_values b) (cb_descs b) [] t Bv D) as RP. destruct (properties ansi lower (cb_values b) (cb_descs b) []) as [props|x]; cbn [bind].
  2:{ split; [discriminate|]. intros (b2 & d2 & rest2 & ps & H2 & E2 & _ & _ & _ & F & A). rewrite (U _ _ _ H2 E2) in F. assert (X : Err x = Ok (c_props c)) by (apply RP; exists ps; split; [exact F|now apply assigned_iff]). discriminate. }
  split.
  - intros X. injection X as <-. assert (Y := proj1 (RP props) eq_refl). destruct Y as (ps & F & EP). exists b, d, rest, ps. cbn [c_name c_super c_quals c_props].
    split; [exact Hb|]. split; [exact E|]. split; [now apply RN|]. split; [now apply RS|]. split; [now apply RQ|]. split; [exact F|]. now apply assigned_iff.
  - intros (b2 & d2 & rest2 & ps & H2 & E2 & Hn & Hs & Hq & F & A). rewrite (U _ _ _ H2 E2) in *. apply RN in Hn. apply RS in Hs. apply RQ in Hq.
    assert (X : Ok props = Ok (c_props c)) by (apply RP; exists ps; split; [exact F|now apply assigned_iff]). destruct c as [a1 a2 a3 a4]. cbn [c_name c_super c_quals c_props] in *. congruence.
Qed.

Lemma class_block_errors ansi lower data x : is_bytes data -> class_block ansi lower data = Err x -> soft x.
Proof.
  intros B. unfold class_block. pose proof (fun b => rd_stream_iff rd_cblock _ data b reads_cblock (fun a d => cblock_ne a d) B) as RB.
  destruct (rd_stream rd_cblock data) as [b|y] eqn:EB; cbn [bind]. 2:{ intros X. injection X as <-. exact (rd_stream_errors _ _ _ _ reads_cblock B EB). }
  assert (X := proj1 (RB b) eq_refl). destruct X as (d & rest & Hb & E). assert (Bd : is_bytes d) by (rewrite E in B; now apply Forall_app in B as [B _]).
  destruct (cblock_parts b d Hb Bd) as (Bs & Bq & Bv & Nn & D). unfold n32 in Nn.
  destruct (cim_string ansi (cb_name b) (cb_values b)) as [name|y] eqn:EN; cbn [bind]. 2:{ intros X. injection X as <-. eapply cim_string_errors; [exact Bv| |exact EN]. lia. }
  assert (ES : forall y, (if 0 <? len (cb_super b) then do s <- cim_string ansi 0 (cb_super b); Ok (Some s) else Ok None) = Err y -> soft y).
  { intros y. destruct (0 <? len (cb_super b)); [|discriminate]. destruct (cim_string ansi 0 (cb_super b)) eqn:EC; cbn [bind]; [discriminate|]. intros X. injection X as <-. eapply cim_string_errors; [exact Bs| |exact EC]. lia. }
  destruct (if 0 <? len (cb_super b) then do s <- cim_string ansi 0 (cb_super b); Ok (Some s) else Ok None) as [super|y]; cbn [bind]; [|intros X; injection X as <-; now apply ES].
  assert (EQ : forall y, (if 0 <? len (cb_quals b) then qualifiers ansi lower (cb_values b) (cb_quals b) else Ok []) = Err y -> soft y).
  { intros y. destruct (0 <? len (cb_quals b)); [|discriminate]. apply qualifiers_errors; assumption. }
  destruct (if 0 <? len (cb_quals b) then qualifiers ansi lower (cb_values b) (cb_quals b) else Ok []) as [quals|y]; cbn [bind]; [|intros X; injection X as <-; now apply EQ].
  destruct (properties ansi lower (cb_values b) (cb_descs b) []) as [props|y] eqn:EP; cbn [bind]; [discriminate|]. intros X. injection X as <-. eapply properties_errors; [exact Bv|exact D|exact EP].
Qed.

(** ** Object records *)

Definition record_bytes (x : str * bytes) (d : bytes) : Prop :=
  exists s, utf16_decode s = Some (fst x) /\ fields [(fun d => exists n, i32 n d /\ len s = 2 * n); eq s; any i64; i32 (len (snd x) + 4); eq (snd x)] d.

Lemma reads_class_record : reads rd_class_record record_bytes.
Proof.
  unfold rd_class_record. eapply reads_iff; [fh_reads ltac:(apply reads_some)|]. intros [name data] d _. cbv beta. unfold record_bytes. cbn [fst snd]. split.
  - intros (a1 & ? & ? & H1 & (a2 & ? & ? & [H2 ->] & (a3 & ? & ? & [H3 ->] & (a4 & ? & ? & H4 & (a5 & ? & ? & H5 & (a6 & ? & ? & [H6 ->] & [E ->] & ->) & ->) & ->) & ->) & ->) & ->).
    assert (name = a3 /\ data = a6) as [-> ->] by (split; congruence). exists a2. split; [exact H3|]. replace (len a6 + 4) with a5 by lia. cbn [app].
    apply fields_more; [exists a1; auto|]. apply fields_more; [reflexivity|]. apply fields_more; [exists a4; exact H4|]. apply fields_more; [exact H5|]. apply fields_more; [reflexivity|]. now apply fields_nil.
  - intros (s & U & H). f_out. subst. match goal with H : any _ _ |- _ => destruct H as [? H] end. match goal with H : exists n, _ |- _ => destruct H as (n & Hn & Ln) end.
    do 3 eexists. split; [|split; [|reflexivity]]; [eassumption|]. do 3 eexists. split; [|split; [|reflexivity]]; [split; [exact Ln|reflexivity]|].
    eexists _, [], _. split; [split; [exact U|reflexivity]|]. split; [|reflexivity]. do 2 (do 3 eexists; split; [|split; [|reflexivity]]; [eassumption|]).
    eexists _, _, []. split; [|split; [split; reflexivity|reflexivity]]. split; [lia|reflexivity].
Qed.

Lemma record_ne x d : record_bytes x d -> d <> [].
Proof. intros (s & _ & H). revert H. apply fields_ne. intros y (n & H & _). exact (i32_ne _ _ H). Qed.

Lemma record_data x d : record_bytes x d -> is_bytes d -> is_bytes (snd x).
Proof. intros (s & _ & H) B. f_out. subst. unfold is_bytes in *. repeat match goal with H : Forall is_byte (_ ++ _) |- _ => apply Forall_app in H as [? H] end. assumption. Qed.

Lemma class_record_iff ansi lower record c : is_bytes record -> (class_record ansi lower record = Ok c <-> class_record_of ansi lower record c).
Proof.
  intros B. unfold class_record, class_record_of. pose proof (fun b => rd_stream_iff rd_class_record _ record b reads_class_record (fun a d => record_ne a d) B) as RB.
  destruct (rd_stream rd_class_record record) as [[name data]|x] eqn:EB; cbn [bind].
  - assert (X := proj1 (RB (name, data)) eq_refl). destruct X as (d & rest & Hb & E). assert (Bd : is_bytes data). { apply (record_data (name, data) d Hb). rewrite E in B. now apply Forall_app in B as [B _]. }
    rewrite class_block_iff by exact Bd. split.
    + intros C. destruct Hb as (s & U & H). cbn [fst snd] in *. exists s, name, data, d, rest. auto.
    + intros (s & name2 & data2 & d2 & rest2 & U & H & E2 & C). assert (X : Ok (name, data) = Ok (name2, data2)) by (apply RB; exists d2, rest2; split; [exists s; auto|exact E2]). injection X as <- <-. exact C.
  - split; [discriminate|]. intros (s & name2 & data2 & d2 & rest2 & U & H & E2 & C). assert (X : Err x = Ok (name2, data2)) by (apply RB; exists d2, rest2; split; [exists s; auto|exact E2]). discriminate.
Qed.

Lemma class_record_errors ansi lower record x : is_bytes record -> class_record ansi lower record = Err x -> soft x.
Proof.
  intros B. unfold class_record. pose proof (fun b => rd_stream_iff rd_class_record _ record b reads_class_record (fun a d => record_ne a d) B) as RB.
  destruct (rd_stream rd_class_record record) as [[name data]|y] eqn:EB; cbn [bind].
  - apply class_block_errors. assert (X := proj1 (RB (name, data)) eq_refl). destruct X as (d & rest & Hb & E). apply (record_data (name, data) d Hb). rewrite E in B. now apply Forall_app in B as [B _].
  - intros X. injection X as <-. exact (rd_stream_errors _ _ _ _ reads_class_record B EB).
Qed.

Lemma assigned_nodup {A} (l : list (str * A)) t : assigned l t -> NoDup (map fst t).
Proof. intros [-> _]. apply firsts_nodup. Qed.

Lemma abstract_iff ansi lower record c v : is_bytes record -> class_record ansi lower record = Ok c ->
  (is_abstract c = v <-> In (s2z "abstract"%string, v) (c_quals c) \/ v = QBool false /\ ~ In (s2z "abstract"%string) (map fst (c_quals c))).
Proof.
  intros B H. apply class_record_iff in H; [|exact B]. destruct H as (s & name & data & d & rest & _ & _ & _ & b & d2 & rest2 & ps & _ & _ & _ & _ & (qs & ds & l & _ & _ & _ & A) & _).
  apply assigned_nodup in A. unfold is_abstract. pose proof (fun v => sdict_get_in (c_quals c) (s2z "abstract"%string) v A) as G.
  destruct (sdict_get (s2z "abstract"%string) (c_quals c)) as [w|] eqn:E.
  - split; [intros <-; left; now apply G|]. intros [X|[_ X]]; [apply G in X; congruence|]. exfalso. apply X. apply in_map_iff. exists (s2z "abstract"%string, w). split; [reflexivity|now apply G].
  - split.
    + intros <-. right. split; [reflexivity|]. intros X. apply in_map_iff in X as ([k w] & K & X). cbn [fst] in K. subst k. apply G in X. discriminate.
    + intros [X|[-> _]]; [apply G in X; discriminate|reflexivity].
Qed.

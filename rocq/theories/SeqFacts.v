From Verif Require Import Base BaseFacts CoreModel CoreProofs VarModel VarFacts SeqModel SeqSpec.

Lemma read_next_ok content pos n : 0 <= pos <= len content -> 0 <= n ->
  read_next content pos n =
  if pos + n <=? len content then Ok (zfirstn n (zskipn pos content), pos + n) else Err ParseError.
Proof.
  intros Hp Hn. unfold read_next. rewrite len_zfirstn, len_zskipn.
  destruct (Z.leb_spec (pos + n) (len content)); destruct (Z.eqb_spec (Z.min (Z.max 0 n) (Z.max 0 (len content - Z.max 0 pos))) n); try lia; reflexivity.
Qed.

Lemma read_next_app pre d post pos n : pos = len pre -> n = len d ->
  read_next (pre ++ d ++ post) pos n = Ok (d, pos + n).
Proof.
  intros -> ->. unfold read_next. rewrite zskipn_app_len by reflexivity. rewrite zfirstn_app_len by reflexivity.
  rewrite Z.eqb_refl. reflexivity.
Qed.

Lemma read_next_short content pos n : 0 <= pos -> 0 < n -> len content < pos + n -> read_next content pos n = Err ParseError.
Proof.
  intros Hp Hn H. unfold read_next. rewrite len_zfirstn, len_zskipn. pose proof (len_nonneg content).
  destruct (Z.eqb_spec (Z.min (Z.max 0 n) (Z.max 0 (len content - Z.max 0 pos))) n); [lia|reflexivity].
Qed.

Lemma read_next_errors content pos n e : read_next content pos n = Err e -> e = ParseError.
Proof. unfold read_next. destruct (_ =? _); [discriminate|]. congruence. Qed.

Lemma struct_size_repeat k n : struct_size (repeat k n) = (n * fsize k)%nat.
Proof.
  induction n as [|n IH]; [reflexivity|]. cbn [repeat struct_size fold_right].
  change (fold_right (fun k acc => (fsize k + acc)%nat) 0%nat (repeat k n)) with (struct_size (repeat k n)). rewrite IH. lia.
Qed.

Lemma ints_VI l : ints (map VI l) = l.
Proof. unfold ints. rewrite map_map. apply map_id. Qed.

Lemma repeat_ok k l : Forall (fun z => fval_ok k (VI z)) l -> Forall2 fval_ok (repeat k (length l)) (map VI l).
Proof. induction 1 as [|z l Hz H IH]; cbn [length repeat map]; constructor; assumption. Qed.

Lemma enc_struct_repeat k l : enc_struct (repeat k (length l)) (map VI l) = concat (map (fun z => enc_field k (VI z)) l).
Proof. induction l as [|z l IH]; cbn [length repeat map enc_struct concat]; [reflexivity|]. now rewrite IH. Qed.

Lemma seq_bs_enc k l rest : (0 < fsize k)%nat -> l <> [] -> Forall (fun z => fval_ok k (VI z)) l ->
  seq_bs k (len l) (concat (map (fun z => enc_field k (VI z)) l) ++ rest) = Ok l.
Proof.
  intros Hk Hl Hf. unfold seq_bs, len. rewrite Nat2Z.id. rewrite <- enc_struct_repeat.
  rewrite struct_bs_enc; [|apply repeat_ok; exact Hf|].
  - cbn [bind]. rewrite ints_VI. reflexivity.
  - rewrite struct_size_repeat. destruct l; [contradiction|]. cbn [length]. lia.
Qed.

Lemma seq_bs_empty k n : seq_bs k n [] = Err ValueError.
Proof. reflexivity. Qed.

Lemma seq_bs_size k n d : (0 < fsize k)%nat -> 0 < n -> n * Z.of_nat (fsize k) <= len d -> exists l, seq_bs k n d = Ok l /\ len l = n.
Proof.
  intros Hk Hn Hd. unfold seq_bs, struct_bs. destruct d as [|b d]; [rewrite len_nil in Hd; nia|].
  destruct (map_struct (repeat k (Z.to_nat n)) (b :: d)) as [vs|] eqn:E.
  - cbn [bind]. eexists. split; [reflexivity|]. unfold ints, len. rewrite map_length. rewrite (map_struct_length _ _ _ E), repeat_length. lia.
  - exfalso. destruct (map_struct_some (repeat k (Z.to_nat n)) (b :: d)) as [vs Hvs].
    + rewrite struct_size_repeat. unfold len in Hd. nia.
    + congruence.
Qed.

Lemma seq_bs_errors k n d e : as_parse_error (seq_bs k n d) = Err e -> e = ParseError.
Proof.
  unfold seq_bs. destruct (struct_bs _ d) as [l|x] eqn:E; cbn [bind as_parse_error]; [discriminate|].
  apply struct_bs_errors in E. destruct E as [->|[-> _]]; congruence.
Qed.

(** ** Both directions *)

Lemma stored_at_iff content off d : stored_at content off d <->
  0 <= off /\ off <= len content /\ zfirstn (len d) (zskipn off content) = d.
Proof.
  split.
  - intros (pre & post & -> & <-). split; [apply len_nonneg|]. split; [rewrite !len_app; pose proof (len_nonneg d); pose proof (len_nonneg post); lia|].
    rewrite zskipn_app_len by reflexivity. apply zfirstn_app_len. reflexivity.
  - intros (H0 & H1 & H). exists (zfirstn off content), (zskipn (len d) (zskipn off content)). split.
    + rewrite <- H at 1. rewrite zfirstn_zskipn. symmetry. apply zfirstn_zskipn.
    + rewrite len_zfirstn. lia.
Qed.

Lemma stored_at_from content off d : 0 <= off <= len content ->
  (stored_at content off d <-> exists rest, zskipn off content = d ++ rest).
Proof.
  intros Ho. rewrite stored_at_iff. split.
  - intros (_ & _ & H). exists (zskipn (len d) (zskipn off content)). rewrite <- H at 1. symmetry. apply zfirstn_zskipn.
  - intros [rest H]. rewrite H. split; [lia|]. split; [lia|]. apply zfirstn_app_len. reflexivity.
Qed.

Lemma stored_at_inside content off d : stored_at content off d -> 0 <= off /\ off + len d <= len content.
Proof. intros (pre & post & -> & <-). rewrite !len_app. pose proof (len_nonneg pre). pose proof (len_nonneg post). lia. Qed.

Lemma map_struct_iff ks d vs : is_bytes d -> Forall fkind_wf ks ->
  (map_struct ks d = Some vs <-> exists rest, d = enc_struct ks vs ++ rest /\ Forall2 fval_ok ks vs).
Proof.
  intros Hb Hw. split.
  - intros E. destruct (map_struct_vals ks d vs Hb Hw E) as [F G]. exists (skipn (struct_size ks) d). split; [|exact F].
    rewrite G. symmetry. apply firstn_skipn.
  - intros (rest & -> & F). apply map_struct_enc. exact F.
Qed.

Lemma enc_struct_nonempty ks vs rest : Forall2 fval_ok ks vs -> (0 < struct_size ks)%nat -> enc_struct ks vs ++ rest <> [].
Proof.
  intros F Hs E. apply app_eq_nil in E. destruct E as [E _]. pose proof (enc_struct_length ks vs F) as L. rewrite E in L. cbn in L. lia.
Qed.

Lemma struct_bs_iff ks d vs : is_bytes d -> Forall fkind_wf ks -> (0 < struct_size ks)%nat ->
  (struct_bs ks d = Ok vs <-> exists rest, d = enc_struct ks vs ++ rest /\ Forall2 fval_ok ks vs).
Proof.
  intros Hb Hw Hs. rewrite <- map_struct_iff by assumption. unfold struct_bs. destruct d as [|x d].
  - split; [discriminate|]. rewrite map_struct_none by (cbn [length]; lia). discriminate.
  - destruct (map_struct ks (x :: d)); split; congruence.
Qed.

Lemma read_struct_iff content ks off vs : is_bytes content -> Forall fkind_wf ks ->
  (0 < struct_size ks)%nat ->
  (read_struct content ks off = Ok vs <-> stored_at content off (enc_struct ks vs) /\ Forall2 fval_ok ks vs).
Proof.
  intros Hb Hw Hs. split.
  - intros E. pose proof (read_struct_inside _ _ _ _ E Hs) as [I1 I2]. destruct (read_struct_vals content ks off vs Hb Hw E) as (F & H0 & G).
    split; [|exact F]. apply stored_at_iff. split; [exact H0|]. split; [lia|]. rewrite <- G at 2. f_equal.
    unfold len. rewrite enc_struct_length by exact F. reflexivity.
  - intros [(pre & post & -> & <-) F]. apply read_struct_enc; [exact F|reflexivity].
Qed.

Lemma ints_fval_ok k n vs : Forall2 fval_ok (repeat k n) vs -> (forall m, k <> FB m) ->
  vs = map VI (ints vs) /\ ints_ok k (ints vs) /\ length (ints vs) = n.
Proof.
  revert vs. induction n as [|n IH]; intros vs H Hk; inversion H as [|? v ? vs' Hv Hvs]; subst.
  - repeat split. constructor.
  - destruct (IH vs' Hvs Hk) as (E & F & G). 
    assert (X : exists z, v = VI z) by (destruct k; destruct v; cbn [fval_ok] in Hv; try contradiction; eauto; exfalso; eapply Hk; reflexivity).
    destruct X as [z ->]. cbn [ints map length]. change (map _ vs') with (ints vs'). rewrite <- E. repeat split.
    + constructor; assumption.
    + now rewrite G.
Qed.

(** [mapr] and relations. *)
Lemma mapr_iff {A B} (f : A -> result B) (R : A -> B -> Prop) l ys :
  (forall x y, In x l -> (f x = Ok y <-> R x y)) -> (mapr f l = Ok ys <-> Forall2 R l ys).
Proof.
  revert ys. induction l as [|x l IH]; intros ys H; cbn [mapr].
  - split; [injection 1 as <-; constructor|]. inversion 1. reflexivity.
  - split.
    + destruct (f x) as [y|] eqn:E; [|discriminate]. cbn [bind]. destruct (mapr f l) as [ys'|] eqn:E2; [|discriminate]. cbn [bind].
      injection 1 as <-. constructor; [apply H; [now left|exact E]|]. apply IH; [|reflexivity]. intros. apply H. now right.
    + inversion 1 as [|? y ? ys' Hy Hys]; subst. apply H in Hy; [|now left]. rewrite Hy. cbn [bind].
      apply IH in Hys; [|intros; apply H; now right]. rewrite Hys. reflexivity.
Qed.

Lemma mapr_ok {A B} (f : A -> result B) l ys : Forall2 (fun x y => f x = Ok y) l ys -> mapr f l = Ok ys.
Proof. intros H. apply (mapr_iff f (fun x y => f x = Ok y)); [tauto|exact H]. Qed.

Lemma mapr_errors {A B} (f : A -> result B) l e : mapr f l = Err e -> exists x, In x l /\ f x = Err e.
Proof.
  induction l as [|x l IH]; cbn [mapr]; [discriminate|]. destruct (f x) as [y|e'] eqn:E; cbn [bind].
  - destruct (mapr f l) as [ys|e'']; cbn [bind]; [discriminate|]. intros H. destruct IH as (x' & I & F); [congruence|].
    exists x'. split; [now right|exact F].
  - injection 1 as <-. exists x. split; [now left|exact E].
Qed.

Lemma struct_seq_bs_iff ks k n d vs l : is_bytes d -> Forall fkind_wf ks -> (0 < struct_size ks)%nat ->
  fkind_wf k -> (forall m, k <> FB m) -> 0 <= n vs ->
  (struct_seq_bs ks k n d = Ok (vs, l) <->
   exists rest, d = enc_struct ks vs ++ enc_ints k l ++ rest /\ Forall2 fval_ok ks vs /\ ints_ok k l /\ len l = n vs).
Proof.
  intros Hb Hw Hs Hk Hi Hn. unfold struct_seq_bs. split.
  - destruct (struct_bs ks d) as [vs'|] eqn:E; [|discriminate]. cbn [bind]. intros H.
    destruct (map_struct (repeat k _) _) as [l'|] eqn:E2; [|discriminate].
    assert (vs' = vs) by congruence. assert (ints l' = l) by congruence. subst vs' l. clear H.
    apply struct_bs_iff in E; [|assumption..]. destruct E as (rest & Ed & F).
    assert (Ed2 : zskipn (Z.of_nat (struct_size ks)) d = rest).
    { rewrite Ed. apply zskipn_app_len. unfold len. rewrite enc_struct_length by exact F. reflexivity. }
    rewrite Ed2 in E2. apply map_struct_iff in E2.
    + destruct E2 as (rest' & Er & F'). pose proof (ints_fval_ok _ _ _ F' Hi) as (G1 & G2 & G3).
      exists rest'. split; [|split; [exact F|split; [exact G2|unfold len; lia]]].
      rewrite Ed, Er. f_equal. f_equal. rewrite G1 at 1. rewrite <- G3. apply enc_struct_repeat.
    + rewrite Ed in Hb. apply is_bytes_app in Hb. tauto.
    + apply Forall_forall. intros x Hx. apply repeat_spec in Hx. now subst x.
  - intros (rest & Ed & F & G & L). rewrite Ed. rewrite struct_bs_enc by assumption. cbn [bind].
    rewrite zskipn_app_len by (unfold len; rewrite enc_struct_length by exact F; reflexivity).
    rewrite <- L. unfold len. rewrite Nat2Z.id. unfold enc_ints. rewrite <- enc_struct_repeat.
    rewrite map_struct_enc by (apply repeat_ok; exact G). rewrite ints_VI. reflexivity.
Qed.

Lemma seq_bs_iff k n d l : is_bytes d -> fkind_wf k -> (0 < fsize k)%nat -> (forall m, k <> FB m) -> 0 <= n ->
  (seq_bs k n d = Ok l <-> d <> [] /\ exists rest, d = enc_ints k l ++ rest /\ ints_ok k l /\ len l = n).
Proof.
  intros Hb Hk Hf Hi Hn.
  assert (St : d <> [] -> forall ks, struct_bs ks d = match map_struct ks d with Some vs => Ok vs | None => Err ParseError end)
    by (destruct d; [contradiction|reflexivity]).
  unfold seq_bs. split.
  - intros H. assert (Hd : d <> []) by (intros ->; discriminate H). rewrite (St Hd) in H. clear St.
    destruct (map_struct _ d) as [l'|] eqn:E; [|discriminate].
    cbn [bind] in H. injection H as <-. split; [exact Hd|]. apply map_struct_iff in E; [|assumption|].
    + destruct E as (rest & E & F). pose proof (ints_fval_ok _ _ _ F Hi) as (G1 & G2 & G3). exists rest.
      split; [|split; [exact G2|unfold len; lia]]. rewrite E. f_equal. rewrite G1 at 1. rewrite <- G3. apply enc_struct_repeat.
    + apply Forall_forall. intros y Hy. apply repeat_spec in Hy. now subst y.
  - intros (Hd & rest & Ed & G & L). rewrite (St Hd). clear St. rewrite Ed.
    rewrite <- L. unfold len. rewrite Nat2Z.id. unfold enc_ints. rewrite <- enc_struct_repeat.
    rewrite map_struct_enc by (apply repeat_ok; exact G). cbn [bind]. rewrite ints_VI. reflexivity.
Qed.

Lemma read_next_iff content pos n d p : 0 <= pos <= len content -> 0 <= n ->
  (read_next content pos n = Ok (d, p) <-> stored_at content pos d /\ len d = n /\ p = pos + n).
Proof.
  intros Hp Hn. rewrite read_next_ok by assumption. split.
  - destruct (Z.leb_spec (pos + n) (len content)); [|discriminate]. intros E.
    assert (Ed : d = zfirstn n (zskipn pos content)) by congruence. assert (Ep : p = pos + n) by congruence.
    assert (Ld : len d = n) by (rewrite Ed, len_zfirstn, len_zskipn; lia).
    split; [|split; assumption]. apply stored_at_iff. split; [lia|]. split; [lia|]. rewrite Ld. symmetry. exact Ed.
  - intros (S1 & L & ->). pose proof (stored_at_inside _ _ _ S1) as [_ I]. apply stored_at_iff in S1. destruct S1 as (_ & _ & S1).
    destruct (Z.leb_spec (pos + n) (len content)); [|lia]. rewrite L in S1. rewrite S1. reflexivity.
Qed.

Lemma as_parse_error_ok {A} (r : result A) x : as_parse_error r = Ok x <-> r = Ok x.
Proof. destruct r as [a|[]]; cbn; split; congruence. Qed.

Lemma len_enc_ints k l : ints_ok k l -> len (enc_ints k l) = len l * Z.of_nat (fsize k).
Proof.
  unfold enc_ints. induction 1 as [|z l Hz H IH]; [reflexivity|]. cbn [map concat]. rewrite len_app, IH, len_cons.
  unfold len at 1. rewrite enc_field_length by exact Hz. lia.
Qed.

Lemma F2_cons {A B} (R : A -> B -> Prop) k ks l : Forall2 R (k :: ks) l -> exists v vs, l = v :: vs /\ R k v /\ Forall2 R ks vs.
Proof. intros H. inversion H. subst. eauto. Qed.

Lemma F2_nil {A B} (R : A -> B -> Prop) l : Forall2 R [] l -> l = [].
Proof. intros H. inversion H. reflexivity. Qed.

(** The values of a structure, one by one. *)
Ltac inv2 H := match type of H with
  | Forall2 _ [] ?l => apply F2_nil in H; subst l
  | Forall2 _ (_ :: _) ?l => let v := fresh "v" in let vs := fresh "vs" in let Hv := fresh "Hv" in let Hvs := fresh "Hvs" in
      let E := fresh in apply F2_cons in H; destruct H as (v & vs & E & Hv & Hvs); subst l; inv2 Hvs
  end.

Lemma struct_bs_at ks page off vs : is_bytes page -> Forall fkind_wf ks -> (0 < struct_size ks)%nat -> 0 <= off ->
  (struct_bs ks (zskipn off page) = Ok vs <-> stored_at page off (enc_struct ks vs) /\ Forall2 fval_ok ks vs).
Proof.
  intros Hb Hw Hs Ho. destruct (Z.le_gt_cases off (len page)) as [L|L].
  - rewrite struct_bs_iff by (try assumption; apply is_bytes_zskipn; assumption). rewrite stored_at_from by lia. split.
    + intros (rest & E & F). split; [eauto|exact F].
    + intros [[rest E] F]. eauto.
  - rewrite zskipn_all by lia. split; [discriminate|]. intros [H F]. apply stored_at_inside in H. 
    pose proof (len_nonneg (enc_struct ks vs)). lia.
Qed.

Lemma is_bytes_stored content off d : is_bytes content -> stored_at content off d -> is_bytes d.
Proof. intros Hb (pre & post & E & _). rewrite E in Hb. rewrite !is_bytes_app in Hb. tauto. Qed.

Lemma stored_at_app content off a b : stored_at content off (a ++ b) <-> stored_at content off a /\ stored_at content (off + len a) b.
Proof.
  split.
  - intros (pre & post & -> & <-). rewrite <- app_assoc. split.
    + exists pre, (b ++ post). split; reflexivity.
    + exists (pre ++ a), post. rewrite len_app, <- app_assoc. split; reflexivity.
  - intros [(pre & post & E & L) (pre' & post' & E' & L')].
    assert (P : pre' = pre ++ a).
    { rewrite E in E'. rewrite app_assoc in E'. apply (f_equal (zfirstn (off + len a))) in E'.
      rewrite !zfirstn_app_len in E' by (rewrite ?len_app; lia). congruence. }
    subst pre'. exists pre, post'. split; [|exact L]. rewrite E', <- !app_assoc. reflexivity.
Qed.

(** The values of a structure that was read, for statements about errors. *)
Lemma struct_bs_fval ks d vs : is_bytes d -> Forall fkind_wf ks -> struct_bs ks d = Ok vs -> Forall2 fval_ok ks vs.
Proof.
  intros Hb Hw. unfold struct_bs. destruct d as [|x d]; [discriminate|]. destruct (map_struct ks (x :: d)) as [vs'|] eqn:E; [|discriminate].
  injection 1 as <-. exact (proj1 (map_struct_vals ks _ _ Hb Hw E)).
Qed.

Lemma read_struct_fval content ks off vs : is_bytes content -> Forall fkind_wf ks -> read_struct content ks off = Ok vs -> Forall2 fval_ok ks vs.
Proof. intros Hb Hw E. exact (proj1 (read_struct_vals content ks off vs Hb Hw E)). Qed.

Lemma read_var_fval content ks ext off vs d n : is_bytes content -> Forall fkind_wf ks -> read_var content ks ext off = Ok (vs, d, n) ->
  Forall2 fval_ok ks vs /\ is_bytes d.
Proof.
  intros Hb Hw E. apply read_var_ok in E as (E & _ & _ & -> & _). split; [eapply read_struct_fval; eassumption|].
  apply is_bytes_zfirstn, is_bytes_zskipn, Hb.
Qed.

Lemma ints_nonneg e m n d l : is_bytes d -> map_struct (repeat (FU e m) n) d = Some l -> Forall (fun z => 0 <= z) (ints l) /\ length (ints l) = n.
Proof.
  intros Hb E. assert (W : Forall fkind_wf (repeat (FU e m) n)) by (apply Forall_forall; intros k Hk; apply repeat_spec in Hk; subst k; exact I).
  destruct (map_struct_vals _ _ _ Hb W E) as [F _]. destruct (ints_fval_ok _ _ _ F ltac:(discriminate)) as (_ & O & L).
  split; [|exact L]. eapply Forall_impl; [|exact O]. intros z Hz. cbn [fval_ok] in Hz. lia.
Qed.

Lemma read_struct_err content ks off e : 0 <= off -> read_struct content ks off = Err e -> e = ParseError.
Proof. intros Ho E. apply read_struct_errors in E as [[_ E]|[E _]]; [lia|exact E]. Qed.

Lemma read_var_err content ks ext off e : 0 <= off -> read_var content ks ext off = Err e -> e = ParseError.
Proof. intros Ho E. apply read_var_errors in E as [E|[_ E]]; [exact E|lia]. Qed.

Ltac kinds_wf := repeat (apply Forall_cons; [exact I|]); apply Forall_nil.
Ltac vals H := inv2 H; repeat match goal with v : fval |- _ => destruct v; cbn [fval_ok] in *; try contradiction end.

(** The errors that a computation can raise. *)
Definition errs {A} (P : exn -> Prop) (r : result A) : Prop := forall e, r = Err e -> P e.

Lemma errs_ok {A} P (x : A) : errs P (Ok x).
Proof. intros e. discriminate. Qed.

Lemma errs_err {A} (P : exn -> Prop) e : P e -> @errs A P (Err e).
Proof. intros H e'. injection 1 as <-. exact H. Qed.

Lemma errs_bind {A B} P (r : result A) (f : A -> result B) : errs P r -> (forall x, r = Ok x -> errs P (f x)) -> errs P (bind r f).
Proof. intros H G. destruct r as [x|e]; cbn [bind]; [exact (G x eq_refl)|]. apply errs_err, H. reflexivity. Qed.

Lemma errs_guard (P : exn -> Prop) b e : P e -> errs P (guard b e).
Proof. intros H e'. destruct b; cbn [guard]; [discriminate|]. injection 1 as <-. exact H. Qed.

Lemma errs_read_struct (P : exn -> Prop) content ks off : P ParseError -> 0 <= off -> errs P (read_struct content ks off).
Proof. intros H Ho e E. apply read_struct_err in E; [subst e; exact H|exact Ho]. Qed.

Lemma errs_read_var (P : exn -> Prop) content ks ext off : P ParseError -> 0 <= off -> errs P (read_var content ks ext off).
Proof. intros H Ho e E. apply read_var_err in E; [subst e; exact H|exact Ho]. Qed.

Lemma errs_struct_bs (P : exn -> Prop) ks d : P ParseError -> P ValueError -> errs P (struct_bs ks d).
Proof. intros H1 H2 e E. apply struct_bs_errors in E as [->|[-> _]]; assumption. Qed.

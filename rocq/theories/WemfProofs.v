From Verif Require Import Base BaseFacts CoreModel CoreProofs SeqSpec SeqFacts StructFacts DictModel GzipProofs RbProofs ClProofs WemfModel WemfSpec.
From Coq Require String.
Import String.StringSyntax.

Definition head (r : wrec) : Z * Z := (w_type r, w_size r).

Lemma walk_sound (rd : Z -> result wrec) (at_ : Z -> Z -> Z -> Prop) n :
  (forall off r, 0 <= off -> rd off = Ok r -> at_ off (w_type r) (w_size r) /\ 0 <= w_size r) ->
  forall fuel off l, 0 <= off -> wemf_walk fuel rd n off = Done (Ok l) -> chain at_ n off (map head l).
Proof.
  intros H. induction fuel as [|fuel IH]; intros off l Ho; cbn [wemf_walk]; (destruct (Z.ltb_spec off n) as [Hl|Hg]; [|intros E; assert (l = []) by congruence; subst l; constructor; lia]); [discriminate|].
  destruct (rd off) as [r|e] eqn:E; [|discriminate]. destruct (H off r Ho E) as [A Hs].
  destruct (wemf_walk fuel rd n _) as [[l'|]|] eqn:W; [|discriminate|discriminate]. cbn [rbind]. intros K. assert (l = r :: l') by congruence. subst l.
  cbn [map head]. constructor; [exact Hl|exact A|]. apply IH; [lia|exact W].
Qed.

Lemma walk_complete (rd : Z -> result wrec) (at_ : Z -> Z -> Z -> Prop) n :
  (forall off t s, 0 <= off -> at_ off t s -> 0 <= s /\ exists r, rd off = Ok r /\ head r = (t, s)) ->
  forall off l, chain at_ n off l -> 0 <= off -> forall fuel, (length l <= fuel)%nat -> exists l', wemf_walk fuel rd n off = Done (Ok l') /\ map head l' = l.
Proof.
  intros H off l C. induction C as [off Hn|off t s l Hl A C IH]; intros Ho fuel Hf.
  - exists []. split; [|reflexivity]. destruct fuel; cbn [wemf_walk]; (destruct (Z.ltb_spec off n); [lia|reflexivity]).
  - destruct fuel as [|fuel]; [cbn [length] in Hf; lia|]. cbn [wemf_walk length] in *. destruct (Z.ltb_spec off n); [|lia].
    destruct (H off t s Ho A) as (Hs & r & -> & E). assert (w_size r = s) as -> by (unfold head in E; congruence).
    destruct (IH ltac:(lia) fuel ltac:(lia)) as (l' & -> & M). exists (r :: l'). cbn [rbind map]. split; [reflexivity|]. rewrite E, M. reflexivity.
Qed.

Lemma walk_more (rd : Z -> result wrec) n : forall fuel off r, wemf_walk fuel rd n off = Done r -> forall fuel', (fuel <= fuel')%nat -> wemf_walk fuel' rd n off = Done r.
Proof.
  induction fuel as [|fuel IH]; intros off r H fuel' Hf; destruct fuel' as [|fuel']; cbn [wemf_walk] in *; destruct (off <? n); try (assumption || discriminate || lia).
  destruct (rd off) as [x|e]; [|exact H]. destruct (wemf_walk fuel rd n (off + w_size x)) as [y|] eqn:E; [|discriminate].
  rewrite (IH _ _ E fuel' ltac:(lia)). exact H.
Qed.

Lemma walk_ends (rd : Z -> result wrec) (at_ : Z -> Z -> Z -> Prop) n :
  (forall off r, 0 <= off -> rd off = Ok r -> at_ off (w_type r) (w_size r) /\ 0 <= w_size r) ->
  forall fuel off, 0 <= off -> n - off <= Z.of_nat fuel -> (exists r, wemf_walk fuel rd n off = Done r) \/ exists off' t, reach at_ n off off' /\ off' < n /\ at_ off' t 0.
Proof.
  intros H. induction fuel as [|fuel IH]; intros off Ho Hf; cbn [wemf_walk]; (destruct (Z.ltb_spec off n) as [Hl|Hg]; [|eauto]); [lia|].
  destruct (rd off) as [r|e] eqn:E; [|eauto]. destruct (H off r Ho E) as [A Hs]. destruct (Z.eq_dec (w_size r) 0) as [Ez|Nz].
  - right. exists off, (w_type r). rewrite Ez in A. split; [constructor|]. auto.
  - destruct (IH (off + w_size r) ltac:(lia) ltac:(lia)) as [[x ->]|(off' & t & R & L & Z0)].
    + left. cbn [rbind]. destruct x; eauto.
    + right. exists off', t. split; [|auto]. eapply reach_next; eassumption.
Qed.

Lemma walk_loops (rd : Z -> result wrec) (at_ : Z -> Z -> Z -> Prop) n :
  (forall off t s, 0 <= off -> at_ off t s -> 0 <= s /\ exists r, rd off = Ok r /\ head r = (t, s)) ->
  forall off off', reach at_ n off off' -> 0 <= off -> forall t, off' < n -> at_ off' t 0 -> forall fuel, wemf_walk fuel rd n off = OutOfFuel.
Proof.
  intros H off off' R. induction R as [off|off t s off' Hl A R IH]; intros Ho t' L A' fuel.
  - destruct (H off t' 0 Ho A') as (_ & r & E & Hr). assert (Es : w_size r = 0) by (unfold head in Hr; congruence).
    induction fuel as [|fuel IH]; cbn [wemf_walk]; (destruct (Z.ltb_spec off n); [|lia]); [reflexivity|]. rewrite E, Es, Z.add_0_r, IH. reflexivity.
  - destruct fuel as [|fuel]; cbn [wemf_walk]; (destruct (Z.ltb_spec off n); [|lia]); [reflexivity|].
    destruct (H off t s Ho A) as (Hs & r & -> & Hr). assert (w_size r = s) as -> by (unfold head in Hr; congruence).
    rewrite (IH ltac:(lia) t' L A' fuel). reflexivity.
Qed.

Lemma walk_errs (rd : Z -> result wrec) n (P : exn -> Prop) :
  (forall off, 0 <= off -> errs P (rd off) /\ forall r, rd off = Ok r -> 0 <= w_size r) ->
  forall fuel off e, 0 <= off -> wemf_walk fuel rd n off = Done (Err e) -> P e.
Proof.
  intros H. induction fuel as [|fuel IH]; intros off e Ho; cbn [wemf_walk]; (destruct (Z.ltb_spec off n); [|discriminate]); [discriminate|].
  destruct (H off Ho) as [He Hr]. destruct (rd off) as [r|e'] eqn:E; [|intros K; apply He; congruence].
  specialize (Hr r eq_refl). destruct (wemf_walk fuel rd n _) as [[l|e']|] eqn:W; cbn [rbind]; [discriminate| |discriminate].
  intros K. eapply (IH (off + w_size r)); [lia|]. rewrite W. congruence.
Qed.

Lemma ok_inj {A} (x y : A) : Ok x = Ok y -> x = y.
Proof. congruence. Qed.

(** ** EMF *)

Lemma le2_ok v : 0 <= v < 2 ^ 16 <-> fval_ok (FU LE 2) (VI v).
Proof. cbn [fval_ok]. change (8 * Z.of_nat 2) with 16. tauto. Qed.

Lemma emf_head_iff content off vs : is_bytes content ->
  (read_struct content [FU LE 4; FU LE 4] off = Ok vs <-> exists t s, vs = [VI t; VI s] /\ emf_at content off t s).
Proof.
  intros Hb. rewrite read_struct_iff; [|exact Hb|repeat constructor|cbn; lia]. unfold emf_at. split.
  - intros [St F]. inv2 F. repeat match goal with H : fval_ok (FU _ _) ?v |- _ => is_var v; destruct v as [|]; [|contradiction] end.
    eexists _, _. split; [reflexivity|]. cbn [enc_struct enc_field enc_int] in St. rewrite app_nil_r in St.
    split; [apply le4_ok; assumption|]. split; [apply le4_ok; assumption|exact St].
  - intros (t & s & -> & Ht & Hs & St). split; [|repeat constructor; apply le4_ok; assumption]. cbn [enc_struct enc_field enc_int]. rewrite app_nil_r. exact St.
Qed.

Lemma wmf_head_iff content off vs : is_bytes content ->
  (read_struct content [FU LE 4; FU LE 2] off = Ok vs <-> exists t s, vs = [VI s; VI t] /\ wmf_at content off t (2 * s)).
Proof.
  intros Hb. rewrite read_struct_iff; [|exact Hb|repeat constructor|cbn; lia]. unfold wmf_at. split.
  - intros [St F]. inv2 F. repeat match goal with H : fval_ok (FU _ _) ?v |- _ => is_var v; destruct v as [|]; [|contradiction] end.
    eexists _, _. split; [reflexivity|]. cbn [enc_struct enc_field enc_int] in St. rewrite app_nil_r in St.
    eexists. split; [reflexivity|]. split; [apply le2_ok; assumption|]. split; [apply le4_ok; assumption|exact St].
  - intros (t & s & -> & w & E & Ht & Hs & St). assert (w = s) by lia. subst w. split; [|constructor; [apply le4_ok; assumption|constructor; [apply le2_ok; assumption|constructor]]].
    cbn [enc_struct enc_field enc_int]. rewrite app_nil_r. exact St.
Qed.

Lemma emf_record_sound debug content off r : is_bytes content -> 0 <= off -> emf_record debug content off = Ok r ->
  emf_at content off (w_type r) (w_size r) /\ w_data_offset r = 8 /\ w_data_size r = w_size r - 8 + off /\
  w_shown r = if debug then Some (zfirstn (w_size r - 8 + off) (zskipn (off + 8) content)) else None.
Proof.
  intros Hb Ho. unfold emf_record. destruct (read_struct content _ off) as [vs|] eqn:E; [|discriminate]. cbn [bind].
  apply emf_head_iff in E as (t & s & -> & A); [|exact Hb]. cbv zeta.
  assert (Es : s - (8 - off) = s - 8 + off) by lia. rewrite Es.
  destruct debug.
  - unfold record_data. cbv zeta. destruct (find _ _) as [[a n]|].
    + destruct (_ <? n); [discriminate|]. cbn [bind]. intros K.
      apply ok_inj in K. subst r. cbn. auto.
    + cbn [bind]. intros K.
      apply ok_inj in K. subst r. cbn. auto.
  - cbn [bind]. intros K. apply ok_inj in K. subst r. cbn. auto.
Qed.

Lemma emf_record_complete content off t s : is_bytes content -> 0 <= off -> emf_at content off t s ->
  0 <= s /\ exists r, emf_record false content off = Ok r /\ head r = (t, s).
Proof.
  intros Hb Ho A. split; [apply A|]. unfold emf_record. rewrite (proj2 (emf_head_iff content off [VI t; VI s] Hb)); [|eauto].
  cbn [bind]. eexists. split; [reflexivity|reflexivity].
Qed.

Lemma record_data_errs maps content pos t n e : record_data maps content pos t n = Err e -> e = OtherError.
Proof.
  unfold record_data. cbv zeta. destruct (find _ _) as [[a k]|]; [|discriminate]. destruct (_ <? k); congruence.
Qed.

Lemma emf_record_errs (debug : bool) content off (P : exn -> Prop) : is_bytes content -> 0 <= off -> P ParseError -> (debug = true -> P OtherError) -> errs P (emf_record debug content off).
Proof.
  intros Hb Ho Hp Hd. unfold emf_record. apply errs_bind; [apply errs_read_struct; assumption|]. intros vs E.
  apply emf_head_iff in E as (t & s & -> & A); [|exact Hb]. cbv zeta. apply errs_bind; [|intros; apply errs_ok].
  destruct debug; [|apply errs_ok]. apply errs_bind; [|intros; apply errs_ok]. intros e K. apply record_data_errs in K as ->. auto.
Qed.

Lemma emf_header_ok content : is_bytes content -> ((exists vs, read_struct content emf_header 0 = Ok vs) <-> 108 <= len content).
Proof.
  intros Hb. rewrite read_struct_fields by (cbn; lia). change (Z.of_nat (struct_size emf_header)) with 108. rewrite Z.add_0_l. destruct (Z.leb_spec 108 (len content)).
  - split; eauto.
  - split; [intros [vs E]; discriminate|lia].
Qed.

(** ** WMF *)

Lemma wmf_record_sound debug content off r : is_bytes content -> 0 <= off -> wmf_record debug content off = Ok r ->
  wmf_at content off (w_type r) (w_size r) /\ w_data_offset r = 6 /\ w_data_size r = w_size r - 6 + off /\
  w_shown r = if debug then Some (zfirstn (w_size r - 6 + off) (zskipn (off + 6) content)) else None.
Proof.
  intros Hb Ho. unfold wmf_record. destruct (read_struct content _ off) as [vs|] eqn:E; [|discriminate]. cbn [bind].
  apply wmf_head_iff in E as (t & s & -> & A); [|exact Hb]. cbv zeta. rewrite (Z.mul_comm s 2).
  assert (Es : 2 * s - (6 - off) = 2 * s - 6 + off) by lia. rewrite Es.
  destruct debug.
  - unfold record_data. cbv zeta. destruct (find _ _) as [[a n]|].
    + destruct (_ <? n); [discriminate|]. cbn [bind]. intros K. apply ok_inj in K. subst r. cbn [w_type w_size w_data_offset w_data_size w_shown]. auto.
    + cbn [bind]. intros K. apply ok_inj in K. subst r. cbn [w_type w_size w_data_offset w_data_size w_shown]. auto.
  - cbn [bind]. intros K. apply ok_inj in K. subst r. cbn [w_type w_size w_data_offset w_data_size w_shown]. auto.
Qed.

Lemma wmf_record_complete content off t s : is_bytes content -> 0 <= off -> wmf_at content off t s ->
  0 <= s /\ exists r, wmf_record false content off = Ok r /\ head r = (t, s).
Proof.
  intros Hb Ho (w & -> & A). split; [lia|]. unfold wmf_record. rewrite (proj2 (wmf_head_iff content off [VI w; VI t] Hb)); [|exists t, w; split; [reflexivity|]; exists w; auto].
  cbn [bind]. eexists. split; [reflexivity|]. unfold head. cbn [w_type w_size]. f_equal. lia.
Qed.

Lemma wmf_record_errs (debug : bool) content off (P : exn -> Prop) : is_bytes content -> 0 <= off -> P ParseError -> (debug = true -> P OtherError) -> errs P (wmf_record debug content off).
Proof.
  intros Hb Ho Hp Hd. unfold wmf_record. apply errs_bind; [apply errs_read_struct; assumption|]. intros vs E.
  apply wmf_head_iff in E as (t & s & -> & A); [|exact Hb]. cbv zeta. apply errs_bind; [|intros; apply errs_ok].
  destruct debug; [|apply errs_ok]. apply errs_bind; [|intros; apply errs_ok]. intros e K. apply record_data_errs in K as ->. auto.
Qed.


Lemma wmf_header_iff content off : is_bytes content -> (wmf_header content off = Ok tt <-> exists h, wmf_head h /\ stored_at content off h).
Proof.
  intros Hb. unfold wmf_header, wmf_head. set (ks := [FU LE 2; FU LE 2; FU LE 2; FU LE 2; FU LE 2; FU LE 2; FU LE 4; FU LE 2]). split.
  - destruct (read_struct content ks off) as [vs|] eqn:E; [|discriminate]. cbn [bind]. unfold ks in E. apply read_struct_iff in E as [St F]; [|exact Hb|repeat constructor|cbn; lia].
    inv2 F. repeat match goal with H : fval_ok (FU _ _) ?v |- _ => is_var v; destruct v as [|]; [|contradiction] end.
    match type of St with context [enc_struct _ (VI ?a :: VI ?b :: _)] => rename a into ft, b into rs end.
    intros G. destruct (existsb (Z.eqb ft) [1; 2]) eqn:X; [|discriminate]. cbn [guard bind] in G. destruct (Z.eqb_spec rs 9) as [->|]; [|discriminate].
    cbn [enc_struct enc_field enc_int] in St. eexists. split; [|exact St]. exists ft. eexists. split; [|split; [|reflexivity]].
    + rewrite !len_app, !len_le_enc. reflexivity.
    + apply existsb_exists in X as (x & I & X). apply Z.eqb_eq in X. subst x. exact I.
  - intros (h & (ft & rest & Lr & I & ->) & St). pose proof (stored_at_inside _ _ _ St) as [Ho Hi]. rewrite !len_app, !len_le_enc, Lr in Hi.
    rewrite read_struct_fields by (cbn; lia). change (Z.of_nat (struct_size ks)) with 18. destruct (Z.leb_spec (off + 18) (len content)); [|lia].
    destruct St as (pre & post & -> & L). rewrite zskipn_app_len by (symmetry; exact L). unfold ks. cbn [bind fields map_field fsize endian_int].
    rewrite <- !app_assoc. change (Z.of_nat 2) with 2. rewrite (zfirstn_app_len (le_enc 2 ft)) by (rewrite len_le_enc; reflexivity).
    rewrite (zskipn_app_len (le_enc 2 ft)) by (rewrite len_le_enc; reflexivity). rewrite (zfirstn_app_len (le_enc 2 9)) by (rewrite len_le_enc; reflexivity).
    rewrite le_int_enc by (destruct I as [<-|[<-|[]]]; cbn; lia). rewrite le_int_enc by (cbn; lia).
    replace (existsb (Z.eqb ft) [1; 2]) with true by (destruct I as [<-|[<-|[]]]; reflexivity). reflexivity.
Qed.

Lemma wmf_placeable_ok content : wmf_placeable content = if 22 <=? len content then Ok tt else Err ParseError.
Proof. unfold wmf_placeable. rewrite read_struct_fields by (cbn; lia). cbn [struct_size fsize fold_right map Nat.add Z.of_nat Pos.of_succ_nat Pos.succ]. rewrite Z.add_0_l. destruct (22 <=? len content); reflexivity. Qed.

Lemma wmf_header_err content off e : 0 <= off -> wmf_header content off = Err e -> e = ParseError.
Proof.
  intros Ho. unfold wmf_header. rewrite read_struct_fields by (lia || (cbn; lia)). destruct (_ <=? _); cbn [bind]; [|congruence].
  cbn [fields map_field endian_int]. destruct (existsb _ _); cbn [guard bind]; [|congruence]. destruct (_ =? 9); cbn [guard]; congruence.
Qed.

Lemma read_wmf_cases content : is_bytes content ->
  (exists start, wmf_start content start /\ 0 <= start /\ forall fuel debug, read_wmf fuel debug content = wemf_walk fuel (wmf_record debug content) (len content) start) \/
  ((forall start, ~ wmf_start content start) /\ forall fuel debug, read_wmf fuel debug content = Done (Err ParseError)).
Proof.
  intros Hb. unfold read_wmf. cbv zeta. destruct (Z.ltb_spec (len content) 4) as [Hs|Hs].
  { right. split; [|reflexivity]. intros start (p & h & Lh & _ & St & _). apply stored_at_inside in St as [_ Hi]. rewrite len_app in Hi. pose proof (len_nonneg p). lia. }
  destruct (list_eqb (zfirstn 4 content) [0xd7; 0xcd; 0xc6; 0x9a]) eqn:Sg.
  - apply list_eqb_eq in Sg. rewrite wmf_placeable_ok. destruct (Z.leb_spec 22 (len content)) as [L22|L22]; cbn [bind].
    + destruct (wmf_header content 22) as [[]|e] eqn:E.
      * left. exists 40. split; [|split; [lia|reflexivity]]. apply wmf_header_iff in E as (h & Hh & St); [|exact Hb].
        assert (Lh : len h = 18) by (destruct Hh as (ft & rest & Lr & _ & ->); rewrite !len_app, !len_le_enc, Lr; reflexivity).
        exists (zfirstn 22 content), h. split; [exact Lh|]. split; [exact Hh|].
        assert (L : len (zfirstn 22 content) = 22) by (rewrite len_zfirstn; lia).
        split; [|split; [rewrite L; reflexivity|]].
        -- apply stored_at_app. split; [|rewrite L; exact St]. exists [], (zskipn 22 content). split; [|reflexivity]. cbn [app]. rewrite zfirstn_zskipn. reflexivity.
        -- right. exists (zfirstn 18 (zskipn 4 content)). split; [rewrite len_zfirstn, len_zskipn; lia|]. rewrite <- Sg.
           rewrite <- (zfirstn_zskipn content 4) at 1. assert (L4 : len (zfirstn 4 content) = 4) by (rewrite len_zfirstn; lia).
           rewrite zfirstn_app_ge by lia. rewrite L4. reflexivity.
      * right. assert (e = ParseError) as -> by (eapply wmf_header_err; [|exact E]; lia). split; [|reflexivity].
        intros start (p & h & Lh & Hh & St & _ & [->|(r & Lr & ->)]).
        -- cbn [app] in St. destruct Hh as (ft & rest & Lr & I & ->). destruct St as (pre & post & -> & L). apply len_zero in L. subst pre. cbn [app] in Sg.
           rewrite <- !app_assoc in Sg. destruct I as [<-|[<-|[]]]; cbn in Sg; discriminate.
        -- apply stored_at_app in St as [_ St]. rewrite len_app, Lr in St. change (0 + (len [215; 205; 198; 154] + 18)) with 22 in St.
           rewrite (proj2 (wmf_header_iff content 22 Hb)) in E; [discriminate|eauto].
    + right. split; [|reflexivity]. intros start (p & h & Lh & Hh & St & _ & [->|(r & Lr & ->)]).
      -- cbn [app] in St. destruct Hh as (ft & rest & Lr & I & ->). destruct St as (pre & post & -> & L). apply len_zero in L. subst pre. cbn [app] in Sg.
         rewrite <- !app_assoc in Sg. destruct I as [<-|[<-|[]]]; cbn in Sg; discriminate.
      -- apply stored_at_inside in St as [_ Hi]. rewrite !len_app, Lr, Lh in Hi. change (len [215; 205; 198; 154]) with 4 in Hi. lia.
  - destruct (wmf_header content 0) as [[]|e] eqn:E.
    + left. exists 18. split; [|split; [lia|reflexivity]]. apply wmf_header_iff in E as (h & Hh & St); [|exact Hb].
      assert (Lh : len h = 18) by (destruct Hh as (ft & rest & Lr & _ & ->); rewrite !len_app, !len_le_enc, Lr; reflexivity).
      exists [], h. split; [exact Lh|]. split; [exact Hh|]. split; [exact St|]. split; [reflexivity|]. left. reflexivity.
    + right. assert (e = ParseError) as -> by (eapply wmf_header_err; [|exact E]; lia). split; [|reflexivity].
      intros start (p & h & Lh & Hh & St & _ & [->|(r & Lr & ->)]).
      * rewrite (proj2 (wmf_header_iff content 0 Hb)) in E; [discriminate|eauto].
      * apply stored_at_app in St as [St _]. apply stored_at_app in St as [St _]. destruct St as (pre & post & -> & L). apply len_zero in L. subst pre.
        change ([] ++ [215; 205; 198; 154] ++ post) with ([215; 205; 198; 154] ++ post) in Sg.
        rewrite (zfirstn_app_len [215; 205; 198; 154] post 4 eq_refl) in Sg. discriminate.
Qed.

Lemma wmf_start_unique content a b : wmf_start content a -> wmf_start content b -> a = b.
Proof.
  assert (K : forall h r post post', wmf_head h -> h ++ post <> ([215; 205; 198; 154] ++ r) ++ post').
  { intros h r post post' (ft & rest & _ & I & ->) E. rewrite <- !app_assoc in E. destruct I as [<-|[<-|[]]]; cbn in E; discriminate. }
  intros (p & h & Lh & Hh & St & -> & P) (p' & h' & Lh' & Hh' & St' & -> & P'). f_equal.
  destruct St as (pre & post & E & L). apply len_zero in L. subst pre. destruct St' as (pre & post' & E' & L). apply len_zero in L. subst pre. cbn [app] in *. rewrite E in E'.
  destruct P as [->|(r & Lr & ->)]; destruct P' as [->|(r' & Lr' & ->)].
  - reflexivity.
  - exfalso. cbn [app] in E'. rewrite <- app_assoc in E'. exact (K h (r' ++ h' ++ post') post [] Hh ltac:(rewrite app_nil_r; exact E')).
  - exfalso. cbn [app] in E'. rewrite <- app_assoc in E'. exact (K h' (r ++ h ++ post) post' [] Hh' ltac:(rewrite app_nil_r; symmetry; exact E')).
  - unfold len in *. cbn [app length]. lia.
Qed.

(** ** Well-formed files *)

Lemma emf_chain rs : Forall emf_wf rs -> forall pre content, content = pre ++ concat (map emf_bytes rs) ->
  chain (emf_at content) (len content) (len pre) (map (fun r : Z * bytes => (fst r, 8 + len (snd r))) rs).
Proof.
  induction rs as [|r rs IH]; intros W pre content E.
  - cbn [map concat] in *. rewrite app_nil_r in E. subst. constructor. lia.
  - inversion W as [|? ? [W1 W2] W']. subst. cbn [map concat] in *. pose proof (len_nonneg (snd r)) as Hn. constructor.
    + assert (Lb : len (emf_bytes r) = 8 + len (snd r)) by (unfold emf_bytes; rewrite !len_app, !len_le_enc; lia).
      rewrite !len_app, Lb. pose proof (len_nonneg (concat (map emf_bytes rs))). lia.
    + split; [exact W1|]. split; [split; [lia|exact W2]|]. exists pre, (snd r ++ concat (map emf_bytes rs)). split; [|reflexivity]. unfold emf_bytes. rewrite <- !app_assoc. reflexivity.
    + replace (len pre + (8 + len (snd r))) with (len (pre ++ emf_bytes r)) by (unfold emf_bytes; rewrite !len_app, !len_le_enc; lia).
      apply IH; [exact W'|]. rewrite <- app_assoc. reflexivity.
Qed.

Lemma wmf_chain rs : Forall wmf_wf rs -> forall pre content, content = pre ++ concat (map wmf_bytes rs) ->
  chain (wmf_at content) (len content) (len pre) (map (fun r : Z * bytes => (fst r, 6 + len (snd r))) rs).
Proof.
  induction rs as [|r rs IH]; intros W pre content E.
  - cbn [map concat] in *. rewrite app_nil_r in E. subst. constructor. lia.
  - inversion W as [|? ? (W1 & W2 & W3) W']. subst. cbn [map concat] in *. pose proof (len_nonneg (snd r)) as Hn. constructor.
    + assert (Lb : len (wmf_bytes r) = 6 + len (snd r)) by (unfold wmf_bytes; rewrite !len_app, !len_le_enc; lia).
      rewrite !len_app, Lb. pose proof (len_nonneg (concat (map wmf_bytes rs))). lia.
    + exists (3 + len (snd r) / 2). split; [lia|]. split; [exact W1|]. split; [split; [|exact W2]; lia|].
      exists pre, (snd r ++ concat (map wmf_bytes rs)). split; [|reflexivity]. unfold wmf_bytes. rewrite <- !app_assoc. reflexivity.
    + replace (len pre + (6 + len (snd r))) with (len (pre ++ wmf_bytes r)) by (unfold wmf_bytes; rewrite !len_app, !len_le_enc; lia).
      apply IH; [exact W'|]. rewrite <- app_assoc. reflexivity.
Qed.

(** ** Raster operations *)

(** Reading reverse Polish notation with a stack. *)
Fixpoint rpn_run (s : String.string) (st : list rop) : option (list rop) :=
  match s with
  | String.EmptyString => Some st
  | String.String c s =>
      if Ascii.eqb c "P" then rpn_run s (Operand P_ :: st)
      else if Ascii.eqb c "S" then rpn_run s (Operand S_ :: st)
      else if Ascii.eqb c "D" then rpn_run s (Operand D_ :: st)
      else if Ascii.eqb c "N" then match st with r :: st => rpn_run s (Not r :: st) | _ => None end
      else match st with
           | y :: x :: st =>
               if Ascii.eqb c "A" then rpn_run s (And x y :: st)
               else if Ascii.eqb c "O" then rpn_run s (Or x y :: st)
               else if Ascii.eqb c "X" then rpn_run s (Xor x y :: st)
               else None
           | _ => None
           end
  end.

Lemma string_app_assoc (a b c : String.string) : ((a ++ b) ++ c = a ++ b ++ c)%string.
Proof. induction a as [|x a IH]; [reflexivity|]. cbn [String.append]. rewrite IH. reflexivity. Qed.

Lemma string_app_nil (a : String.string) : (a ++ "" = a)%string.
Proof. induction a as [|x a IH]; [reflexivity|]. cbn [String.append]. rewrite IH. reflexivity. Qed.

Lemma rpn_run_app r a : rpn r a -> forall s st, rpn_run (a ++ s) st = rpn_run s (r :: st).
Proof. induction 1; intros s st; rewrite ?string_app_assoc; [reflexivity|reflexivity|reflexivity| | | |]; rewrite ?IHrpn, ?IHrpn1, ?IHrpn2; reflexivity. Qed.

Lemma rpn_run_complete r a : rpn r a -> rpn_run a [] = Some [r].
Proof. intros H. pose proof (rpn_run_app r a H ""%string []) as E. rewrite string_app_nil in E. exact E. Qed.

Fixpoint sconcat (l : list String.string) : String.string :=
  match l with [] => ""%string | x :: l => (sconcat l ++ x)%string end.

Lemma rpn_run_sound s : forall st ss r, Forall2 rpn st ss -> rpn_run s st = Some [r] -> rpn r (sconcat ss ++ s).
Proof.
  induction s as [|c s IH]; intros st ss r F E; cbn [rpn_run] in E.
  - assert (st = [r]) by congruence. subst st. inversion F as [|? ? ? ? R F']. inversion F'. subst. cbn [sconcat]. rewrite string_app_nil. exact R.
  - assert (K : forall t st' b ss', (t = sconcat (b :: ss') -> Forall2 rpn st' (b :: ss') -> rpn_run s st' = Some [r] -> rpn r (t ++ s))%string).
    { intros t st' b ss' -> F' E'. exact (IH st' (b :: ss') r F' E'). }
    replace (sconcat ss ++ String.String c s)%string with ((sconcat ss ++ String.String c "") ++ s)%string by (rewrite string_app_assoc; reflexivity).
    destruct (Ascii.eqb_spec c "P") as [->|]; [eapply K; [|constructor; [apply rpn_p|exact F]|exact E]; reflexivity|].
    destruct (Ascii.eqb_spec c "S") as [->|]; [eapply K; [|constructor; [apply rpn_s|exact F]|exact E]; reflexivity|].
    destruct (Ascii.eqb_spec c "D") as [->|]; [eapply K; [|constructor; [apply rpn_d|exact F]|exact E]; reflexivity|].
    destruct (Ascii.eqb_spec c "N") as [->|].
    { destruct st as [|x st]; [discriminate|]. inversion F as [|? a ? ss' R F']. subst. eapply K; [|constructor; [apply rpn_not; exact R|exact F']|exact E]. cbn [sconcat]. apply string_app_assoc. }
    destruct st as [|y [|x st]]; [discriminate|discriminate|]. inversion F as [|? b ? ss' Ry F']. subst. inversion F' as [|? a ? ss'' Rx F'']. subst.
    destruct (Ascii.eqb_spec c "A") as [->|]; [eapply K; [|constructor; [apply rpn_and; [exact Rx|exact Ry]|exact F'']|exact E]; cbn [sconcat]; rewrite !string_app_assoc; reflexivity|].
    destruct (Ascii.eqb_spec c "O") as [->|]; [eapply K; [|constructor; [apply rpn_or; [exact Rx|exact Ry]|exact F'']|exact E]; cbn [sconcat]; rewrite !string_app_assoc; reflexivity|].
    destruct (Ascii.eqb_spec c "X") as [->|]; [eapply K; [|constructor; [apply rpn_xor; [exact Rx|exact Ry]|exact F'']|exact E]; cbn [sconcat]; rewrite !string_app_assoc; reflexivity|].
    discriminate.
Qed.

Definition rpn_read (s : String.string) : option rop :=
  match rpn_run s [] with Some [r] => Some r | _ => None end.

Lemma rpn_read_iff s r : rpn_read s = Some r <-> rpn r s.
Proof.
  unfold rpn_read. split.
  - destruct (rpn_run s []) as [[|x [|]]|] eqn:E; try discriminate. intros K. assert (x = r) by congruence. subst x. exact (rpn_run_sound s [] [] r (Forall2_nil _) E).
  - intros R. rewrite (rpn_run_complete r s R). reflexivity.
Qed.

Definition rop_is (code : Z) (r : rop) : bool :=
  forallb (fun p => forallb (fun s => forallb (fun d => Bool.eqb (rop_value r p s d) (code_value code p s d)) [true; false]) [true; false]) [true; false].

Lemma rop_is_iff code r : rop_is code r = true <-> forall p s d, rop_value r p s d = code_value code p s d.
Proof.
  unfold rop_is. cbn [forallb]. rewrite !andb_true_iff, !eqb_true_iff. split.
  - intros H [] [] []; tauto.
  - intros H. rewrite !H. tauto.
Qed.

Definition right_name (code : Z) (name : String.string) : bool :=
  existsb (fun e => String.eqb (fst e) name && rop_is code (snd e)) named_rops || match rpn_read name with Some r => rop_is code r | None => false end.

Lemma right_name_iff code name : right_name code name = true <-> named_right code name.
Proof.
  unfold right_name, named_right, means. rewrite orb_true_iff, existsb_exists. split.
  - intros [([n r] & I & E)|E].
    + apply andb_true_iff in E as [E1 E2]. cbn [fst snd] in *. apply String.eqb_eq in E1. subst n. pose proof (proj1 (rop_is_iff code r) E2). eauto.
    + destruct (rpn_read name) as [r|] eqn:R; [|discriminate]. apply rpn_read_iff in R. pose proof (proj1 (rop_is_iff code r) E). eauto.
  - intros (r & [I|R] & V).
    + left. exists (name, r). split; [exact I|]. cbn [fst snd]. rewrite String.eqb_refl. apply rop_is_iff. exact V.
    + right. apply rpn_read_iff in R. rewrite R. apply rop_is_iff. exact V.
Qed.

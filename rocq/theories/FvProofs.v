From Verif Require Import Base BaseFacts SeqSpec SeqFacts CoreModel CoreProofs StrModel StrFacts DictModel RdModel RdSpec RdFacts TvModel TvSpec TvProofs CatModel CatSpec CatProofs
  FhModel FhSpec FhProofs FvModel FvSpec.

(** ** Data items *)

Lemma part_iff data off size d : 0 <= off -> 0 <= size -> (part data off size d <-> d = pyslice data off (off + size)).
Proof.
  intros Ho Hs. rewrite pyslice_nonneg by lia. replace (off + size - off) with size by lia. unfold part. destruct (Z_le_gt_dec off (len data)) as [L|L].
  - rewrite <- available_iff by lia. split; [intros [H _]; apply H; exact L|]. intros H. split; [intros _; exact H|lia].
  - assert (E : zfirstn size (zskipn off data) = []).
    { assert (len (zfirstn size (zskipn off data)) = 0) as Z0. { rewrite len_zfirstn, len_zskipn by lia. lia. } destruct (zfirstn _ _); [reflexivity|unfold len in Z0; cbn [length] in Z0; lia]. }
    rewrite E. split; [intros [_ H]; apply H; lia|]. intros ->. split; [lia|reflexivity].
Qed.

Lemma item_value_ok values private poff i : item_wf poff i -> is_value i = true -> item_data values private poff i (item_value values private poff i) /\
  forall o, item_data values private poff i o -> o = item_value values private poff i.
Proof.
  destruct i as [t o n|t d]; cbn [item_wf]; unfold is_value; cbn [kind]; intros W V.
  - destruct W as (R & Ho & Hn & Hp). unfold by_range in R. cbn [item_value]. assert (G : forall l, one_of t l = true <-> In t l) by (intros; apply one_of_iff).
    destruct (one_of t [32; 34; 64; 66]) eqn:A.
    { apply G in A. assert (In t [32; 34; 48; 50; 64; 66; 242]) by (cbn [In] in *; lia). split; [apply id_public; [assumption|]; apply part_iff; auto; lia|].
      intros x H'. inversion H' as [|? ? ? ? I P|? ? ? ? I P|]; subst; [f_equal; apply part_iff; auto|]. cbn [In] in A, I. lia. }
    destruct (one_of t [33; 65]) eqn:B.
    { apply G in B. specialize (Hp B). split; [apply id_private; [assumption|]; apply part_iff; auto; lia|].
      intros x H'. inversion H' as [|? ? ? ? I P|? ? ? ? I P|]; subst; [cbn [In] in B, I; lia|]. f_equal. apply part_iff; auto; lia. }
    destruct (one_of t [48; 50; 242]) eqn:C.
    { apply G in C. assert (In t [32; 34; 48; 50; 64; 66; 242]) by (cbn [In] in *; lia). split; [apply id_public; [assumption|]; apply part_iff; auto; lia|].
      intros x H'. inversion H' as [|? ? ? ? I P|? ? ? ? I P|]; subst; [f_equal; apply part_iff; auto|]. cbn [In] in C, I. lia. }
    exfalso. assert (In t [32; 34; 64; 66] \/ In t [33; 65] \/ In t [48; 50; 242]) as [X|[X|X]] by (cbn [In] in *; lia); apply G in X; congruence.
  - cbn [item_value]. assert (G : forall l, one_of t l = true <-> In t l) by (intros; apply one_of_iff). destruct (one_of t [0; 2]) eqn:A.
    { apply G in A. split; [apply id_number; exact A|]. intros x H'. inversion H'; subst; [reflexivity|contradiction]. }
    assert (N : ~ In t [0; 2]) by (intros X; apply G in X; congruence).
    replace (one_of t [16; 18]) with false. 2: { symmetry. destruct (one_of t [16; 18]) eqn:B; [|reflexivity]. apply G in B. cbn [In] in B. destruct B as [<-|[<-|[]]]; discriminate. }
    split; [apply id_none; exact N|]. intros x H'. inversion H'; subst; [contradiction|reflexivity].
Qed.

Definition shown_as (decode : Z -> option bytes -> result str) (values private : bytes) (poff index : Z) (i : tv_item) : result str :=
  let data := item_value values private poff i in
  if one_of (item_type i) [0x01; 0x21; 0x25; 0x31; 0x35; 0x41; 0x45] && (match data with None => true | Some d => len d =? 0 end)
  then Ok private_text else decode index data.

Lemma shown_iff decode values private poff index i r : item_wf poff i -> is_value i = true ->
  (item_shows decode values private poff index i r <-> shown_as decode values private poff index i = r).
Proof.
  intros W V. destruct (item_value_ok values private poff i W V) as [D U]. unfold shown_as.
  assert (K : one_of (item_type i) [0x01; 0x21; 0x25; 0x31; 0x35; 0x41; 0x45] = true <-> private_kind i) by (apply one_of_iff).
  assert (Em : forall o : option bytes, match o with None => true | Some d => len d =? 0 end = true <-> o = None \/ o = Some []).
  { intros [d|]; [|split; auto]. rewrite Z.eqb_eq. split; [|intros [H|H]; [discriminate|assert (d = []) as -> by congruence; reflexivity]].
    destruct d; [auto|]. unfold len. cbn [length]. lia. }
  destruct (_ && _) eqn:B.
  - apply andb_true_iff in B as [B1 B2]. apply K in B1. apply Em in B2. split.
    + intros [data H _ _|data H N]; [reflexivity|]. apply U in H. subst data. tauto.
    + intros <-. apply (is_private _ _ _ _ _ _ _ D B1 B2).
  - assert (N : ~ (private_kind i /\ (item_value values private poff i = None \/ item_value values private poff i = Some []))).
    { intros [X Y]. apply K in X. apply Em in Y. rewrite X, Y in B. discriminate. }
    split.
    + intros [data H P Q|data H _]; apply U in H; subst data; [|reflexivity]. exfalso. apply N. auto.
    + intros <-. apply (is_decoded _ _ _ _ _ _ _ D N).
Qed.

Lemma is_value_iff i : one_of (item_type i) [0x10; 0x12] = negb (is_value i).
Proof. unfold is_value. rewrite negb_involutive. unfold one_of. cbn [existsb]. rewrite orb_false_r. destruct i; reflexivity. Qed.

Lemma read_items_step decode values private poff index i rest : is_value i = true ->
  read_items decode values private poff index (i :: rest) =
    (do v <- shown_as decode values private poff index i; do l <- read_items decode values private poff (index + 1) rest; Ok (v :: l)).
Proof. intros V. cbn [read_items]. rewrite is_value_iff, V. reflexivity. Qed.

Lemma read_items_iff decode values private poff items : Forall (item_wf poff) items -> forall index,
  (forall vs, read_items decode values private poff index items = Ok vs <->
     length vs = length (filter is_value items) /\
     forall k i v, nth_error (filter is_value items) k = Some i -> nth_error vs k = Some v -> item_shows decode values private poff (index + Z.of_nat k) i (Ok v)) /\
  (forall x, read_items decode values private poff index items = Err x <->
     exists k i, nth_error (filter is_value items) k = Some i /\ item_shows decode values private poff (index + Z.of_nat k) i (Err x) /\
       forall j i', (j < k)%nat -> nth_error (filter is_value items) j = Some i' -> exists v, item_shows decode values private poff (index + Z.of_nat j) i' (Ok v)).
Proof.
  induction 1 as [|i items W F IH]; intros index.
  - cbn [read_items filter]. split.
    + intros vs. split; [intros H; assert (vs = []) as -> by congruence; split; [reflexivity|]; intros [|k] i v H1 H2; discriminate|].
      intros [L _]. destruct vs; [reflexivity|discriminate].
    + intros x. split; [discriminate|]. intros ([|k] & i & H & _); discriminate.
  - destruct (is_value i) eqn:V.
    2: { cbn [read_items filter]. rewrite is_value_iff, V. cbn [negb]. apply IH. }
    rewrite read_items_step by exact V. cbn [filter]. rewrite V. destruct (IH (index + 1)) as [I1 I2].
    assert (Sh : forall r, item_shows decode values private poff index i r <-> shown_as decode values private poff index i = r) by (intros r; apply shown_iff; assumption).
    assert (Z0 : forall k, index + Z.of_nat (S k) = index + 1 + Z.of_nat k) by lia.
    split.
    + intros vs. split.
      * destruct (shown_as _ _ _ _ index i) as [v|x] eqn:E; cbn [bind]; [|discriminate]. destruct (read_items _ _ _ _ (index + 1) items) as [l|x] eqn:R; cbn [bind]; [|discriminate].
        intros H. assert (vs = v :: l) as -> by congruence. destruct (proj1 (I1 l) eq_refl) as [L N]. split; [cbn [length]; congruence|]. intros [|k] i' v' H1 H2; cbn [nth_error] in H1, H2.
        -- assert (i' = i /\ v' = v) as [-> ->] by (split; congruence). change (Z.of_nat 0) with 0. rewrite Z.add_0_r. apply Sh. reflexivity.
        -- rewrite Z0. eapply N; eassumption.
      * intros [L N]. destruct vs as [|v vs]; [discriminate|]. cbn [length] in L. pose proof (N 0%nat i v eq_refl eq_refl) as S0. change (Z.of_nat 0) with 0 in S0. rewrite Z.add_0_r in S0. apply Sh in S0. rewrite S0. cbn [bind].
        rewrite (proj2 (I1 vs)); [reflexivity|]. split; [congruence|]. intros k i' v' H1 H2. rewrite <- Z0. apply (N (S k)); assumption.
    + intros x. split.
      * destruct (shown_as _ _ _ _ index i) as [v|y] eqn:E; cbn [bind].
        2: { intros H. assert (y = x) as -> by congruence. exists 0%nat, i. split; [reflexivity|]. change (Z.of_nat 0) with 0. rewrite Z.add_0_r. split; [apply Sh; reflexivity|]. intros j i' Hj. lia. }
        destruct (read_items _ _ _ _ (index + 1) items) as [l|y] eqn:R; cbn [bind]; [discriminate|]. intros H. assert (y = x) as -> by congruence. destruct (proj1 (I2 x) eq_refl) as (k & i' & N & S1 & B).
        exists (S k), i'. split; [exact N|]. rewrite Z0. split; [exact S1|]. intros [|j] i2 Hj Hn; cbn [nth_error] in Hn.
        -- assert (i2 = i) as -> by congruence. exists v. change (Z.of_nat 0) with 0. rewrite Z.add_0_r. apply Sh. reflexivity.
        -- rewrite Z0. apply B; [lia|exact Hn].
      * intros ([|k] & i' & N & S1 & B); cbn [nth_error] in N.
        -- assert (i' = i) as -> by congruence. change (Z.of_nat 0) with 0 in S1. rewrite Z.add_0_r in S1. apply Sh in S1. rewrite S1. reflexivity.
        -- destruct (B 0%nat i ltac:(lia) eq_refl) as [v S0]. change (Z.of_nat 0) with 0 in S0. rewrite Z.add_0_r in S0. apply Sh in S0. rewrite S0. cbn [bind].
           rewrite (proj2 (I2 x)); [reflexivity|]. exists k, i'. split; [exact N|]. rewrite <- Z0. split; [exact S1|]. intros j i2 Hj Hn. rewrite <- Z0. apply (B (S j)); [lia|exact Hn].
Qed.

(** ** Backtraces *)

Lemma Forall2_n32 l ds : Forall2 i32 l ds <-> Forall n32 l /\ ds = map (le_enc 4) l.
Proof.
  split; [induction 1 as [|v d l ds [A ->] F [B ->]]; [split; [constructor|reflexivity]|]; split; [constructor; assumption|reflexivity]|].
  intros [F ->]. induction F; cbn; constructor; auto. split; [assumption|reflexivity].
Qed.

Lemma Forall2_n8 l ds : Forall2 i8 l ds <-> Forall n8 l /\ ds = map (fun v => [v]) l.
Proof.
  split; [induction 1 as [|v d l ds [A ->] F [B ->]]; [split; [constructor|reflexivity]|]; split; [constructor; assumption|reflexivity]|].
  intros [F ->]. induction F; cbn; constructor; auto. split; [assumption|reflexivity].
Qed.

Lemma concat_single (l : list Z) : concat (map (fun v => [v]) l) = l.
Proof. induction l; cbn; congruence. Qed.

Lemma reads_backtrace : reads rd_backtrace (fun x d => backtrace_bytes (fst (fst x)) (snd (fst x)) (snd x) d).
Proof.
  unfold rd_backtrace. eapply reads_iff; [fh_reads fail|]. intros [[ids offsets] indexes] d _. cbv beta. cbn [fst snd]. unfold backtrace_bytes. split.
  - intros (a1 & ? & ? & H1 & (a2 & ? & ? & H2 & (a3 & ? & ? & H3 & (a4 & ? & ? & H4 & (a5 & ? & ? & H5 & (a6 & ? & ? & [L6 (d6 & H6 & ->)] & (a7 & ? & ? & [L7 (d7 & H7 & ->)] & (a8 & ? & ? & [L8 (d8 & H8 & ->)] & [E ->] & ->) & ->) & ->) & ->) & ->) & ->) & ->) & ->).
    assert (ids = a6 /\ offsets = a7 /\ indexes = a8) as (-> & -> & ->) by (repeat split; congruence).
    rewrite count_len in L6 by (destruct H3 as [H3 _]; unfold n8 in H3; lia). rewrite count_len in L7, L8 by (destruct H4 as [H4 _]; unfold n8 in H4; lia). subst a3 a4.
    apply Forall2_n32 in H7 as [H7 ->]. apply Forall2_n8 in H8 as [H8 ->]. rewrite concat_single. apply Forall2_uuids in H6 as [H6 ->].
    split; [congruence|]. split; [exact H6|]. split; [exact H7|]. split; [exact H8|].
    do 5 (apply fields_more; [first [assumption | eexists; eassumption]|]). do 3 (apply fields_more; [reflexivity|]). now apply fields_nil.
  - intros (L & F6 & F7 & F8 & H). f_out. subst. repeat match goal with H : any _ _ |- _ => destruct H as [? H] end.
    do 5 (do 3 eexists; split; [|split; [|reflexivity]]; [eassumption|]).
    eexists ids, _, _. split; [split; [unfold len; lia|]; exists ids; split; [apply Forall2_uuids; auto|reflexivity]|]. split; [|reflexivity].
    eexists offsets, _, _. split; [split; [unfold len; lia|]; eexists; split; [apply Forall2_n32; auto|reflexivity]|]. split; [|reflexivity].
    match goal with |- context [(ids, offsets, ?i)] => eexists i, _, [] end. split; [split; [unfold len in *; lia|]; eexists; split; [apply Forall2_n8; auto|reflexivity]|]. split; [auto|]. rewrite concat_single. reflexivity.
Qed.

Lemma znth_split {A} (l : list A) i : 0 <= i -> (forall x, znth_error l i = Some x <-> exists pre post, l = pre ++ x :: post /\ len pre = i) /\ (znth_error l i = None <-> len l <= i).
Proof.
  revert i. induction l as [|y l IH]; intros i Hi; cbn [znth_error].
  - split; [intros x; split; [discriminate|]; intros (pre & post & E & _); destruct pre; discriminate|]. split; [intros _; unfold len; cbn; lia|reflexivity].
  - destruct (Z.eqb_spec i 0) as [->|N].
    + split; [|split; [discriminate|unfold len; cbn [length]; lia]]. intros x. split.
      * intros H. assert (x = y) as -> by congruence. exists [], l. split; reflexivity.
      * intros (pre & post & E & L). destruct pre; [|unfold len in L; cbn [length] in L; lia]. cbn in E. congruence.
    + destruct (IH (i - 1) ltac:(lia)) as [I1 I2]. split.
      * intros x. rewrite I1. split; intros (pre & post & E & L).
        -- exists (y :: pre), post. split; [cbn; congruence|]. unfold len in *. cbn [length]. lia.
        -- destruct pre as [|z pre]; [unfold len in L; cbn in L; lia|]. exists pre, post. split; [cbn in E; congruence|]. unfold len in *. cbn [length] in L. lia.
      * rewrite I2. unfold len. cbn [length]. lia.
Qed.

Lemma image_iff ids i : n8 i -> (forall u, (if i =? 0xff then Ok (repeat 0 16) else pyindex ids i) = Ok u <-> image_of ids i (Some u)) /\
  (forall x, (if i =? 0xff then Ok (repeat 0 16) else pyindex ids i) = Err x <-> image_of ids i None /\ x = IndexError).
Proof.
  intros Hi. unfold n8 in Hi. destruct (Z.eqb_spec i 0xff) as [->|N].
  - split.
    + intros u. split; [intros H; assert (u = repeat 0 16) as -> by congruence; now apply im_none|]. intros H. inversion H; subst; [reflexivity|congruence].
    + intros x. split; [discriminate|]. intros [H _]. inversion H; congruence.
  - unfold pyindex. destruct (Z.ltb_spec i 0); [lia|]. destruct (Z.ltb_spec i 0); [lia|]. destruct (znth_split ids i ltac:(lia)) as [Z1 Z2]. destruct (znth_error ids i) as [v|] eqn:E.
    + destruct (proj1 (Z1 v) eq_refl) as (pre & post & -> & L). split.
      * intros u. split; [intros H'; assert (u = v) as -> by congruence; eapply im_id; eauto|]. intros H'. inversion H' as [|u' pre' post' N' E' L'|]; subst; [congruence|].
        assert (Some u = Some v); [|congruence]. symmetry. apply Z1. eauto.
      * intros x. split; [discriminate|]. intros [H' _]. inversion H' as [| |N' L']; subst. exfalso. apply Z2 in L'. discriminate.
    + pose proof (proj1 Z2 eq_refl) as L. split.
      * intros u. split; [discriminate|]. intros H'. inversion H' as [|u' pre' post' N' E' L'|]; [congruence|]. exfalso. revert L. rewrite E', len_app. unfold len in *. cbn [length]. unfold bytes in *. lia.
      * intros x. split; [intros H'; split; [now apply im_missing|congruence]|]. intros [_ ->]. reflexivity.
Qed.

Lemma frames_iff ids indexes : Forall n8 indexes -> forall offsets, len indexes = len offsets ->
  (forall fs, frames ids offsets indexes = Ok fs <-> frames_of ids offsets indexes fs) /\
  (forall x, frames ids offsets indexes = Err x <-> x = IndexError /\ exists i, In i indexes /\ image_of ids i None).
Proof.
  unfold frames_of. induction 1 as [|i indexes Hi F IH]; intros [|o offsets] L; cbn [frames]; try (unfold len in L; cbn [length] in L; lia).
  - split.
    + intros fs. split; [intros H; assert (fs = []) as -> by congruence; split; constructor|]. intros [M _]. destruct fs; [reflexivity|discriminate].
    + intros x. split; [discriminate|]. intros (_ & i & [] & _).
  - destruct (image_iff ids i Hi) as [M1 M2]. destruct (IH offsets ltac:(unfold len in *; cbn [length] in L; lia)) as [I1 I2]. split.
    + intros fs. split.
      * destruct (if i =? 0xff then _ else _) as [u|x] eqn:E; cbn [bind]; [|discriminate]. destruct (frames ids offsets indexes) as [l|x] eqn:R; cbn [bind]; [|discriminate].
        intros H. assert (fs = (u, o) :: l) as -> by congruence. destruct (proj1 (I1 l) eq_refl) as [A B]. split; [cbn; congruence|]. constructor; [apply M1; reflexivity|exact B].
      * intros [A B]. inversion B as [|i' f is' fs' P Q]; subst. destruct f as [u o']. cbn [map fst snd] in *. apply M1 in P. unfold bytes in *. rewrite P. cbn [bind].
        assert (o' = o /\ map snd fs' = offsets) as [-> A'] by (split; congruence). rewrite (proj2 (I1 fs')) by auto. reflexivity.
    + intros x. split.
      * destruct (if i =? 0xff then _ else _) as [u|y] eqn:E; cbn [bind].
        -- destruct (frames ids offsets indexes) as [l|y] eqn:R; cbn [bind]; [discriminate|]. intros H. assert (y = x) as -> by congruence. destruct (proj1 (I2 x) eq_refl) as (-> & j & J & K). split; [reflexivity|]. exists j. split; [right; exact J|exact K].
        -- intros H. assert (y = x) as -> by congruence. destruct (proj1 (M2 x) eq_refl) as [P ->]. split; [reflexivity|]. exists i. split; [left; reflexivity|exact P].
      * intros (-> & j & J & K). destruct (if i =? 0xff then _ else _) as [u|y] eqn:E; cbn [bind].
        -- destruct J as [->|J]; [exfalso; assert (X : Ok u = Err IndexError) by (apply M2; auto); discriminate|]. rewrite (proj2 (I2 IndexError)) by eauto. reflexivity.
        -- destruct (proj1 (M2 y) eq_refl) as [_ ->]. reflexivity.
Qed.

Lemma flag12 flags : (Z.land flags 0x1000 =? 0) = false <-> flag flags 12.
Proof. rewrite <- (has_bit flags 12) by lia. unfold has. change (2 ^ 12) with 0x1000. destruct (Z.land flags 0x1000 =? 0); cbn; split; congruence. Qed.

Lemma backtrace_iff flags values : is_bytes values ->
  (forall fs, read_backtrace flags values = Ok fs <-> backtrace_of flags values fs) /\
  (forall x, read_backtrace flags values = Err x <-> flag flags 12 /\
     ((values = [] /\ x = ValueError) \/
      (values <> [] /\ (forall ids offsets indexes d rest, values = d ++ rest -> ~ backtrace_bytes ids offsets indexes d) /\ x = ParseError) \/
      (exists ids offsets indexes d rest i, values = d ++ rest /\ backtrace_bytes ids offsets indexes d /\ In i indexes /\ image_of ids i None /\ x = IndexError))).
Proof.
  intros Hb. unfold read_backtrace, backtrace_of. destruct (Z.land flags 0x1000 =? 0) eqn:Fl.
  { assert (N : ~ flag flags 12) by (rewrite <- flag12; congruence). split.
    - intros fs. split; [intros H; assert (fs = []) as -> by congruence; split; [reflexivity|contradiction]|]. intros [H _]. now rewrite H.
    - intros x. split; [discriminate|]. intros [H _]. contradiction. }
  apply flag12 in Fl. destruct (Z.ltb_spec 0 (len values)) as [L|L]; cbn [guard bind].
  2: { assert (values = []) as -> by (destruct values; [reflexivity|unfold len in L; cbn [length] in L; lia]). split.
       - intros fs. split; [discriminate|]. intros [_ H]. destruct (H Fl) as (ids & offsets & indexes & d & rest & E & (_ & _ & _ & _ & B) & _).
         exfalso. symmetry in E. apply app_eq_nil in E as [-> _]. apply (fields_pos (i8 (len ids))) in B; [cbn in B; lia|cbn [In]; tauto|]. intros y [_ ->]. cbn. lia.
       - intros x. split; [intros H; assert (x = ValueError) as -> by congruence; auto|]. intros [_ [[_ ->]|[[N _]|(ids & offsets & indexes & d & rest & i & E & (_ & _ & _ & _ & B) & _)]]]; [reflexivity|contradiction|].
         exfalso. symmetry in E. apply app_eq_nil in E as [-> _]. apply (fields_pos (i8 (len ids))) in B; [cbn in B; lia|cbn [In]; tauto|]. intros y [_ ->]. cbn. lia. }
  assert (N : values <> []) by (intros ->; cbn in L; lia).
  assert (D : forall ids offsets indexes, rd_data rd_backtrace values = Ok (ids, offsets, indexes) <-> exists d rest, backtrace_bytes ids offsets indexes d /\ values = d ++ rest).
  { intros ids offsets indexes. rewrite (rd_data_iff _ _ _ _ reads_backtrace Hb). cbn [fst snd]. reflexivity. }
  destruct (rd_data rd_backtrace values) as [[[ids offsets] indexes]|y] eqn:E; cbn [bind].
  - destruct (proj1 (D ids offsets indexes) eq_refl) as (d & rest & B & V). pose proof B as (B1 & _ & _ & B4 & _). destruct (frames_iff ids indexes B4 offsets B1) as [F1 F2].
    assert (U : forall ids' offsets' indexes' d' rest', values = d' ++ rest' -> backtrace_bytes ids' offsets' indexes' d' -> ids' = ids /\ offsets' = offsets /\ indexes' = indexes).
    { intros ids' offsets' indexes' d' rest' V' B'. assert (X : Ok (ids, offsets, indexes) = Ok (ids', offsets', indexes')) by (apply D; eauto). repeat split; congruence. }
    split.
    + intros fs. rewrite F1. split.
      * intros H. split; [contradiction|]. intros _. exists ids, offsets, indexes, d, rest. auto.
      * intros [_ H]. destruct (H Fl) as (ids' & offsets' & indexes' & d' & rest' & V' & B' & H'). destruct (U _ _ _ _ _ V' B') as (-> & -> & ->). exact H'.
    + intros x. rewrite F2. split.
      * intros (-> & i & I & M). split; [exact Fl|]. right. right. exists ids, offsets, indexes, d, rest, i. auto.
      * intros [_ [[V' _]|[(_ & No & _)|(ids' & offsets' & indexes' & d' & rest' & i & V' & B' & I & M & ->)]]]; [contradiction|exfalso; eapply No; eassumption|].
        destruct (U _ _ _ _ _ V' B') as (-> & -> & ->). eauto.
  - assert (Y : y = ParseError) by (apply (rd_data_errors _ _ _ _ reads_backtrace Hb E)). subst y.
    assert (No : forall ids offsets indexes d rest, values = d ++ rest -> ~ backtrace_bytes ids offsets indexes d).
    { intros ids offsets indexes d rest V B. assert (X : Err ParseError = Ok (ids, offsets, indexes)) by (apply D; eauto). discriminate. }
    split.
    + intros fs. split; [discriminate|]. intros [_ H]. destruct (H Fl) as (ids & offsets & indexes & d & rest & V & B & _). exfalso. eapply No; eassumption.
    + intros x. split; [intros H; assert (x = ParseError) as -> by congruence; split; [exact Fl|]; right; left; auto|]. intros [_ [[V' _]|[(_ & _ & ->)|(ids & offsets & indexes & d & rest & i & V & B & _)]]]; [contradiction|reflexivity|].
      exfalso. eapply No; eassumption.
Qed.

(** ** Private data *)

Lemma land_4095 v : Z.land v 0x0fff = v mod 4096.
Proof. change 0x0fff with (Z.ones 12). rewrite Z.land_ones by lia. reflexivity. Qed.

Lemma private_iff h chunk p : chunk_private h chunk = p <-> private_of h chunk p.
Proof.
  unfold chunk_private, private_of. rewrite land_4095. pose proof (Z.mod_pos_bound (fh_private h) 4096 ltac:(lia)). set (v := fh_private h mod 4096) in *.
  destruct (Z.eqb_spec v 0) as [E|N].
  - split; [intros <-; split; [reflexivity|contradiction]|]. intros [H1 _]. symmetry. auto.
  - unfold pyslice_from, slice_index. destruct (Z.ltb_spec (- (4096 - v)) 0); [|lia]. pose proof (len_nonneg chunk). set (s := Z.max 0 (- (4096 - v) + len chunk)).
    assert (L : len (zskipn s chunk) = Z.min (4096 - v) (len chunk)) by (rewrite len_zskipn by lia; lia). split.
    + intros <-. split; [contradiction|]. intros _. exists (zfirstn s chunk). split; [symmetry; apply zfirstn_zskipn|exact L].
    + intros [_ H']. destruct (H' N) as (pre & E & L'). rewrite <- (zfirstn_zskipn chunk s) in E at 1.
      apply app_same_len in E as [_ E]; [exact E|]. apply (f_equal len) in E. rewrite !len_app in E. lia.
Qed.

(** ** Traces *)

Lemma read_trace_ok decode vals : Forall (fun v => len v = 4 \/ len v = 8) vals -> forall (pre : bytes) (sizes : list Z) n index vs,
  read_trace decode (pre ++ concat vals ++ sizes ++ map len vals ++ [n]) (length vals) index (len pre) = Ok vs <->
  length vs = length vals /\ forall k v x, nth_error vals k = Some v -> nth_error vs k = Some x -> decode (index + Z.of_nat k) (Some v) = Ok x.
Proof.
  induction 1 as [|v vals Hv F IH]; intros pre sizes n index vs.
  { cbn [length read_trace]. split; [intros H; assert (vs = []) as -> by congruence; split; [reflexivity|]; intros [|k] v x H1; discriminate|]. intros [L _]. destruct vs; [reflexivity|discriminate]. }
  cbn [length read_trace].
  assert (Ix : pyindex (pre ++ concat (v :: vals) ++ sizes ++ map len (v :: vals) ++ [n]) (- (1 + Z.of_nat (S (length vals)))) = Ok (len v)).
  { unfold pyindex. set (w := pre ++ concat (v :: vals) ++ sizes ++ map len (v :: vals) ++ [n]).
    assert (Ew : w = (pre ++ concat (v :: vals) ++ sizes) ++ len v :: (map len vals ++ [n])) by (unfold w; cbn [map app]; rewrite <- !app_assoc; reflexivity).
    assert (Lw : len w = len (pre ++ concat (v :: vals) ++ sizes) + Z.of_nat (length vals) + 2).
    { rewrite Ew, (len_app (pre ++ concat (v :: vals) ++ sizes)). unfold len at 2. cbn [length]. rewrite app_length, map_length. cbn [length]. lia. }
    pose proof (len_nonneg (pre ++ concat (v :: vals) ++ sizes)).
    destruct (Z.ltb_spec (- (1 + Z.of_nat (S (length vals)))) 0); [|lia]. destruct (Z.ltb_spec (- (1 + Z.of_nat (S (length vals))) + len w) 0); [lia|].
    rewrite (proj2 (proj1 (znth_split w (- (1 + Z.of_nat (S (length vals))) + len w) ltac:(lia)) (len v))); [reflexivity|]. exists (pre ++ concat (v :: vals) ++ sizes), (map len vals ++ [n]). split; [exact Ew|lia]. }
  rewrite Ix. cbn [bind]. replace (one_of (len v) [4; 8]) with true by (destruct Hv as [-> | ->]; reflexivity). cbn [guard bind].
  rewrite pyslice_nonneg by (pose proof (len_nonneg pre); pose proof (len_nonneg v); lia). replace (len pre + len v - len pre) with (len v) by lia.
  rewrite zskipn_app_len by reflexivity. cbn [concat]. rewrite <- (app_assoc v). rewrite zfirstn_app_len by reflexivity.
  specialize (IH (pre ++ v) (sizes ++ [len v]) n (index + 1)).
  replace ((pre ++ v) ++ concat vals ++ (sizes ++ [len v]) ++ map len vals ++ [n]) with (pre ++ v ++ concat vals ++ sizes ++ map len (v :: vals) ++ [n]) in IH by (cbn [map]; rewrite <- !app_assoc; reflexivity).
  rewrite len_app in IH. assert (Z0 : forall k, index + Z.of_nat (S k) = index + 1 + Z.of_nat k) by lia. split.
  - destruct (decode index (Some v)) as [x|y] eqn:D; cbn [bind]; [|discriminate]. destruct (read_trace _ _ _ _ _) as [l|y] eqn:R; cbn [bind]; [|discriminate]. intros H. assert (vs = x :: l) as -> by congruence.
    destruct (proj1 (IH l) eq_refl) as [L N]. split; [cbn [length]; congruence|]. intros [|k] v' x' H1 H2; cbn [nth_error] in H1, H2.
    + assert (v' = v /\ x' = x) as [-> ->] by (split; congruence). change (Z.of_nat 0) with 0. now rewrite Z.add_0_r.
    + rewrite Z0. apply N; assumption.
  - intros [L N]. destruct vs as [|x vs]; [discriminate|]. pose proof (N 0%nat v x eq_refl eq_refl) as D. change (Z.of_nat 0) with 0 in D. rewrite Z.add_0_r in D. rewrite D. cbn [bind].
    rewrite (proj2 (IH vs)); [reflexivity|]. split; [cbn [length] in L; congruence|]. intros k v' x' H1 H2. rewrite <- Z0. apply (N (S k)); assumption.
Qed.

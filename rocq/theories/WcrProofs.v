From Verif Require Import Base BaseFacts SeqModel SeqSpec SeqFacts CoreModel StrModel DictModel RdModel RdSpec RdFacts TvSpec FhModel FhSpec FhProofs WcdModel WcdProofs WcrModel WcrSpec.

Lemma cell_size_mod size : cell_size size = size mod 2 ^ 27.
Proof. unfold cell_size. change 0x7ffffff with (Z.ones 27). now rewrite Z.land_ones by lia. Qed.

Lemma reads_words n : reads (rd_words n) (fun l d => length l = n /\ fields (map i32 l) d).
Proof.
  eapply reads_iff; [unfold rd_words; apply reads_times, reads_i32|]. intros l d _. cbv beta. split; intros [L (ds & F & E)]; (split; [exact L|]); exists ds; (split; [|exact E]);
    clear L E; revert ds F; induction l; intros ds F; inversion F; subst; constructor; auto.
Qed.

Lemma reads_rheader : reads rd_rheader rheader_bytes.
Proof.
  unfold rd_rheader. eapply reads_iff; [eapply reads_bind; [apply reads_words|intros ?; apply reads_ret]|]. intros h d _. cbv beta. unfold rheader_bytes. split.
  - intros (l & d1 & d2 & [L F] & [-> ->] & ->). rewrite app_nil_r.
    do 10 (destruct l as [|? l]; [discriminate L|]). destruct l; [|discriminate L]. unfold word. cbn [nth rh_system rh_root rh_bin map] in *.
    f_out. f_in.
  - intros H. f_out. unfold any in *. repeat match goal with H : exists _, _ |- _ => destruct H end. destruct h as [a b c]. cbn [rh_system rh_root rh_bin] in *.
    eexists [a; b; _; _; _; _; _; _; _; c], _, []. split; [|split; [split; reflexivity|symmetry; apply app_nil_r]]. split; [reflexivity|]. cbn [map]. f_in.
Qed.

Lemma solid_rheader : solid rd_rheader.
Proof. apply solid_bind. unfold rd_words. apply solid_bind, solid_int. cbn. lia. Qed.

Lemma reads_cell : reads rd_cell (fun c d => cell_bytes (fst c) (snd c) d).
Proof.
  unfold rd_cell. eapply reads_iff; [fh_reads idtac|]. intros [size data] d _. cbv beta. unfold cell_bytes. cbn [fst snd]. split.
  - intros (s & ? & ? & H1 & (dd & ? & ? & [L ->] & [E ->] & ->) & ->). injection E as -> ->. rewrite cell_size_mod in L. split.
    + assert (Q := eq_refl dd). f_in.
    + destruct (Z.eqb_spec (s mod 2 ^ 27) 0); [right; split; [assumption|]; apply len_zero; lia|left; lia].
  - intros [H L]. f_out. match goal with E : data = ?x |- _ => subst x end. do 3 eexists. split; [eassumption|]. split; [|reflexivity]. eexists data, data, []. split; [|split; [split; reflexivity|reflexivity]].
    split; [|reflexivity]. rewrite cell_size_mod. pose proof (len_nonneg data). destruct (Z.eqb_spec (size mod 2 ^ 27) 0); [|lia]. destruct L as [L|[_ ->]]; [lia|reflexivity].
Qed.

Lemma solid_cell : solid rd_cell.
Proof. apply solid_bind, solid_int. cbn. lia. Qed.

Lemma cell_len size data d : cell_bytes size data d -> n32 size /\ len d = 4 + len data /\ d <> [].
Proof.
  intros [H _]. f_out. match goal with H : i32 _ _ |- _ => destruct H as [N ->] end. subst. rewrite !len_app, len_le_enc, len_nil. split; [exact N|]. split; [lia|].
  intros E. apply (f_equal len) in E. rewrite !len_app, len_le_enc, len_nil in E.
  match type of E with _ + (len ?l + _) = _ => pose proof (len_nonneg l) end. lia.
Qed.

Lemma next_bin_iff content off next o n : is_bytes content -> 0 <= off <= len content ->
  (next_bin content off next = Ok (o, n) <-> bin_at content off next o n).
Proof.
  intros B P. unfold next_bin. destruct (Z.eqb_spec off next) as [<-|D].
  - destruct (reads_i32 content off B P) as [R _]. split.
    + destruct (rd_int (FU LE 4) content off) as [[size p]|]; cbn [bind]; [|discriminate]. intros E. injection E as <- <-.
      destruct (proj1 (R size p) eq_refl) as (d & H & S & _). econstructor; eassumption.
    + intros H. inversion H as [|? size d I S]; subst; [congruence|]. assert (X : rd_int (FU LE 4) content off = Ok (size, off + len d)) by (apply R; eauto). now rewrite X.
  - split; [intros E; injection E as <- <-; now constructor|]. intros H. inversion H; subst; [reflexivity|congruence].
Qed.

Lemma next_bin_errors content off next x : is_bytes content -> 0 <= off <= len content -> next_bin content off next = Err x -> x = ParseError.
Proof.
  intros B P. unfold next_bin. destruct (off =? next); [|discriminate]. destruct (reads_i32 content off B P) as [_ R].
  destruct (rd_int (FU LE 4) content off) as [[size p]|e] eqn:E; cbn [bind]; [discriminate|]. intros X. injection X as <-. apply R. reflexivity.
Qed.

Lemma bin_at_pos content off next o n : bin_at content off next o n -> off <= o <= off + 4.
Proof. intros H. inversion H; subst; lia. Qed.

Lemma rd_cell_iff content off size data : is_bytes content -> 0 <= off ->
  ((exists p, rd_cell content off = Ok ((size, data), p)) <-> exists d, stored_at content off d /\ cell_bytes size data d).
Proof.
  intros B P. destruct (reads_at rd_cell _ content off reads_cell solid_cell B P) as [R _]. split.
  - intros [p E]. apply R in E. destruct E as (d & H & S & _). eauto.
  - intros (d & S & H). exists (off + len d). apply R. eauto.
Qed.

Lemma rd_cell_errors content off x : is_bytes content -> 0 <= off -> rd_cell content off = Err x -> x = ParseError.
Proof. intros B P. destruct (reads_at rd_cell _ content off reads_cell solid_cell B P) as [_ R]. apply R. Qed.

Lemma after_pos content first n off next : after_cells content first n off next -> 0 <= n /\ 40 <= off.
Proof.
  induction 1 as [|n off next off' next' size data d A [IH1 IH2] L Bn S C Nz]; [lia|]. apply bin_at_pos in Bn. pose proof (Z.mod_pos_bound size (2 ^ 27) ltac:(lia)). lia.
Qed.

(** One cell further is determined. *)
Lemma cell_det content off next o n o' n' size data d size' data' d' : is_bytes content ->
  bin_at content off next o n -> stored_at content o d -> cell_bytes size data d ->
  bin_at content off next o' n' -> stored_at content o' d' -> cell_bytes size' data' d' -> 0 <= off <= len content -> o = o' /\ n = n' /\ size = size' /\ data = data'.
Proof.
  intros B B1 S1 C1 B2 S2 C2 P. assert (Q := bin_at_pos _ _ _ _ _ B1). apply next_bin_iff in B1, B2; try assumption. rewrite B1 in B2. injection B2 as <- <-.
  assert (X1 : exists p, rd_cell content o = Ok ((size, data), p)) by (apply rd_cell_iff; [exact B|lia|eauto]).
  assert (X2 : exists p, rd_cell content o = Ok ((size', data'), p)) by (apply rd_cell_iff; [exact B|lia|eauto]).
  destruct X1 as [p1 X1], X2 as [p2 X2]. rewrite X1 in X2. injection X2. intros. subst. auto.
Qed.

Lemma after_det content first n off next off' next' : is_bytes content ->
  after_cells content first n off next -> after_cells content first n off' next' -> off = off' /\ next = next'.
Proof.
  intros B H. revert off' next'. induction H as [|n off next o x size data d A IH L Bn S C Nz]; intros off2 next2 H2.
  - inversion H2 as [|m ? ? ? ? ? ? ? A]; subst; [auto|]. apply after_pos in A. lia.
  - assert (P := after_pos _ _ _ _ _ A). inversion H2 as [E|m off3 next3 o3 x3 size3 data3 d3 A3 L3 B3 S3 C3 N3 E]; subst; [lia|].
    assert (m = n) by lia. subst m. destruct (IH _ _ A3) as [<- <-].
    destruct (cell_det _ _ _ _ _ _ _ _ _ _ _ _ _ B Bn S C B3 S3 C3 ltac:(lia)) as (-> & -> & -> & ->). auto.
Qed.

(** The cells before are there. *)
Lemma after_before content first n off next m : after_cells content first n off next -> 0 <= m < n ->
  exists off next off' next' size data d, after_cells content first m off next /\ off < len content /\ bin_at content off next off' next' /\
    stored_at content off' d /\ cell_bytes size data d /\ size <> 0 /\ after_cells content first (m + 1) (off' + size mod 2 ^ 27) next'.
Proof.
  induction 1 as [|n off next o x size data d A IH L Bn S C Nz]; intros P; [lia|]. destruct (Z.eq_dec m n) as [->|D]; [|apply IH; lia].
  do 7 eexists. repeat (split; [eassumption|]). econstructor; eassumption.
Qed.

Lemma cell_number_det content first n a b : is_bytes content -> cell_number content first n a -> cell_number content first n b -> a = b.
Proof.
  intros B (o1 & x1 & o1' & x1' & s1 & t1 & d1 & A1 & L1 & B1 & S1 & C1 & _ & ->) (o2 & x2 & o2' & x2' & s2 & t2 & d2 & A2 & L2 & B2 & S2 & C2 & _ & ->).
  destruct (after_det _ _ _ _ _ _ _ B A1 A2) as [<- <-]. pose proof (after_pos _ _ _ _ _ A1).
  destruct (cell_det _ _ _ _ _ _ _ _ _ _ _ _ _ B B1 S1 C1 B2 S2 C2 ltac:(lia)) as (-> & _). reflexivity.
Qed.

Lemma cell_before content first n number a : is_bytes content -> number_of_cells content first n -> cell_number content first number a -> 0 <= number < n.
Proof.
  intros B (off & next & A & E) C. destruct C as (o & x & o' & x' & size & data & d & A' & L & Bn & S & C & Nz & _).
  split; [eapply after_pos, A'|]. destruct (Z.ltb_spec number n) as [|G]; [assumption|exfalso].
  assert (H : off < len content /\ exists o' x' size data d, bin_at content off next o' x' /\ stored_at content o' d /\ cell_bytes size data d /\ size <> 0).
  { destruct (Z.eq_dec n number) as [<-|D].
    - destruct (after_det _ _ _ _ _ _ _ B A A') as [-> ->]. split; [exact L|]. eauto 10.
    - pose proof (after_pos _ _ _ _ _ A). destruct (after_before _ _ _ _ _ n A' ltac:(lia)) as (o2 & x2 & o2' & x2' & s2 & t2 & d2 & A2 & L2 & B2 & S2 & C2 & N2 & _).
      destruct (after_det _ _ _ _ _ _ _ B A A2) as [-> ->]. split; [exact L2|]. eauto 10. }
  destruct H as (L1 & o1 & x1 & s1 & t1 & d1 & B1 & S1 & C1 & N1). destruct E as [E|(_ & o2 & x2 & t2 & d2 & B2 & S2 & C2)]; [lia|].
  pose proof (after_pos _ _ _ _ _ A). destruct (cell_det _ _ _ _ _ _ _ _ _ _ _ _ _ B B1 S1 C1 B2 S2 C2 ltac:(lia)) as (_ & _ & -> & _). congruence.
Qed.

Lemma number_det content first n m : is_bytes content -> number_of_cells content first n -> number_of_cells content first m -> n = m.
Proof.
  intros B. enough (H : forall n m, number_of_cells content first n -> number_of_cells content first m -> n <= m) by (intros X Y; pose proof (H _ _ X Y); pose proof (H _ _ Y X); lia).
  clear n m. intros n m N M. destruct (Z.leb_spec n m) as [|G]; [assumption|exfalso]. assert (N' := N). destruct N as (off & next & A & _).
  assert (P : 0 <= m) by (destruct M as (? & ? & A' & _); eapply after_pos, A').
  destruct (after_before _ _ _ _ _ m A ltac:(lia)) as (o2 & x2 & o2' & x2' & s2 & t2 & d2 & A2 & L2 & B2 & S2 & C2 & N2 & _).
  assert (C : cell_number content first m (o2' + 4)) by (do 7 eexists; repeat (split; [eassumption|]); reflexivity).
  apply (cell_before _ _ _ _ _ B M) in C. lia.
Qed.

(** What is found is determined. *)
Lemma found_det content h r s r' s' : is_bytes content -> found content h r s -> found content h r' s' -> r = r' /\ s = s'.
Proof.
  intros B. assert (K : forall n k o o', number_of_cells content (rh_bin h) n -> cell_or_none content (rh_bin h) n k o -> cell_or_none content (rh_bin h) n k o' -> o = o').
  { intros n k [a|] [b|] N; cbn; intros X Y; [f_equal; eapply cell_number_det; eassumption|apply (cell_before _ _ _ _ _ B N) in X; lia|apply (cell_before _ _ _ _ _ B N) in Y; lia|reflexivity]. }
  assert (K' : forall n k a o, number_of_cells content (rh_bin h) n -> cell_number content (rh_bin h) k a -> cell_or_none content (rh_bin h) n k o -> o = Some a).
  { intros n k a [b|] N; cbn; intros X Y; [f_equal; eapply cell_number_det; eassumption|apply (cell_before _ _ _ _ _ B N) in X; lia]. }
  intros [(a & b & -> & -> & D & X & Y)|(n & N & X & Y & W)] [(a' & b' & -> & -> & D' & X' & Y')|(n' & N' & X' & Y' & W')].
  - split; f_equal; eapply cell_number_det; eassumption.
  - split; symmetry; eapply K'; eauto.
  - split; eapply K'; eauto.
  - assert (n' = n) by exact (number_det _ _ _ _ B N' N). subst n'. split; [exact (K _ _ _ _ N X X')|].
    destruct (Z.eq_dec (rh_root h) (rh_system h)) as [E|E]; [now rewrite W, W'|exact (K _ _ _ _ N (Y E) (Y' E))].
Qed.

(** What is known after [n] cells. *)
Definition known (content : bytes) (h : rheader) (n : Z) (root system : option Z) : Prop :=
  match root with Some a => cell_number content (rh_bin h) (rh_root h) a /\ rh_root h < n | None => n <= rh_root h end /\
  (rh_root h = rh_system h -> system = None) /\
  (rh_root h <> rh_system h -> match system with Some a => cell_number content (rh_bin h) (rh_system h) a /\ rh_system h < n | None => n <= rh_system h end) /\
  ~ (root <> None /\ system <> None).

Lemma known_found content h n root system : number_of_cells content (rh_bin h) n -> known content h n root system -> found content h root system.
Proof.
  intros N (K1 & K2 & K3 & _). right. exists n. split; [exact N|]. split; [destruct root; cbn; tauto|]. split; [|exact K2]. intros D. specialize (K3 D). destruct system; cbn; tauto.
Qed.

Definition step_root (h : rheader) (n at_ : Z) (root : option Z) : option Z := if rh_root h =? n then Some at_ else root.
Definition step_system (h : rheader) (n at_ : Z) (system : option Z) : option Z := if negb (rh_root h =? n) && (rh_system h =? n) then Some at_ else system.

Lemma known_step content h n at_ root system : known content h n root system -> cell_number content (rh_bin h) n at_ ->
  let root' := step_root h n at_ root in let system' := step_system h n at_ system in
  known content h (n + 1) root' system' \/
  (exists a b, root' = Some a /\ system' = Some b /\ rh_root h <> rh_system h /\
     cell_number content (rh_bin h) (rh_root h) a /\ cell_number content (rh_bin h) (rh_system h) b).
Proof.
  intros (K1 & K2 & K3 & K4) C root' system'.
  assert (R : match root' with Some a => cell_number content (rh_bin h) (rh_root h) a /\ rh_root h < n + 1 | None => n + 1 <= rh_root h end).
  { subst root'. unfold step_root. destruct (Z.eqb_spec (rh_root h) n) as [<-|D]; [split; [exact C|lia]|]. destruct root as [a|]; [split; [apply K1|lia]|lia]. }
  assert (E : rh_root h = rh_system h -> system' = None).
  { intros E. subst system'. unfold step_system. rewrite <- E. destruct (rh_root h =? n); cbn; auto. }
  assert (S : rh_root h <> rh_system h -> match system' with Some a => cell_number content (rh_bin h) (rh_system h) a /\ rh_system h < n + 1 | None => n + 1 <= rh_system h end).
  { intros D. specialize (K3 D). subst system'. unfold step_system. destruct (Z.eqb_spec (rh_system h) n) as [F|F].
    - destruct (Z.eqb_spec (rh_root h) n) as [G|G]; [lia|]. cbn. rewrite F. split; [exact C|lia].
    - rewrite Bool.andb_false_r. destruct system as [a|]; [split; [apply K3|lia]|lia]. }
  destruct root' as [a|] eqn:Er; [|left; split; [exact R|]; split; [exact E|]; split; [exact S|]; intros [X _]; congruence].
  destruct system' as [b|] eqn:Es; [|left; split; [exact R|]; split; [exact E|]; split; [exact S|]; intros [_ X]; congruence].
  right. assert (D : rh_root h <> rh_system h) by (intros X; specialize (E X); congruence). exists a, b. specialize (S D). tauto.
Qed.

(** The loop in terms of its steps. *)
Lemma find_step fuel content h off number next root system :
  find_cells (Datatypes.S fuel) content h off number next root system =
  if off <? len content then
    rdo (off, next) <- Done (next_bin content off next);
    rdo (cell, p) <- Done (rd_cell content off);
    if fst cell =? 0 then Done (Ok (root, system))
    else match step_root h number (off + 4) root, step_system h number (off + 4) system with
      | Some a, Some b => Done (Ok (Some a, Some b))
      | r, s => find_cells fuel content h (off + cell_size (fst cell)) (number + 1) next r s
      end
  else Done (Ok (root, system)).
Proof.
  cbn [find_cells]. destruct (off <? len content); [|reflexivity]. destruct (next_bin content off next) as [[o x]|]; [|reflexivity]. cbn [rbind].
  destruct (rd_cell content o) as [[c p]|]; [|reflexivity]. cbn [rbind]. destruct (fst c =? 0); [reflexivity|].
  fold (step_root h number (o + 4) root). fold (step_system h number (o + 4) system). destruct (step_root h number (o + 4) root), (step_system h number (o + 4) system); reflexivity.
Qed.

Lemma find_sound fuel : forall content h off n next root system r s, is_bytes content -> after_cells content (rh_bin h) n off next -> known content h n root system ->
  find_cells fuel content h off n next root system = Done (Ok (r, s)) -> found content h r s.
Proof.
  induction fuel as [|fuel IH]; intros content h off n next root system r s B A K.
  - cbn [find_cells]. destruct (Z.ltb_spec off (len content)) as [L|L]; [discriminate|]. intros E. injection E as <- <-. eapply known_found; [|exact K]. exists off, next. auto.
  - rewrite find_step. destruct (Z.ltb_spec off (len content)) as [L|L].
    2:{ intros E. injection E as <- <-. eapply known_found; [|exact K]. exists off, next. auto. }
    assert (P := after_pos _ _ _ _ _ A). destruct (next_bin content off next) as [[o x]|e] eqn:Eb; cbn [rbind]; [|discriminate].
    apply next_bin_iff in Eb; [|exact B|lia]. assert (Q := bin_at_pos _ _ _ _ _ Eb). destruct (rd_cell content o) as [[[size data] p]|e] eqn:Ec; cbn [rbind]; [|discriminate].
    assert (C : exists d, stored_at content o d /\ cell_bytes size data d) by (apply rd_cell_iff; [exact B|lia|eauto]). destruct C as (d & S & C). cbn [fst].
    destruct (Z.eqb_spec size 0) as [->|Nz].
    { intros E. injection E as <- <-. eapply known_found; [|exact K]. exists off, next. split; [exact A|]. right. split; [exact L|]. eauto 10. }
    assert (N : cell_number content (rh_bin h) n (o + 4)) by (do 7 eexists; repeat (split; [eassumption|]); reflexivity).
    assert (A2 : after_cells content (rh_bin h) (n + 1) (o + cell_size size) x) by (rewrite cell_size_mod; econstructor; eassumption).
    destruct (known_step _ _ _ _ _ _ K N) as [K2|(a & b & E1 & E2 & F)].
    + destruct (step_root h n (o + 4) root) as [a|] eqn:Er; [destruct (step_system h n (o + 4) system) as [b|] eqn:Es|].
      * destruct K2 as (_ & _ & _ & X). exfalso. apply X. split; discriminate.
      * apply IH; assumption.
      * apply IH; assumption.
    + rewrite E1, E2. intros E. injection E as <- <-. left. eauto 10.
Qed.

Lemma find_errors fuel : forall content h off n next root system x, is_bytes content -> after_cells content (rh_bin h) n off next ->
  find_cells fuel content h off n next root system = Done (Err x) -> x = ParseError.
Proof.
  induction fuel as [|fuel IH]; intros content h off n next root system e B A.
  - cbn [find_cells]. destruct (off <? len content); discriminate.
  - rewrite find_step. destruct (Z.ltb_spec off (len content)) as [L|L]; [|discriminate].
    assert (P := after_pos _ _ _ _ _ A). destruct (next_bin content off next) as [[o x]|y] eqn:Eb; cbn [rbind].
    2:{ intros E. injection E as <-. eapply next_bin_errors; [exact B| |exact Eb]. lia. }
    apply next_bin_iff in Eb; [|exact B|lia]. assert (Q := bin_at_pos _ _ _ _ _ Eb). destruct (rd_cell content o) as [[[size data] p]|y] eqn:Ec; cbn [rbind].
    2:{ intros E. injection E as <-. eapply rd_cell_errors; [exact B| |exact Ec]. lia. }
    assert (C : exists d, stored_at content o d /\ cell_bytes size data d) by (apply rd_cell_iff; [exact B|lia|eauto]). destruct C as (d & S & C). cbn [fst].
    destruct (Z.eqb_spec size 0) as [->|Nz]; [discriminate|].
    assert (A2 : after_cells content (rh_bin h) (n + 1) (o + cell_size size) x) by (rewrite cell_size_mod; econstructor; eassumption).
    destruct (step_root h n (o + 4) root) as [a|] eqn:Er; [destruct (step_system h n (o + 4) system) as [b|] eqn:Es|]; [discriminate|apply IH; assumption|apply IH; assumption].
Qed.

(** The loop ends where the cells end or where both were found. *)
Lemma find_ends k : forall content h off n next root system, is_bytes content -> after_cells content (rh_bin h) n off next -> known content h n root system ->
  (number_of_cells content (rh_bin h) (n + Z.of_nat k) \/
   rh_root h <> rh_system h /\ rh_root h <= n + Z.of_nat k /\ rh_system h <= n + Z.of_nat k /\ exists a, cell_number content (rh_bin h) (n + Z.of_nat k) a) ->
  exists r, find_cells (Datatypes.S k) content h off n next root system = Done (Ok r).
Proof.
  induction k as [|k IH]; intros content h off n next root system B A K H.
  - rewrite Z.add_0_r in H. assert (P := after_pos _ _ _ _ _ A). rewrite find_step. destruct H as [(o & x & A' & E)|(D & H1 & H2 & a & C)].
    + destruct (after_det _ _ _ _ _ _ _ B A A') as [<- <-]. destruct E as [E|(L & o' & x' & data & d & Bn & S & C)].
      { destruct (Z.ltb_spec off (len content)); [lia|eauto]. }
      destruct (Z.ltb_spec off (len content)); [|lia]. assert (Q := bin_at_pos _ _ _ _ _ Bn). apply next_bin_iff in Bn; [|exact B|lia]. rewrite Bn. cbn [rbind].
      assert (X : exists p, rd_cell content o' = Ok ((0, data), p)) by (apply rd_cell_iff; [exact B|lia|eauto]). destruct X as [p X]. rewrite X. cbn [rbind fst]. rewrite Z.eqb_refl. eauto.
    + assert (C' := C). destruct C as (o & x & o' & x' & size & data & d & A' & L & Bn & S & C & Nz & ->).
      destruct (after_det _ _ _ _ _ _ _ B A A') as [<- <-]. destruct (Z.ltb_spec off (len content)); [|lia].
      assert (Q := bin_at_pos _ _ _ _ _ Bn). apply next_bin_iff in Bn; [|exact B|lia]. rewrite Bn. cbn [rbind].
      assert (X : exists p, rd_cell content o' = Ok ((size, data), p)) by (apply rd_cell_iff; [exact B|lia|eauto]). destruct X as [p X]. rewrite X. cbn [rbind fst].
      destruct (Z.eqb_spec size 0); [congruence|]. destruct (known_step _ _ _ _ _ _ K C') as [K2|(a & b & E1 & E2 & F)].
      * exfalso. destruct K2 as (K1 & _ & K3 & K4). specialize (K3 D). destruct (step_root h n (o' + 4) root); [|lia]. destruct (step_system h n (o' + 4) system); [|lia]. apply K4. split; discriminate.
      * rewrite E1, E2. eauto.
  - assert (G : exists o x, after_cells content (rh_bin h) (n + Z.of_nat (Datatypes.S k)) o x).
    { destruct H as [(o & x & A' & _)|(_ & _ & _ & a & (o & x & ? & ? & ? & ? & ? & A' & _))]; eauto. }
    destruct G as (o9 & x9 & A9). assert (P := after_pos _ _ _ _ _ A). destruct (after_before _ _ _ _ _ n A9 ltac:(lia)) as (o & x & o' & x' & size & data & d & A' & L & Bn & S & C & Nz & A2).
    destruct (after_det _ _ _ _ _ _ _ B A A') as [<- <-]. rewrite find_step. destruct (Z.ltb_spec off (len content)); [|lia].
    assert (N : cell_number content (rh_bin h) n (o' + 4)) by (do 7 eexists; repeat (split; [eassumption|]); reflexivity).
    assert (Q := bin_at_pos _ _ _ _ _ Bn). apply next_bin_iff in Bn; [|exact B|lia]. rewrite Bn. cbn [rbind].
    assert (X : exists p, rd_cell content o' = Ok ((size, data), p)) by (apply rd_cell_iff; [exact B|lia|eauto]). destruct X as [p X]. rewrite X. cbn [rbind fst].
    destruct (Z.eqb_spec size 0); [congruence|]. rewrite cell_size_mod. replace (n + Z.of_nat (Datatypes.S k)) with (n + 1 + Z.of_nat k) in H by lia.
    destruct (known_step _ _ _ _ _ _ K N) as [K2|(a & b & E1 & E2 & F)]; [|rewrite E1, E2; eauto].
    destruct (step_root h n (o' + 4) root) as [a|] eqn:Er; [destruct (step_system h n (o' + 4) system) as [b|] eqn:Es|]; [eauto| |]; apply IH; assumption.
Qed.

Lemma known_start content h : 0 <= rh_root h -> 0 <= rh_system h -> known content h 0 None None.
Proof. intros R S. unfold known. repeat split; auto. intros [X _]. congruence. Qed.

Lemma rheader_n32 h d : rheader_bytes h d -> n32 (rh_root h) /\ n32 (rh_system h).
Proof. unfold rheader_bytes. intros H. f_out. repeat match goal with H : i32 _ _ |- _ => destruct H as [? _] end. auto. Qed.

Lemma header_iff content h : is_bytes content -> ((exists p, rd_rheader content 0 = Ok (h, p)) <-> exists d, rheader_bytes h d /\ stored_at content 0 d).
Proof.
  intros B. destruct (reads_at rd_rheader _ content 0 reads_rheader solid_rheader B ltac:(lia)) as [R _]. split.
  - intros [p E]. apply R in E. destruct E as (d & H & S & _). eauto.
  - intros (d & H & S). exists (0 + len d). apply R. eauto.
Qed.

Lemma rep_file_iff content r s : is_bytes content ->
  ((exists fuel, rep_file fuel content = Done (Ok (r, s))) <-> exists h d, rheader_bytes h d /\ stored_at content 0 d /\ found content h r s).
Proof.
  intros B. unfold rep_file. split.
  - intros [fuel E]. destruct (rd_rheader content 0) as [[h p]|e] eqn:Eh; cbn [rbind] in E; [|discriminate].
    assert (X : exists d, rheader_bytes h d /\ stored_at content 0 d) by (apply header_iff; eauto). destruct X as (d & H & S). exists h, d. split; [exact H|]. split; [exact S|].
    apply rheader_n32 in H as [N1 N2]. unfold n32 in *. eapply find_sound; [exact B|apply ac_start|apply known_start; lia|exact E].
  - intros (h & d & H & S & F). assert (X : exists p, rd_rheader content 0 = Ok (h, p)) by (apply header_iff; eauto). destruct X as [p X]. rewrite X. cbn [rbind].
    apply rheader_n32 in H as [N1 N2]. unfold n32 in *. assert (K : known content h 0 None None) by (apply known_start; lia).
    assert (G : exists k, number_of_cells content (rh_bin h) (0 + Z.of_nat k) \/
      rh_root h <> rh_system h /\ rh_root h <= 0 + Z.of_nat k /\ rh_system h <= 0 + Z.of_nat k /\ exists a, cell_number content (rh_bin h) (0 + Z.of_nat k) a).
    { destruct F as [(a & b & _ & _ & D & X1 & X2)|(n & N & _)].
      - exists (Z.to_nat (Z.max (rh_root h) (rh_system h))). right. rewrite Z2Nat.id by lia. split; [exact D|]. split; [lia|]. split; [lia|]. rewrite Z.add_0_l.
        destruct (Z.max_spec (rh_root h) (rh_system h)) as [[_ ->]|[_ ->]]; eauto.
      - exists (Z.to_nat n). left. assert (0 <= n) by (destruct N as (? & ? & A & _); eapply after_pos, A). rewrite Z2Nat.id by lia. exact N. }
    destruct G as [k G]. destruct (find_ends k content h 40 0 (rh_bin h) None None B (ac_start _ _) K G) as [[r' s'] E]. exists (Datatypes.S k). rewrite E.
    assert (F' := find_sound _ _ _ _ _ _ _ _ _ _ B (ac_start _ _) K E). destruct (found_det _ _ _ _ _ _ B F F') as [-> ->]. reflexivity.
Qed.

Lemma rep_file_errors fuel content x : is_bytes content -> rep_file fuel content = Done (Err x) -> x = ParseError.
Proof.
  intros B. unfold rep_file. destruct (rd_rheader content 0) as [[h p]|e] eqn:Eh; cbn [rbind].
  - apply find_errors; [exact B|apply ac_start].
  - intros E. injection E as <-. destruct (reads_at rd_rheader _ content 0 reads_rheader solid_rheader B ltac:(lia)) as [_ R]. now apply R.
Qed.

(** With cells of some size the loop ends. *)
Lemma find_terminates fuel : forall content h off n next root system, is_bytes content -> sized content (rh_bin h) -> after_cells content (rh_bin h) n off next ->
  len content - off <= Z.of_nat fuel -> find_cells fuel content h off n next root system <> OutOfFuel.
Proof.
  induction fuel as [|fuel IH]; intros content h off n next root system B Z_ A F.
  - cbn [find_cells]. destruct (Z.ltb_spec off (len content)); [lia|discriminate].
  - rewrite find_step. destruct (Z.ltb_spec off (len content)) as [L|L]; [|discriminate].
    assert (P := after_pos _ _ _ _ _ A). destruct (next_bin content off next) as [[o x]|e] eqn:Eb; cbn [rbind]; [|discriminate].
    apply next_bin_iff in Eb; [|exact B|lia]. assert (Q := bin_at_pos _ _ _ _ _ Eb). destruct (rd_cell content o) as [[[size data] p]|e] eqn:Ec; cbn [rbind]; [|discriminate].
    assert (C : exists d, stored_at content o d /\ cell_bytes size data d) by (apply rd_cell_iff; [exact B|lia|eauto]). destruct C as (d & S & C). cbn [fst].
    destruct (Z.eqb_spec size 0) as [->|Nz]; [discriminate|].
    assert (A2 : after_cells content (rh_bin h) (n + 1) (o + cell_size size) x) by (rewrite cell_size_mod; econstructor; eassumption).
    assert (M : 0 < cell_size size).
    { rewrite cell_size_mod. pose proof (Z.mod_pos_bound size (2 ^ 27) ltac:(lia)). destruct (Z.eq_dec (size mod 2 ^ 27) 0) as [E|]; [|lia]. exfalso. apply Nz. exact (Z_ _ _ _ _ _ _ _ _ A L Eb S C E). }
    destruct (step_root h n (o + 4) root) as [a|] eqn:Er; [destruct (step_system h n (o + 4) system) as [b|] eqn:Es|]; [discriminate| |]; (apply IH; [exact B|exact Z_|exact A2|lia]).
Qed.

Lemma rep_file_terminates content : is_bytes content ->
  (forall h d, rheader_bytes h d -> stored_at content 0 d -> sized content (rh_bin h)) -> rep_file (length content) content <> OutOfFuel.
Proof.
  intros B Z_. unfold rep_file. destruct (rd_rheader content 0) as [[h p]|e] eqn:Eh; cbn [rbind]; [|discriminate].
  assert (X : exists d, rheader_bytes h d /\ stored_at content 0 d) by (apply header_iff; eauto). destruct X as (d & H & S).
  apply find_terminates; [exact B|eapply Z_; eassumption|apply ac_start|unfold len; lia].
Qed.

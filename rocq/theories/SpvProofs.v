(** Proofs about the output of the Spotlight script. *)

From Verif Require Import Base BaseFacts CoreModel StrModel DictModel SpotModel SpvModel SpvSpec.
From Coq Require String.

(** ** Widths *)

Lemma cell_width_spec n : 0 <= n -> cell_width n mod 8 = 0 /\ n <= cell_width n < n + 8.
Proof.
  intros H. unfold cell_width. cbv zeta. pose proof (Z.mod_pos_bound n 8 ltac:(lia)). pose proof (Z.div_mod n 8 ltac:(lia)).
  destruct (Z.ltb_spec 0 (n mod 8)); (split; [apply Z.mod_mul; lia|lia]).
Qed.

Definition w8 (w : Z) : Prop := 0 <= w /\ w mod 8 = 0.

Lemma least8 w n : w8 w -> n <= w -> 0 <= n -> cell_width n <= w.
Proof.
  intros (H1 & H2) H H3. destruct (cell_width_spec n H3) as (E & B). pose proof (Z.div_mod w 8 ltac:(lia)). pose proof (Z.div_mod (cell_width n) 8 ltac:(lia)). lia.
Qed.

Lemma row_widths_ok : forall row ws, length ws = length row -> Forall w8 ws ->
  exists ws', row_widths ws row = Ok ws' /\ length ws' = length row /\ Forall w8 ws' /\
    forall i, (i < length row)%nat -> nth i ws 0 <= nth i ws' 0 /\ len (nth i row []) <= nth i ws' 0 /\
      forall w, w8 w -> nth i ws 0 <= w -> len (nth i row []) <= w -> nth i ws' 0 <= w.
Proof.
  induction row as [|v row IH]; intros ws L F; destruct ws as [|w ws]; try discriminate.
  - exists []. repeat split; auto; cbn in *; lia.
  - cbn [length] in L. inversion F as [|? ? W F']; subst. destruct (IH ws ltac:(lia) F') as (ws' & E & L' & F2 & P). cbn [row_widths]. rewrite E. cbn [bind].
    pose proof (len_nonneg v) as Nv. destruct (cell_width_spec (len v) Nv) as (C1 & C2).
    exists (Z.max w (cell_width (len v)) :: ws'). split; [reflexivity|]. split; [cbn; lia|]. split.
    + constructor; [|exact F2]. destruct W as (W1 & W2). unfold w8. destruct (Z.max_spec w (cell_width (len v))) as [[_ ->]|[_ ->]]; split; try assumption; lia.
    + intros [|i] Hi; cbn [nth length] in *; [|apply P; lia]. split; [lia|]. split; [lia|]. intros x X1 X2 X3. pose proof (least8 x (len v) X1 X3 Nv). lia.
Qed.

Lemma table_widths_ok n : forall rows ws, length ws = n -> Forall w8 ws -> Forall (fun r => length r = n) rows ->
  exists ws', table_widths ws rows = Ok ws' /\ length ws' = n /\ Forall w8 ws' /\
    forall i, (i < n)%nat -> nth i ws 0 <= nth i ws' 0 /\ (forall r, In r rows -> len (nth i r []) <= nth i ws' 0) /\
      forall w, w8 w -> nth i ws 0 <= w -> (forall r, In r rows -> len (nth i r []) <= w) -> nth i ws' 0 <= w.
Proof.
  induction rows as [|r rows IH]; intros ws L F FR; cbn [table_widths].
  - exists ws. repeat split; auto; try lia. intros r [].
  - inversion FR as [|? ? Lr FR']; subst x l. destruct (row_widths_ok r ws ltac:(lia) F) as (ws1 & E & L1 & F1 & P1). rewrite E. cbn [bind].
    destruct (IH ws1 ltac:(lia) F1 FR') as (ws2 & E2 & L2 & F2 & P2). exists ws2. split; [exact E2|]. split; [exact L2|]. split; [exact F2|].
    intros i Hi. destruct (P1 i ltac:(lia)) as (A1 & A2 & A3). destruct (P2 i Hi) as (B1 & B2 & B3). split; [lia|]. split.
    + intros r' [<-|I]; [lia|]. apply B2. exact I.
    + intros w W1 W2 W3. apply B3; [exact W1| |intros r' I; apply W3; right; exact I]. apply A3; [exact W1|exact W2|]. apply W3. left. reflexivity.
Qed.

(** ** Lines *)

Fixpoint line (ws : list Z) (row : list str) : str :=
  match row with
  | [] => []
  | v :: row' =>
      match row' with
      | [] => v
      | _ => match ws with w :: ws => v ++ tabs (w - len v) ++ line ws row' | [] => v ++ line [] row' end
      end
  end.

Lemma line_cons2 w ws v x row : line (w :: ws) (v :: x :: row) = v ++ tabs (w - len v) ++ line ws (x :: row).
Proof. reflexivity. Qed.

Lemma row_text_line : forall row n i ws, i + len row = n -> length ws = length row -> row_text n i ws row = Ok (line ws row ++ [10]).
Proof.
  induction row as [|v row IH]; intros n i ws L W; [reflexivity|]. destruct ws as [|w ws]; [discriminate|]. cbn [row_text tl]. rewrite len_cons in L. cbn [length] in W.
  rewrite (IH n (i + 1) ws) by lia. destruct row as [|x row].
  - change (len (@nil str)) with 0 in L. destruct (Z.ltb_spec i (n - 1)); [lia|]. reflexivity.
  - rewrite len_cons in L. pose proof (len_nonneg row). destruct (Z.ltb_spec i (n - 1)); [|lia]. cbn [bind]. rewrite line_cons2, <- !app_assoc. reflexivity.
Qed.

Lemma rows_text_lines n ws : forall rows, Forall (fun r => length r = n) rows -> length ws = n ->
  rows_text (Z.of_nat n) ws rows = Ok (concat (map (fun r => line ws r ++ [10]) rows)).
Proof.
  induction rows as [|r rows IH]; intros F L; [reflexivity|]. inversion F; subst. cbn [rows_text map concat]. rewrite row_text_line by (unfold len; lia). cbn [bind].
  rewrite IH by auto. reflexivity.
Qed.

Lemma add_rows_ok h n : forall rows done, (0 < n)%nat -> Forall (fun r : list str => length r = n) rows -> 
  add_rows (mktv h (match done with [] => 0 | _ => Z.of_nat n end) done) rows = 
  Ok (mktv h (match done ++ rows with [] => 0 | _ => Z.of_nat n end) (done ++ rows)).
Proof.
  induction rows as [|r rows IH]; intros done P F; cbn [add_rows]; [rewrite app_nil_r; reflexivity|]. inversion F as [|? ? Lr F']; subst x l.
  assert (E : add_row (mktv h (match done with [] => 0 | _ => Z.of_nat n end) done) r = Ok (mktv h (Z.of_nat n) (done ++ [r]))).
  { unfold add_row. cbn [tv_number tv_header tv_rows]. destruct done as [|d done].
    - cbn [Z.eqb]. unfold len. rewrite Lr. reflexivity.
    - destruct (Z.eqb_spec (Z.of_nat n) 0); [lia|]. unfold len. rewrite Lr, Z.eqb_refl. reflexivity. }
  rewrite E. cbn [bind]. specialize (IH (done ++ [r]) P F'). rewrite <- app_assoc in IH. cbn [app] in IH.
  destruct (done ++ [r]) as [|a l] eqn:Ed; [destruct done; discriminate|]. exact IH.
Qed.

(** What is written of the rows. *)
Definition head_text (h : str) : str := match h with [] => [] | h => h ++ [10] end.

Lemma view_lines h n rows : (0 < n)%nat -> rows <> [] -> Forall (fun r : list str => length r = n) rows ->
  exists ws, add_rows (new_view h) rows = Ok (mktv h (Z.of_nat n) rows) /\
    view_text (mktv h (Z.of_nat n) rows) = Ok (head_text h ++ concat (map (fun r => line ws r ++ [10]) rows) ++ [10]) /\
    length ws = n /\ Forall w8 ws /\ forall i, (i < n)%nat -> column_width (Z.to_nat (nth i ws 0)) (column i rows).
Proof.
  intros P N F. pose proof (add_rows_ok h n rows [] P F) as A. cbn [app] in A. destruct rows as [|r0 rows0] eqn:Er; [contradiction|]. rewrite <- Er in *.
  destruct (table_widths_ok n rows (repeat 0 n) (repeat_length _ _)) as (ws & E & L & F8 & W); [|exact F|].
  { clear. induction n as [|n IH]; constructor; [split; [lia|reflexivity]|exact IH]. }
  exists ws. split; [rewrite Er in *; exact A|]. unfold view_text. cbn [tv_number tv_rows tv_header]. rewrite Nat2Z.id, E. cbn [bind].
  rewrite rows_text_lines by assumption. cbn [bind]. split; [destruct h; reflexivity|]. split; [exact L|]. split; [exact F8|].
  intros i Hi. destruct (W i Hi) as (W1 & W2 & W3). assert (Z0 : nth i (repeat 0 n) 0 = 0) by (clear; revert i; induction n as [|n IH]; intros [|i]; cbn; auto). rewrite Z0 in *.
  assert (W8 : w8 (nth i ws 0)) by (rewrite Forall_forall in F8; apply F8; apply nth_In; lia).
  unfold column_width, column. split; [|split].
  - destruct W8 as (_ & M). apply Nat2Z.inj. rewrite Nat2Z.inj_mod. rewrite Z2Nat.id by lia. exact M.
  - intros s I. apply in_map_iff in I as (r & <- & I). specialize (W2 r I). unfold len in W2. apply Nat2Z.inj_le. rewrite Z2Nat.id by (destruct W8; assumption). exact W2.
  - intros w' M' B'. assert (K : nth i ws 0 <= Z.of_nat w'); [|lia]. apply W3; [|lia|].
    + split; [lia|]. change 8 with (Z.of_nat 8). rewrite <- Nat2Z.inj_mod, M'. reflexivity.
    + intros r I. unfold len. apply inj_le. apply B'. apply in_map_iff. exists r. auto.
Qed.

Lemma width_unique w w' col : column_width w col -> column_width w' col -> w = w'.
Proof. intros (A1 & A2 & A3) (B1 & B2 & B3). apply Nat.le_antisymm; auto. Qed.

(** ** What a terminal shows *)

Lemma expand_plain v : plain v -> forall pos s, expand pos (v ++ s) = v ++ expand (pos + length v) s.
Proof.
  induction v as [|c v IH]; intros (P1 & P2) pos s; cbn [app length]; [rewrite Nat.add_0_r; reflexivity|]. cbn [expand].
  destruct (Z.eqb_spec c 9) as [->|_]; [destruct P1; left; reflexivity|]. destruct (Z.eqb_spec c 10) as [->|_]; [destruct P2; left; reflexivity|].
  rewrite IH; [|split; intros I; [apply P1|apply P2]; right; exact I]. f_equal. f_equal. f_equal. lia.
Qed.

Lemma expand_tabs8 s : forall fuel z p d, (p mod 8 = 0)%nat -> (d mod 8 = 0)%nat -> Z.of_nat d - 8 < z <= Z.of_nat d -> (Z.to_nat z <= fuel)%nat ->
  expand p (tab_loop fuel z ++ s) = repeat 32 d ++ expand (p + d) s.
Proof.
  induction fuel as [|fuel IH]; intros z p d P D B F; cbn [tab_loop].
  - assert (d = 0)%nat as -> by (pose proof (Nat.div_mod d 8 ltac:(lia)); lia). cbn. rewrite Nat.add_0_r. reflexivity.
  - destruct (Z.ltb_spec 0 z) as [G|G].
    + pose proof (Nat.div_mod d 8 ltac:(lia)). assert (8 <= d)%nat by lia. cbn [app expand Z.eqb]. change (9 =? 9) with true. cbv iota. rewrite P. change (8 - 0)%nat with 8%nat.
      rewrite (IH (z - 8) (p + 8)%nat (d - 8)%nat).
      * rewrite app_assoc, <- repeat_app. replace (8 + (d - 8))%nat with d by lia. replace (p + 8 + (d - 8))%nat with (p + d)%nat by lia. reflexivity.
      * rewrite <- (Nat.mod_add p 1 8) in P by lia. rewrite Nat.mul_1_l in P. exact P.
      * replace d with ((d - 8) + 1 * 8)%nat in D by lia. rewrite Nat.mod_add in D by lia. exact D.
      * lia.
      * lia.
    + assert (d = 0)%nat as -> by (pose proof (Nat.div_mod d 8 ltac:(lia)); lia). cbn. rewrite Nat.add_0_r. reflexivity.
Qed.

Lemma expand_tabs s p d : ((p + d) mod 8 = 0)%nat -> expand p (tabs (Z.of_nat d) ++ s) = repeat 32 d ++ expand (p + d) s.
Proof.
  intros M. unfold tabs. destruct d as [|d']; [cbn; rewrite Nat.add_0_r; reflexivity|]. set (d := S d') in *. assert (D : (0 < d)%nat) by lia. clearbody d. clear d'.
  rewrite Nat2Z.id. destruct d as [|d']; [lia|]. cbn [tab_loop]. set (d := S d') in *. assert (Ed : d = S d') by reflexivity. clearbody d.
  assert (0 <? Z.of_nat d = true) as -> by (apply Z.ltb_lt; lia). cbn [app expand]. change (9 =? 9) with true. cbv iota.
  pose proof (Nat.mod_upper_bound p 8 ltac:(lia)). pose proof (Nat.div_mod p 8 ltac:(lia)) as Dp. pose proof (Nat.div_mod (p + d) 8 ltac:(lia)) as Dd. rewrite M in Dd.
  set (k := (8 - p mod 8)%nat) in *. assert (K : (k <= d)%nat) by (unfold k; nia).
  assert (P8 : ((p + k) mod 8 = 0)%nat) by (replace (p + k)%nat with ((p / 8 + 1) * 8)%nat by (unfold k; lia); apply Nat.mod_mul; lia).
  assert (D8 : ((d - k) mod 8 = 0)%nat).
  { replace (d - k)%nat with (((p + d) / 8 - (p / 8 + 1)) * 8)%nat by (unfold k in *; nia). apply Nat.mod_mul; lia. }
  rewrite (expand_tabs8 s d' (Z.of_nat d - 8) (p + k) (d - k) P8 D8); [|unfold k in *; lia|lia].
  rewrite app_assoc, <- repeat_app. replace (k + (d - k))%nat with d by lia. replace (p + k + (d - k))%nat with (p + d)%nat by lia. reflexivity.
Qed.

Lemma aligned_cons2 w ws v x row : aligned (w :: ws) (v :: x :: row) = v ++ repeat 32 (w - length v) ++ aligned ws (x :: row).
Proof. reflexivity. Qed.

Lemma expand_line : forall row ws pos, length ws = length row -> Forall w8 ws -> Forall plain row -> (forall i, (i < length row)%nat -> len (nth i row []) <= nth i ws 0) ->
  (pos mod 8 = 0)%nat -> expand pos (line ws row) = aligned (map Z.to_nat ws) row.
Proof.
  induction row as [|v row IH]; intros ws pos L F P B M; [destruct ws; reflexivity|]. destruct ws as [|w ws]; [discriminate|]. cbn [length] in L. cbn [map].
  inversion F as [|? ? W F']; subst. inversion P as [|? ? Pv P']; subst. pose proof (B 0%nat ltac:(cbn; lia)) as Bv. cbn [nth] in Bv. destruct W as (W1 & W2).
  destruct row as [|x row].
  - cbn [line aligned]. rewrite <- (app_nil_r v) at 1. rewrite expand_plain by exact Pv. cbn [expand]. rewrite app_nil_r. reflexivity.
  - rewrite line_cons2, aligned_cons2. rewrite expand_plain by exact Pv. f_equal. unfold len in *.
    replace (w - Z.of_nat (length v)) with (Z.of_nat (Z.to_nat w - length v)) by lia. 
    assert (Mw : (Z.to_nat w mod 8 = 0)%nat) by (apply Nat2Z.inj; rewrite Nat2Z.inj_mod, Z2Nat.id by lia; exact W2).
    assert (Mp : ((pos + Z.to_nat w) mod 8 = 0)%nat) by (rewrite Nat.add_mod, M, Mw by lia; reflexivity).
    rewrite expand_tabs; replace (pos + length v + (Z.to_nat w - length v))%nat with (pos + Z.to_nat w)%nat by lia; [|exact Mp]. f_equal.
    apply IH; [lia|exact F'|exact P'| |exact Mp]. intros i Hi. apply (B (S i)). cbn [length] in *. lia.
Qed.

(** ** The text determines the rows *)

Lemma cut (c : Z) : forall (a b r s : list Z), ~ In c a -> ~ In c b -> a ++ c :: r = b ++ c :: s -> a = b /\ r = s.
Proof.
  induction a as [|x a IH]; intros [|y b] r s A B E; cbn [app] in E.
  - injection E as E. auto.
  - injection E as E1 E2. destruct B. left. symmetry. exact E1.
  - injection E as E1 E2. destruct A. left. exact E1.
  - injection E as -> E. destruct (IH b r s) as (-> & ->); [intros I; apply A; right; exact I|intros I; apply B; right; exact I|exact E|]. auto.
Qed.

Lemma lines_inj {A B} (f : A -> str) (g : B -> str) : forall l l', (forall x, In x l -> ~ In 10 (f x)) -> (forall x, In x l' -> ~ In 10 (g x)) ->
  concat (map (fun x => f x ++ [10]) l) = concat (map (fun x => g x ++ [10]) l') -> Forall2 (fun x y => f x = g y) l l'.
Proof.
  induction l as [|x l IH]; intros [|y l'] F G E; cbn [map concat] in E.
  - constructor.
  - exfalso. destruct (g y); discriminate.
  - exfalso. destruct (f x); discriminate.
  - rewrite <- !app_assoc in E. cbn [app] in E. apply cut in E as (E1 & E2); [|apply F; left; reflexivity|apply G; left; reflexivity].
    constructor; [exact E1|]. apply IH; [intros z I; apply F; right; exact I|intros z I; apply G; right; exact I|exact E2].
Qed.

Lemma tabs_shape d : exists k, tabs d = repeat 9 k /\ (0 < d -> k <> O) /\ (d <= 0 -> k = O).
Proof.
  unfold tabs. assert (G : forall fuel z, exists k, tab_loop fuel z = repeat 9 k).
  { induction fuel as [|fuel IH]; intros z; cbn [tab_loop]; [exists O; reflexivity|]. destruct (0 <? z); [|exists O; reflexivity]. destruct (IH (z - 8)) as (k & ->). exists (S k). reflexivity. }
  destruct (Z.to_nat d) as [|f] eqn:Ef; [exists O; cbn; repeat split; lia|]. cbn [tab_loop]. destruct (Z.ltb_spec 0 d); [|exists O; cbn; repeat split; lia].
  destruct (G f (d - 8)) as (k & ->). exists (S k). cbn. repeat split; lia.
Qed.

Lemma tabs_no_break d : ~ In 10 (tabs d).
Proof. destruct (tabs_shape d) as (k & -> & _). intros I. apply repeat_spec in I. discriminate. Qed.

Lemma line_no_break : forall row ws, Forall plain row -> ~ In 10 (line ws row).
Proof.
  induction row as [|v row IH]; intros ws P; [intros []|]. inversion P as [|? ? (_ & Pv) P']; subst. destruct row as [|x row]; [exact Pv|].
  destruct ws as [|w ws]; [change (line [] (v :: x :: row)) with (v ++ line [] (x :: row))|rewrite line_cons2].
  - intros I. apply in_app_or in I as [I|I]; [exact (Pv I)|exact (IH [] P' I)].
  - intros I. apply in_app_or in I as [I|I]; [exact (Pv I)|]. apply in_app_or in I as [I|I]; [exact (tabs_no_break _ I)|exact (IH ws P' I)].
Qed.

Lemma line_head : forall row ws, Forall plain row -> Forall (fun v => v <> []) row -> row <> [] -> exists c r, line ws row = c :: r /\ c <> 9.
Proof.
  intros [|v row] ws P N R; [contradiction|]. inversion P as [|? ? (Pv & _) P']; subst. inversion N as [|? ? Nv N']; subst. destruct v as [|c v]; [contradiction|].
  assert (c <> 9) by (intros ->; apply Pv; left; reflexivity). destruct row as [|x row]; [exists c, v; auto|]. destruct ws as [|w ws]; cbn [line]; eexists _, _; (split; [reflexivity|assumption]).
Qed.

Lemma tabs_cut : forall k k' (r s : list Z), (exists c t, r = c :: t /\ c <> 9) -> (exists c t, s = c :: t /\ c <> 9) -> repeat 9 k ++ r = repeat 9 k' ++ s -> r = s.
Proof.
  induction k as [|k IH]; intros [|k'] r s (c & t & -> & C) (c' & t' & -> & C') E; cbn [repeat app] in E.
  - exact E.
  - injection E as E _. congruence.
  - injection E as E _. congruence.
  - injection E as E. apply (IH k'); eauto.
Qed.

Lemma line_inj : forall row row' ws ws', length row = length row' -> length ws = length row -> length ws' = length row ->
  Forall plain row -> Forall plain row' -> Forall (fun v => v <> []) row -> Forall (fun v => v <> []) row' ->
  (forall i, (S i < length row)%nat -> len (nth i row []) < nth i ws 0) -> (forall i, (S i < length row)%nat -> len (nth i row' []) < nth i ws' 0) ->
  line ws row = line ws' row' -> row = row'.
Proof.
  induction row as [|v row IH]; intros [|v' row'] ws ws' L L1 L2 P P' N N' B B' E; try discriminate; [reflexivity|].
  destruct ws as [|w ws]; [discriminate|]. destruct ws' as [|w' ws']; [discriminate|]. cbn [length] in *.
  inversion P as [|? ? Pv Pr]; subst. inversion P' as [|? ? Pv' Pr']; subst. inversion N as [|? ? _ Nr]; subst. inversion N' as [|? ? _ Nr']; subst.
  destruct row as [|x row]; destruct row' as [|x' row']; try discriminate.
  - cbn [line] in E. congruence.
  - rewrite !line_cons2 in E. pose proof (B 0%nat ltac:(cbn; lia)) as Bv. pose proof (B' 0%nat ltac:(cbn; lia)) as Bv'. cbn [nth] in Bv, Bv'.
    destruct (tabs_shape (w - len v)) as (k & Ek & Pk & _). destruct (tabs_shape (w' - len v')) as (k' & Ek' & Pk' & _). rewrite Ek, Ek' in E.
    specialize (Pk ltac:(lia)). specialize (Pk' ltac:(lia)). destruct k as [|k]; [contradiction|]. destruct k' as [|k']; [contradiction|]. cbn [repeat app] in E.
    apply cut in E as (-> & E); [|apply Pv|apply Pv']. f_equal. apply tabs_cut in E; [|apply line_head; auto; discriminate|apply line_head; auto; discriminate].
    apply (IH (x' :: row') ws ws'); auto; try (cbn [length] in *; lia).
    + intros i Hi. apply (B (S i)). cbn [length] in *. lia.
    + intros i Hi. apply (B' (S i)). cbn [length] in *. lia.
Qed.

(** ** Metadata items *)

Definition shown (pystr : attr_value -> str) (date : attr_value -> result str) (attrs : sdict attribute) (name s : str) : Prop :=
  value_string pystr date (sdict_get (lookup_name name) attrs) = Ok s.

Definition item_row (p : str * str) : list str := [fst p; s2z "= "%string ++ snd p].

Lemma item_rows_add pystr date attrs : forall names vals t, Forall2 (shown pystr date attrs) names vals ->
  item_rows pystr date attrs t names = add_rows t (map item_row (combine names vals)).
Proof.
  induction names as [|n names IH]; intros vals t F; inversion F as [|? s ? vals' S F']; subst; [reflexivity|]. cbn [item_rows combine map add_rows]. unfold shown in S. rewrite S. cbn [bind].
  unfold item_row at 1. cbn [fst snd]. destruct (add_row t [n; s2z "= "%string ++ s]) as [t'|]; [|reflexivity]. cbn [bind]. apply IH. exact F'.
Qed.

Lemma item_rows_fail pystr date attrs e : forall pre vals name post done h, Forall2 (shown pystr date attrs) pre vals ->
  value_string pystr date (sdict_get (lookup_name name) attrs) = Err e ->
  item_rows pystr date attrs (mktv h (match done with [] => 0 | _ => 2 end) done) (pre ++ name :: post) = Err e.
Proof.
  induction pre as [|n pre IH]; intros vals name post done h F E; inversion F as [|? s ? vals' S F']; subst; cbn [app item_rows]; [rewrite E; reflexivity|].
  unfold shown in S. rewrite S. cbn [bind].
  assert (A : add_row (mktv h (match done with [] => 0 | _ => 2 end) done) [n; s2z "= "%string ++ s] = Ok (mktv h 2 (done ++ [[n; s2z "= "%string ++ s]]))) by (destruct done; reflexivity).
  rewrite A. cbn [bind]. specialize (IH vals' name post (done ++ [[n; s2z "= "%string ++ s]]) h F' E). destruct (done ++ [[n; s2z "= "%string ++ s]]) eqn:D; [destruct done; discriminate|]. exact IH.
Qed.

Lemma names_width : column_width 40 attribute_names.
Proof.
  split; [reflexivity|]. split.
  - intros s I. assert (F : Forall (fun s : str => (length s <= 40)%nat) attribute_names) by (repeat (constructor; [vm_compute; lia|]); constructor). rewrite Forall_forall in F. apply F. exact I.
  - intros w M B. specialize (B (s2z "kMDItemContentModificationDate_Ranking"%string)). 
    assert (L : (length (s2z "kMDItemContentModificationDate_Ranking"%string) = 38)%nat) by reflexivity. rewrite L in B.
    assert (38 <= w)%nat by (apply B; do 4 right; left; reflexivity). pose proof (Nat.div_mod w 8 ltac:(lia)). lia.
Qed.

Lemma names_tabs : Forall (fun n : str => tabs (40 - len n) = repeat 9 ((47 - length n) / 8)) attribute_names.
Proof. repeat (constructor; [vm_compute; reflexivity|]). constructor. Qed.

Lemma combine_column : forall (names vals : list str), length vals = length names -> column 0 (map item_row (combine names vals)) = names.
Proof.
  unfold column. induction names as [|n names IH]; intros [|v vals] L; try discriminate; [reflexivity|]. cbn [combine map nth item_row fst]. f_equal. apply IH. cbn in L. lia.
Qed.

Lemma item_shown pystr date i vals id : Forall2 (shown pystr date (it_attrs i)) attribute_names vals ->
  show_item pystr date id (Some i) = (concat (map (fun p => item_line (fst p) (snd p)) (combine attribute_names vals)) ++ [10], Ok tt).
Proof.
  intros F. unfold show_item. rewrite (item_rows_add _ _ _ _ vals _ F).
  assert (L : length vals = length attribute_names) by (clear - F; induction F; cbn [length]; congruence).
  destruct (view_lines [] 2 (map item_row (combine attribute_names vals))) as (ws & A & V & Lw & W8 & W); [lia| | |].
  { destruct vals; [discriminate|]. discriminate. }
  { apply Forall_map. apply Forall_forall. intros p _. reflexivity. }
  rewrite A. cbn [bind]. rewrite V. cbn [head_text app]. f_equal. f_equal. f_equal.
  destruct ws as [|w0 [|w1 [|]]]; try discriminate. specialize (W 0%nat ltac:(lia)). cbn [nth] in W. rewrite combine_column in W by exact L.
  pose proof (width_unique _ _ _ W names_width) as E. inversion W8 as [|? ? (P0 & _) _]; subst. assert (w0 = 40) as -> by lia.
  rewrite map_map. apply map_ext_in. intros [n s] I. apply in_combine_l in I. pose proof names_tabs as T. rewrite Forall_forall in T. specialize (T n I). cbv beta in T.
  unfold item_row, item_line. cbn [fst snd]. rewrite line_cons2. rewrite T. cbn [line]. rewrite <- !app_assoc. reflexivity.
Qed.

Lemma item_text_inj : forall names vals vals', length vals = length names -> length vals' = length names -> Forall (fun s => ~ In 10 s) vals -> Forall (fun s => ~ In 10 s) vals' ->
  concat (map (fun p => item_line (fst p) (snd p)) (combine names vals)) = concat (map (fun p => item_line (fst p) (snd p)) (combine names vals')) -> vals = vals'.
Proof.
  induction names as [|n names IH]; intros [|v vals] [|v' vals'] L L' F F' E; try discriminate; [reflexivity|]. cbn [combine map concat fst snd] in E. unfold item_line in E at 1 3.
  rewrite <- !app_assoc in E. apply app_inv_head in E. apply app_inv_head in E. apply app_inv_head in E. cbn [app] in E.
  inversion F; subst. inversion F'; subst. apply cut in E as (-> & E); [|assumption|assumption]. f_equal. apply IH; auto.
Qed.

(** ** The database *)

Lemma database_rows (v n : str) : exists t, add_row (new_view (s2z "Apple Spotlight database information:"%string)) [s2z "Metadata version:"%string; v] = Ok t /\
  add_row t [s2z "Number of metadata items:"%string; n] = 
  Ok (mktv (s2z "Apple Spotlight database information:"%string) 2 [[s2z "Metadata version:"%string; v]; [s2z "Number of metadata items:"%string; n]]).
Proof. eexists. split; reflexivity. Qed.

Lemma database_view (v n : str) : 
  view_text (mktv (s2z "Apple Spotlight database information:"%string) 2 [[s2z "Metadata version:"%string; v]; [s2z "Number of metadata items:"%string; n]]) =
  Ok (s2z "Apple Spotlight database information:"%string ++ [10] ++ s2z "Metadata version:"%string ++ [9; 9] ++ v ++ [10] ++ s2z "Number of metadata items:"%string ++ [9] ++ n ++ [10] ++ [10]).
Proof.
  unfold view_text. cbn [tv_number tv_rows tv_header]. change (repeat 0 (Z.to_nat 2)) with [0; 0]. cbn [table_widths row_widths bind].
  change (Z.max (Z.max 0 (cell_width (len (s2z "Metadata version:"%string)))) (cell_width (len (s2z "Number of metadata items:"%string)))) with 32.
  cbn [rows_text]. rewrite !row_text_line by reflexivity. cbn [bind]. rewrite !line_cons2. 
  change (tabs (32 - len (s2z "Metadata version:"%string))) with [9; 9]. change (tabs (32 - len (s2z "Number of metadata items:"%string))) with [9].
  cbn [line]. rewrite !app_nil_r, <- !app_assoc. reflexivity.
Qed.

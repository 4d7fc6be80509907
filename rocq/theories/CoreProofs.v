(** Proofs about the file access core. *)

From Verif Require Import Base BaseFacts CoreModel CoreSpec.

Lemma zfirstn_skip_clip {A} (l : list A) n p m :
  0 <= p -> p <= n -> n - p <= m ->
  zfirstn m (zskipn p (zfirstn n l)) = zfirstn (n - p) (zskipn p l).
Proof.
  intros Hp Hn Hm. rewrite !zfirstn_firstn, !zskipn_skipn.
  rewrite skipn_firstn_comm, firstn_firstn. f_equal. lia.
Qed.

Lemma dr_read_view r f n :
  usable r -> match n with Some k => 0 <= k | None => True end ->
  exists f',
    dr_read r f n =
      (let d := mem_read (view (fdata f) (dr_offset r) (dr_size r)) (dr_cur r) n in
       (Ok d, mkrange (dr_offset r) (dr_size r) (dr_cur r + len d), f'))
    /\ fdata f' = fdata f.
Proof.
  intros (Ho & Hs & Hc) Hn. destruct r as [off size cur]; cbn [dr_offset dr_size dr_cur] in *.
  unfold dr_read; cbn [dr_offset dr_size dr_cur].
  destruct (Z.ltb_spec off 0); [lia|]. destruct (Z.ltb_spec size 0); [lia|].
  destruct (Z.leb_spec size cur) as [Hge|Hlt].
  - exists f. split; [|reflexivity].
    assert (E : zskipn cur (view (fdata f) off size) = []).
    { apply zskipn_all. unfold view. rewrite len_zfirstn. lia. }
    destruct n as [k|]; cbn [mem_read]; rewrite E; cbn [zfirstn]; cbn zeta;
      rewrite len_nil, Z.add_0_r; reflexivity.
  - unfold f_seek. destruct (Z.ltb_spec (off + cur) 0); [lia|].
    unfold f_try_read, f_read. cbn [fpos fdata].
    set (sz := match n with Some k => k | None => size end).
    assert (Hsz : 0 <= sz) by (destruct n; subst sz; lia).
    set (sz2 := if size <? cur + sz then size - cur else sz).
    assert (Hsz2 : 0 <= sz2 /\ cur + sz2 <= size).
    { subst sz2. destruct (Z.ltb_spec size (cur + sz)); lia. }
    destruct (Z.ltb_spec sz2 (-1)); [lia|]. destruct (Z.ltb_spec sz2 0); [lia|].
    assert (E : zfirstn sz2 (zskipn (off + cur) (fdata f)) =
                mem_read (view (fdata f) off size) cur n).
    { unfold view. rewrite <- zskipn_zskipn by lia.
      destruct n as [k|]; cbn [mem_read].
      - subst sz. subst sz2. destruct (Z.ltb_spec size (cur + k)).
        + symmetry; apply zfirstn_skip_clip; lia.
        + rewrite zwindow_window by lia. rewrite zskipn_zskipn by lia. reflexivity.
      - subst sz. subst sz2.
        rewrite <- (zfirstn_all (zskipn cur (zfirstn size (zskipn off (fdata f)))) size)
          by (rewrite len_zskipn, len_zfirstn; lia).
        rewrite zfirstn_skip_clip by lia.
        destruct (Z.ltb_spec size (cur + size)).
        + reflexivity.
        + replace size with (size - cur) at 1 by lia. reflexivity. }
    cbn zeta. rewrite E. eexists; split; [reflexivity|reflexivity].
Qed.

Lemma dr_read_bad_window r f n :
  dr_offset r < 0 \/ dr_size r < 0 -> dr_read r f n = (Err OSError, r, f).
Proof.
  intros H. unfold dr_read.
  destruct (Z.ltb_spec (dr_offset r) 0); [reflexivity|].
  destruct (Z.ltb_spec (dr_size r) 0); [reflexivity|lia].
Qed.

(** Confinement in terms of absolute positions. *)
Lemma dr_read_bytes r f n d r' f' i b :
  usable r -> match n with Some k => 0 <= k | None => True end ->
  dr_read r f n = (Ok d, r', f') -> nth_error d i = Some b ->
  dr_cur r + Z.of_nat i < dr_size r /\
  nth_error (fdata f) (Z.to_nat (dr_offset r + dr_cur r) + i) = Some b.
Proof.
  intros Hu Hn E Hi. destruct (dr_read_view r f n Hu Hn) as (f2 & E2 & _).
  rewrite E in E2. cbn zeta in E2. injection E2 as -> _ _.
  destruct Hu as (Ho & Hs & Hc).
  assert (Hin : nth_error (zskipn (dr_cur r) (view (fdata f) (dr_offset r) (dr_size r))) i
                = Some b).
  { destruct n as [k|]; cbn [mem_read] in Hi; [|exact Hi].
    rewrite zfirstn_firstn in Hi.
    destruct (Nat.lt_ge_cases i (Z.to_nat k)) as [Hlt|Hge].
    - rewrite nth_error_firstn in Hi by exact Hlt. exact Hi.
    - rewrite (proj2 (nth_error_None _ _)) in Hi; [discriminate|].
      rewrite firstn_length. lia. }
  rewrite zskipn_skipn in Hin. unfold view in Hin.
  rewrite zfirstn_firstn, zskipn_skipn in Hin.
  rewrite nth_error_skipn in Hin.
  assert (Hb : (Z.to_nat (dr_cur r) + i < Z.to_nat (dr_size r))%nat).
  { assert (Hl : nth_error (firstn (Z.to_nat (dr_size r)) (skipn (Z.to_nat (dr_offset r)) (fdata f)))
        (Z.to_nat (dr_cur r) + i) <> None) by congruence.
    apply nth_error_Some in Hl. rewrite firstn_length in Hl. lia. }
  split; [lia|].
  rewrite nth_error_firstn in Hin by exact Hb.
  rewrite nth_error_skipn in Hin. rewrite <- Hin. f_equal. lia.
Qed.

(** ** Sequences of reads *)

Lemma mem_read_app (bs : bytes) p a b :
  0 <= p -> 0 <= a -> 0 <= b ->
  zfirstn a (zskipn p bs) ++
  zfirstn b (zskipn (p + len (zfirstn a (zskipn p bs))) bs) =
  zfirstn (a + b) (zskipn p bs).
Proof.
  intros Hp Ha Hb. rewrite <- zwindow_app by lia. f_equal.
  rewrite len_zfirstn, len_zskipn.
  destruct (Z.leb_spec a (Z.max 0 (len bs - Z.max 0 p))).
  - do 2 f_equal. lia.
  - rewrite (zskipn_all bs (p + a)) by lia. rewrite zskipn_all by lia. reflexivity.
Qed.

Lemma dr_reads_seq sizes : forall r f,
  usable r -> Forall (fun n => 0 <= n) sizes ->
  exists outs r' f',
    dr_run r f (map (fun n => RRead (Some n)) sizes) =
      (map (fun d => OData (Ok d)) outs, r', f') /\
    concat outs = zfirstn (sumz sizes)
                    (zskipn (dr_cur r) (view (fdata f) (dr_offset r) (dr_size r))) /\
    dr_tell r' = dr_cur r + len (concat outs) /\
    dr_offset r' = dr_offset r /\ dr_size r' = dr_size r /\ fdata f' = fdata f.
Proof.
  induction sizes as [|n sizes IH]; intros r f Hu Hn.
  - exists [], r, f. cbn. rewrite zfirstn_0 by lia.
    repeat split. unfold dr_tell. lia.
  - inversion Hn as [|? ? Hn1 Hn2]; subst.
    destruct (dr_read_view r f (Some n) Hu Hn1) as (f1 & E & Hf).
    cbn zeta in E. set (d := mem_read _ _ _) in E.
    set (r1 := mkrange (dr_offset r) (dr_size r) (dr_cur r + len d)) in E.
    assert (Hu1 : usable r1).
    { unfold usable, r1 in *; cbn [dr_offset dr_size dr_cur]. pose proof (len_nonneg d). lia. }
    destruct (IH r1 f1 Hu1 Hn2) as (outs & r' & f' & Er & Ec & Et & Eo & Es & Ef).
    exists (d :: outs), r', f'. cbn [map dr_run dr_step]. rewrite E.
    cbn zeta beta iota. rewrite Er.
    split; [reflexivity|]. cbn [concat sumz fold_right].
    assert (Hs : 0 <= sumz sizes).
    { clear - Hn2. induction Hn2; cbn; [lia|]. unfold sumz in *. lia. }
    destruct Hu as (Ho & Hsz & Hc).
    rewrite Ec, Hf. unfold r1; cbn [dr_offset dr_size dr_cur].
    unfold d; cbn [mem_read]. fold (sumz sizes). rewrite mem_read_app by lia.
    split; [reflexivity|]. split; [|rewrite Eo, Es, Ef; auto].
    rewrite Et, Ec, Hf. unfold r1; cbn [dr_offset dr_size dr_cur].
    rewrite <- (mem_read_app _ (dr_cur r) n (sumz sizes)) by lia.
    rewrite len_app. unfold d; cbn [mem_read]. lia.
Qed.

(** ** Seek *)

Lemma dr_seek_spec r off wh :
  0 <= dr_size r ->
  dr_seek r off wh =
    match seek_target (dr_cur r) (dr_size r) off wh with
    | Some t => if t <? 0 then (Err OSError, r)
                else (Ok tt, mkrange (dr_offset r) (dr_size r) t)
    | None => (Err OSError, r)
    end.
Proof.
  intros Hs. unfold dr_seek, seek_target, SEEK_SET, SEEK_CUR, SEEK_END.
  destruct (Z.ltb_spec (dr_size r) 0); [lia|].
  destruct (Z.eqb_spec wh 1) as [->|]; [cbn; rewrite Z.add_comm; reflexivity|].
  destruct (Z.eqb_spec wh 2) as [->|]; [cbn; rewrite Z.add_comm; reflexivity|].
  destruct (Z.eqb_spec wh 0); reflexivity.
Qed.

Lemma dr_seek_error_state r off wh e r' :
  dr_seek r off wh = (Err e, r') -> e = OSError /\ r' = r.
Proof.
  unfold dr_seek. destruct (dr_size r <? 0); [now injection 1|].
  destruct (wh =? SEEK_CUR); [|destruct (wh =? SEEK_END);
    [|destruct (negb (wh =? SEEK_SET)); [now injection 1|]]];
  (destruct (_ <? 0); [now injection 1|discriminate]).
Qed.

Lemma dr_read_past_end r f n :
  usable r -> dr_size r <= dr_cur r -> dr_read r f n = (Ok [], r, f).
Proof.
  intros (Ho & Hs & Hc) H. unfold dr_read.
  destruct (Z.ltb_spec (dr_offset r) 0); [lia|].
  destruct (Z.ltb_spec (dr_size r) 0); [lia|].
  destruct (Z.leb_spec (dr_size r) (dr_cur r)); [reflexivity|lia].
Qed.

(** ** Interleaving *)

Lemma f_read_data f n : fst (f_read f n) =
  if n <? 0 then zskipn (fpos f) (fdata f) else zfirstn n (zskipn (fpos f) (fdata f)).
Proof. reflexivity. Qed.

(** A step of a range depends on the parent's content only. *)
Lemma dr_step_pos_irrelevant r f g o :
  fdata f = fdata g ->
  fst (fst (dr_step r f o)) = fst (fst (dr_step r g o)) /\
  snd (fst (dr_step r f o)) = snd (fst (dr_step r g o)) /\
  fdata (snd (dr_step r f o)) = fdata f.
Proof.
  intros H. destruct o as [n|off wh|]; cbn [dr_step].
  - unfold dr_read. destruct (dr_offset r <? 0); [cbn; auto|].
    destruct (dr_size r <? 0); [cbn; auto|].
    destruct (dr_size r <=? dr_cur r); [cbn; auto|].
    unfold f_seek. destruct (_ + _ <? 0); [cbn; auto|].
    unfold f_try_read, f_read; cbn [fdata fpos]. rewrite H. destruct (_ <? -1); cbn; auto.
  - destruct (dr_seek r off wh); cbn; auto.
  - cbn; auto.
Qed.

Lemma dr_run_pos_irrelevant ops : forall r f g,
  fdata f = fdata g -> fst (fst (dr_run r f ops)) = fst (fst (dr_run r g ops)).
Proof.
  induction ops as [|o ops IH]; intros r f g H; [reflexivity|].
  cbn [dr_run].
  destruct (dr_step_pos_irrelevant r f g o H) as (H1 & H2 & H3).
  assert (H4 : fdata (snd (dr_step r g o)) = fdata g).
  { apply (dr_step_pos_irrelevant r g g o eq_refl). }
  destruct (dr_step r f o) as [[o1 r1] f1], (dr_step r g o) as [[o2 r2] g1].
  cbn [fst snd] in *. subst o2 r2.
  specialize (IH r1 f1 g1 ltac:(congruence)).
  destruct (dr_run r1 f1 ops) as [[? ?] ?], (dr_run r1 g1 ops) as [[? ?] ?].
  cbn [fst] in *. congruence.
Qed.

Lemma update_nth_length {A} i (x : A) l : length (update_nth i x l) = length l.
Proof.
  unfold update_nth. rewrite app_length, firstn_length.
  pose proof (skipn_length i l).
  destruct (skipn i l) eqn:E; cbn [length] in *; lia.
Qed.

Lemma update_nth_nth {A} i (x : A) l j :
  (i < length l)%nat ->
  nth_error (update_nth i x l) j = if Nat.eqb j i then Some x else nth_error l j.
Proof.
  unfold update_nth. revert i j; induction l as [|y l IH]; intros i j Hi.
  - cbn in Hi; lia.
  - destruct i as [|i].
    + cbn [firstn skipn app]. destruct j; reflexivity.
    + cbn [firstn skipn app]. destruct j as [|j]; [reflexivity|].
      cbn [nth_error Nat.eqb]. apply IH. cbn in Hi; lia.
Qed.

Lemma interleave_solo ops : forall rs f g i r,
  nth_error rs i = Some r -> fdata f = fdata g ->
  outputs_of i (dr_interleave rs f ops) = fst (fst (dr_run r g (project i ops))).
Proof.
  induction ops as [|o ops IH]; intros rs f g i r Hr Hfg; [reflexivity|].
  destruct o as [j o|off|n]; cbn [dr_interleave project].
  - destruct (nth_error rs j) as [rj|] eqn:Ej.
    + pose proof (dr_step_pos_irrelevant rj f g o Hfg) as (H1 & H2 & H3).
      destruct (Nat.eqb_spec i j) as [->|Hij].
      * rewrite Hr in Ej; injection Ej as <-.
        assert (H4 : fdata (snd (dr_step r g o)) = fdata g)
          by apply (dr_step_pos_irrelevant r g g o eq_refl).
        cbn [dr_run].
        destruct (dr_step r f o) as [[o1 r1] f1], (dr_step r g o) as [[o2 r2] g1].
        cbn [fst snd] in *. subst o2 r2.
        cbn [outputs_of]. rewrite Nat.eqb_refl.
        rewrite (IH (update_nth j r1 rs) f1 g1 j r1).
        -- destruct (dr_run r1 g1 (project j ops)) as [[? ?] ?]. reflexivity.
        -- rewrite update_nth_nth, Nat.eqb_refl; [reflexivity|].
           apply nth_error_Some; congruence.
        -- congruence.
      * destruct (dr_step rj f o) as [[o1 r1] f1]. cbn [fst snd] in *.
        cbn [outputs_of]. destruct (Nat.eqb_spec i j); [contradiction|].
        apply IH; [|congruence].
        rewrite update_nth_nth by (apply nth_error_Some; congruence).
        destruct (Nat.eqb_spec i j); [contradiction|exact Hr].
    + destruct (Nat.eqb_spec i j) as [->|Hij]; [congruence|].
      apply IH; assumption.
  - unfold f_seek. destruct (off <? 0); apply IH; auto.
  - unfold f_try_read. destruct (n <? -1); apply IH; auto.
Qed.

(** ** Exact reads *)

Lemma read_data_ok f off n d f' :
  read_data (Some f) off n = Ok (d, f') ->
  0 <= off /\ len d = n /\ d = zfirstn n (zskipn off (fdata f)) /\ off + n <= Z.max off (len (fdata f))
  /\ fdata f' = fdata f /\ fpos f' = off + n.
Proof.
  unfold read_data, f_seek. destruct (Z.ltb_spec off 0); cbn [bind]; [discriminate|].
  unfold f_try_read. destruct (Z.ltb_spec n (-1)); cbn [bind]; [discriminate|].
  unfold f_read; cbn [fpos fdata bind]. intros H1.
  destruct (Z.ltb_spec n 0) as [Hn|Hn].
  - destruct (Z.eqb_spec (len (zskipn off (fdata f))) n) as [E|]; cbn [negb] in H1; [|discriminate].
    pose proof (len_nonneg (zskipn off (fdata f))). lia.
  - destruct (Z.eqb_spec (len (zfirstn n (zskipn off (fdata f)))) n) as [E|]; cbn [negb] in H1;
      [|discriminate].
    injection H1 as <- <-. cbn [fdata fpos]. rewrite E.
    rewrite len_zfirstn, len_zskipn in E. repeat split; auto; lia.
Qed.

Lemma read_data_total f off n :
  match read_data (Some f) off n with
  | Ok (d, f') => 0 <= off /\ 0 <= n /\ (n = 0 \/ off + n <= len (fdata f)) /\
                  d = zfirstn n (zskipn off (fdata f)) /\ len d = n /\ fdata f' = fdata f
  | Err ParseError => 0 <= off /\ (n = -1 \/ (0 < n /\ len (fdata f) < off + n))
  | Err OSError => off < 0
  | Err ValueError => 0 <= off /\ n < -1
  | Err _ => False
  end.
Proof.
  destruct (read_data (Some f) off n) as [[d f']|e] eqn:E.
  - pose proof (read_data_ok _ _ _ _ _ E) as (H1 & H2 & H3 & H4 & H5 & _).
    pose proof (len_nonneg d). repeat split; auto; lia.
  - unfold read_data, f_seek in E. destruct (Z.ltb_spec off 0); cbn [bind] in E.
    + now injection E as <-.
    + unfold f_try_read in E. destruct (Z.ltb_spec n (-1)); cbn [bind] in E; [injection E as <-; auto|].
      unfold f_read in E; cbn [fdata fpos] in E.
      destruct (Z.ltb_spec n 0) as [Hn|Hn].
      * destruct (Z.eqb_spec (len (zskipn off (fdata f))) n); cbn [negb] in E; [discriminate|].
        injection E as <-. lia.
      * destruct (Z.eqb_spec (len (zfirstn n (zskipn off (fdata f)))) n) as [|Hne];
          cbn [negb] in E; [discriminate|].
        injection E as <-. rewrite len_zfirstn, len_zskipn in Hne. lia.
Qed.

(** ** Structure reads *)

Lemma read_structure_loop_sound {A} (m : dtmap A) off fuel : forall f data last size a n f',
  data = zfirstn last (zskipn off (fdata f)) -> len data = last -> 0 <= off ->
  read_structure_loop fuel m f off data last size = Done (Ok (a, n, f')) ->
  0 <= n /\ fdata f' = fdata f /\
  len (zfirstn n (zskipn off (fdata f))) = n /\
  m_map m (zfirstn n (zskipn off (fdata f))) = MOk a.
Proof.
  induction fuel as [|fuel IH]; intros f data last size a n f' Hd Hl Hoff E; [discriminate|].
  cbn [read_structure_loop] in E.
  destruct (Z.eqb_spec size last); [discriminate|].
  destruct (read_data (Some f) (off + last) (size - last)) as [[seg f1]|e] eqn:Er; [|discriminate].
  apply read_data_ok in Er. destruct Er as (H1 & H2 & H3 & H4 & H5 & H6).
  pose proof (len_nonneg seg) as Hseg. pose proof (len_nonneg data) as Hdata.
  assert (Hd1 : data ++ seg = zfirstn size (zskipn off (fdata f))).
  { rewrite Hd, H3. rewrite zwindow_app by lia. f_equal. lia. }
  assert (Hl1 : len (data ++ seg) = size) by (rewrite len_app; lia).
  destruct (m_map m (data ++ seg)) as [a'| |] eqn:Em.
  - injection E as -> -> ->. rewrite <- Hd1. repeat split; auto; try lia.
  - rewrite <- H5. apply IH in E; auto. rewrite H5; exact Hd1.
  - discriminate.
Qed.

Lemma read_structure_sound {A} (m : dtmap A) fuel f off a n f' :
  read_structure fuel m f off = Done (Ok (a, n, f')) ->
  0 <= off /\ 0 <= n /\ fdata f' = fdata f /\
  len (zfirstn n (zskipn off (fdata f))) = n /\
  m_map m (zfirstn n (zskipn off (fdata f))) = MOk a.
Proof.
  unfold read_structure. intros E.
  destruct (Z.ltb_spec off 0) as [Hneg|Hoff].
  - exfalso. destruct fuel as [|fuel]; [discriminate|]. cbn [read_structure_loop] in E.
    destruct (Z.eqb_spec (m_hint0 m) 0); [discriminate|].
    unfold read_data, f_seek in E. rewrite Z.add_0_r in E.
    destruct (Z.ltb_spec off 0); [|lia]. cbn [bind] in E. discriminate.
  - split; [exact Hoff|]. eapply read_structure_loop_sound in E; eauto.
    rewrite zfirstn_0 by lia. reflexivity.
Qed.

Lemma read_structure_error {A} (m : dtmap A) fuel f off e :
  read_structure fuel m f off = Done (Err e) ->
  e = ParseError \/ (e = OSError /\ off < 0) \/
  (e = ValueError /\ (m_hint0 m < -1 \/ exists d, m_map m d = MTooSmall /\ m_hint m d < len d - 1)).
Proof.
  unfold read_structure. destruct (Z.ltb_spec off 0) as [Hneg|Hoff].
  - destruct fuel as [|fuel]; [discriminate|]. cbn [read_structure_loop].
    destruct (Z.eqb_spec (m_hint0 m) 0); [left; congruence|].
    unfold read_data, f_seek. rewrite Z.add_0_r.
    destruct (Z.ltb_spec off 0); [|lia]. cbn [bind]. injection 1 as <-. auto.
  - enough (H : forall fuel f data last size,
        last = len data -> read_structure_loop fuel m f off data last size = Done (Err e) ->
        e = ParseError \/ (e = ValueError /\ (size < last - 1 \/ exists d, m_map m d = MTooSmall /\ m_hint m d < len d - 1)))
      by (intros E; apply H in E; [|reflexivity]; destruct E as [E|[E [E'|E']]]; [auto| |]; right; right; (split; [exact E|]); [left; lia|right; exact E']).
    clear f fuel. induction fuel as [|fuel IH]; intros f data last size Hl E; [discriminate|].
    cbn [read_structure_loop] in E.
    destruct (Z.eqb_spec size last); [left; congruence|]. pose proof (len_nonneg data).
    pose proof (read_data_total f (off + last) (size - last)) as Ht.
    destruct (read_data (Some f) (off + last) (size - last)) as [[seg f1]|e1] eqn:Er.
    + destruct (m_map m (data ++ seg)) eqn:Em; [discriminate| |left; congruence].
      assert (Hs : size = len (data ++ seg)) by (rewrite len_app; lia).
      apply IH in E; [|exact Hs]. destruct E as [E|[E [E'|E']]]; [auto| |auto].
      right. split; [exact E|]. right. exists (data ++ seg). split; [exact Em|]. lia.
    + injection E as ->. destruct e; try contradiction; auto; [lia|]. right. split; [reflexivity|]. lia.
Qed.

(** The loop needs at most one iteration per byte behind the offset, plus two. *)
Lemma read_structure_loop_fuel {A} (m : dtmap A) off fuel : forall f data last size,
  0 <= last -> 
  (Z.to_nat (len (fdata f) - off - last) + 2 <= fuel)%nat ->
  off + last <= Z.max off (len (fdata f)) ->
  read_structure_loop fuel m f off data last size <> OutOfFuel.
Proof.
  induction fuel as [|fuel IH]; intros f data last size Hl Hfuel Hin; [lia|].
  cbn [read_structure_loop].
  destruct (Z.eqb_spec size last); [discriminate|].
  destruct (read_data (Some f) (off + last) (size - last)) as [[seg f1]|e] eqn:Er; [|discriminate].
  apply read_data_ok in Er. destruct Er as (H1 & H2 & H3 & H4 & H5 & H6).
  pose proof (len_nonneg seg).
  destruct (m_map m (data ++ seg)); try discriminate.
  apply IH; rewrite ?H5; lia.
Qed.

Lemma read_structure_fuel {A} (m : dtmap A) f off :
  read_structure (Z.to_nat (len (fdata f) - off) + 2) m f off <> OutOfFuel.
Proof.
  unfold read_structure. apply read_structure_loop_fuel; try lia.
Qed.

(** More fuel does not change the outcome. *)
Lemma read_structure_loop_mono {A} (m : dtmap A) off fuel : forall fuel' f data last size r,
  (fuel <= fuel')%nat ->
  read_structure_loop fuel m f off data last size = Done r ->
  read_structure_loop fuel' m f off data last size = Done r.
Proof.
  induction fuel as [|fuel IH]; intros fuel' f data last size r Hle E; [discriminate|].
  destruct fuel' as [|fuel']; [lia|]. cbn [read_structure_loop] in *.
  destruct (size =? last); [exact E|].
  destruct (read_data (Some f) (off + last) (size - last)) as [[seg f1]|e]; [|exact E].
  destruct (m_map m (data ++ seg)); [exact E| |exact E].
  apply IH; [lia|exact E].
Qed.

(** Fixed-size structures. *)
Lemma read_struct_ok content ks off vs :
  read_struct content ks off = Ok vs ->
  0 <= off /\
  map_struct ks (zfirstn (Z.of_nat (struct_size ks)) (zskipn off content)) = Some vs /\
  len (zfirstn (Z.of_nat (struct_size ks)) (zskipn off content)) = Z.of_nat (struct_size ks).
Proof.
  unfold read_struct, read_at. destruct (Z.ltb_spec off 0); cbn [bind]; [discriminate|].
  destruct (Z.ltb_spec (Z.of_nat (struct_size ks)) 0); [lia|].
  destruct (Z.eqb_spec (len (zfirstn (Z.of_nat (struct_size ks)) (zskipn off content)))
              (Z.of_nat (struct_size ks))) as [E|]; cbn [negb]; [|discriminate].
  destruct (map_struct ks _) eqn:Em; [|discriminate].
  injection 1 as <-. auto.
Qed.

Lemma read_struct_enc pre ks vs post off :
  Forall2 fval_ok ks vs -> off = len pre ->
  read_struct (pre ++ enc_struct ks vs ++ post) ks off = Ok vs.
Proof.
  intros H ->. unfold read_struct.
  rewrite (read_at_app pre (enc_struct ks vs) post).
  - cbn [bind].
    assert (El : len (enc_struct ks vs) = Z.of_nat (struct_size ks)).
    { unfold len. rewrite enc_struct_length by exact H. reflexivity. }
    rewrite El, Z.eqb_refl. cbn [negb].
    rewrite <- (app_nil_r (enc_struct ks vs)), map_struct_enc by exact H. reflexivity.
  - reflexivity.
  - unfold len. rewrite enc_struct_length by exact H. reflexivity.
Qed.

Lemma read_struct_errors content ks off e :
  read_struct content ks off = Err e ->
  (e = OSError /\ off < 0) \/ (e = ParseError /\ 0 <= off).
Proof.
  unfold read_struct, read_at. destruct (Z.ltb_spec off 0); cbn [bind].
  - injection 1 as <-; auto.
  - destruct (negb _); [injection 1 as <-; auto|].
    destruct (map_struct ks _); [discriminate|injection 1 as <-; auto].
Qed.

(** [read_struct] is [read_structure] for fixed-size structures of positive size. *)
Lemma read_struct_is_read_structure ks f off :
  (0 < struct_size ks)%nat ->
  read_structure (Z.to_nat (len (fdata f) - off) + 2) (struct_map ks) f off =
  Done (match read_struct (fdata f) ks off with
        | Ok vs => Ok (vs, Z.of_nat (struct_size ks),
                       mkfile (fdata f) (off + Z.of_nat (struct_size ks)))
        | Err e => Err e
        end).
Proof.
  intros Hs. unfold read_structure.
  replace (Z.to_nat (len (fdata f) - off) + 2)%nat
    with (S (Z.to_nat (len (fdata f) - off) + 1)) by lia.
  set (k := (_ + 1)%nat). cbn [read_structure_loop m_hint0 struct_map].
  destruct (Z.eqb_spec (Z.of_nat (struct_size ks)) 0); [lia|].
  rewrite Z.add_0_r, Z.sub_0_r. unfold read_data, f_seek, read_struct, read_at.
  destruct (Z.ltb_spec off 0); cbn [bind]; [reflexivity|].
  unfold f_try_read, f_read. cbn [fpos fdata].
  destruct (Z.ltb_spec (Z.of_nat (struct_size ks)) (-1)); [lia|]. cbn [bind].
  destruct (Z.ltb_spec (Z.of_nat (struct_size ks)) 0); [lia|].
  set (d := zfirstn _ _).
  destruct (Z.eqb_spec (len d) (Z.of_nat (struct_size ks))) as [E|]; cbn [negb]; [|reflexivity].
  cbn [app m_map struct_map]. destruct (map_struct ks d) eqn:Em.
  - rewrite E. reflexivity.
  - exfalso. destruct (map_struct_some ks d) as [vs Hvs]; [unfold len in E; lia|congruence].
Qed.

(** ** Life cycle *)


Lemma o_init_inv : o_inv o_init.
Proof. repeat split; cbn; try constructor; contradiction. Qed.

Lemma o_step_inv s o : o_inv s -> o_inv (snd (o_step s o)).
Proof.
  intros (H1 & H2 & H3 & H4 & H5 & H6).
  destruct o as [p w|]; cbn [o_step].
  - destruct (o_held s) as [h|] eqn:Eh.
    + cbn [snd]. unfold o_inv. rewrite Eh. auto 10.
    + destruct w as [e|e|e|]; cbn [snd]; unfold o_inv; cbn [o_live o_closed o_held o_owned o_next];
        rewrite ?Eh; try solve [auto 10].
      * repeat split; auto.
        -- constructor; [|exact H1]. intros Hin; apply H3 in Hin; lia.
        -- intros h [<-|Hin]; [lia|apply H3 in Hin; lia].
        -- intros h Hin; apply H4 in Hin; lia.
        -- intros h [<-|Hin]; [intros Hc; apply H4 in Hc; lia|auto].
      * repeat split; auto.
        -- constructor; [|exact H1]. intros Hin; apply H3 in Hin; lia.
        -- intros h [<-|Hin]; [lia|apply H3 in Hin; lia].
        -- intros h Hin; apply H4 in Hin; lia.
        -- intros h [<-|Hin]; [intros Hc; apply H4 in Hc; lia|auto].
        -- now left.
  - destruct (o_held s) as [h|] eqn:Eh.
    + destruct H6 as [Ho Hin]. rewrite Ho. cbn [snd]; unfold o_inv; cbn.
      repeat split; auto.
      * apply NoDup_filter; exact H1.
      * constructor; [apply H5; exact Hin|exact H2].
      * intros x Hx; apply filter_In in Hx; apply H3; tauto.
      * intros x [<-|Hx]; [apply H3; exact Hin|auto].
      * intros x Hx. apply filter_In in Hx. destruct Hx as [Hx Hne].
        intros [->|Hc]; [rewrite Nat.eqb_refl in Hne; discriminate|].
        apply (H5 x Hx Hc).
    + cbn [snd]. unfold o_inv. rewrite Eh. auto 10.
Qed.

Lemma o_run_inv ops : forall s, o_inv s -> o_inv (snd (o_run s ops)).
Proof.
  induction ops as [|o ops IH]; intros s H; [exact H|].
  cbn [o_run]. pose proof (o_step_inv s o H) as H1.
  destruct (o_step s o) as [r s1]. cbn [snd] in H1.
  specialize (IH s1 H1). destruct (o_run s1 ops); exact IH.
Qed.

Lemma o_step_phase s o :
  o_inv s ->
  phase_step (phase_of s) (o_next s) o =
  (fst (o_step s o), phase_of (snd (o_step s o)), o_next (snd (o_step s o))).
Proof.
  intros (_ & _ & _ & _ & _ & H6). unfold phase_of.
  destruct o as [p w|]; cbn [o_step]; destruct (o_held s) as [h|] eqn:Eh.
  - cbn. rewrite Eh. reflexivity.
  - destruct w; cbn; rewrite ?Eh; reflexivity.
  - destruct H6 as [Ho _]. rewrite Ho. reflexivity.
  - cbn. rewrite Eh. reflexivity.
Qed.

Lemma o_run_phase ops : forall s,
  o_inv s ->
  phase_run (phase_of s) (o_next s) ops =
  (fst (o_run s ops), phase_of (snd (o_run s ops)), o_next (snd (o_run s ops))).
Proof.
  induction ops as [|o ops IH]; intros s H; [reflexivity|].
  cbn [phase_run o_run]. rewrite o_step_phase by exact H.
  pose proof (o_step_inv s o H) as H1.
  destruct (o_step s o) as [r s1]. cbn [fst snd] in *.
  rewrite IH by exact H1. destruct (o_run s1 ops). reflexivity.
Qed.

(** A failing call does not touch any handle unless reading itself failed. *)
Lemma o_step_error_handles s o e s' :
  o_step s o = (Err e, s') ->
  o_closed s' = o_closed s /\ o_held s' = o_held s /\
  (o_live s' = o_live s \/
   (o_held s = None /\ (exists p, o = OOpen p (ReadFails e)) /\ o_live s' = o_next s :: o_live s)).
Proof.
  destruct o as [p w|]; cbn [o_step]; destruct (o_held s) as [h|] eqn:Eh.
  - injection 1 as <- <-. auto.
  - destruct w; intros H; inversion H; subst; cbn; rewrite ?Eh; auto 10.
    repeat split. right. repeat split. eexists; reflexivity.
  - destruct (o_owned s); discriminate.
  - injection 1 as <- <-; auto.
Qed.

Lemma o_step_close s s' h :
  o_inv s -> o_held s = Some h -> o_step s OClose = (Ok tt, s') ->
  o_closed s' = h :: o_closed s /\ o_held s' = None /\ ~ In h (o_live s') /\
  (forall x, x <> h -> In x (o_live s) <-> In x (o_live s')).
Proof.
  intros (_ & _ & _ & _ & _ & H6) Hh. cbn [o_step]. rewrite Hh in *.
  destruct H6 as [-> _]. injection 1 as <-. cbn. repeat split; auto.
  - intros Hin. apply filter_In in Hin. destruct Hin as [_ Hin].
    rewrite Nat.eqb_refl in Hin; discriminate.
  - intros Hx. apply filter_In; split; [exact Hx|].
    destruct (Nat.eqb_spec x h); [contradiction|reflexivity].
  - intros Hx. apply filter_In in Hx. tauto.
Qed.

Lemma o_step_open s s' path w :
  o_step s (OOpen path w) = (Ok tt, s') ->
  o_held s = None /\ w = ReadOk /\ o_held s' = Some (o_next s) /\
  o_live s' = o_next s :: o_live s /\ o_closed s' = o_closed s.
Proof.
  cbn [o_step]. destruct (o_held s); [discriminate|].
  destruct w; try discriminate. injection 1 as <-. auto.
Qed.

Lemma failed_reads_handle ops : forall h h', failed_reads (POpen h) ops = failed_reads (POpen h') ops.
Proof.
  induction ops as [|o ops IH]; intros h h'; [reflexivity|].
  cbn [failed_reads]. destruct o as [? []|]; auto.
Qed.

Lemma filter_remove_length (h : nat) l :
  NoDup l -> In h l -> S (length (filter (fun x => negb (Nat.eqb x h)) l)) = length l.
Proof.
  induction 1 as [|x l Hn Hd IH]; [contradiction|].
  intros [->|Hin].
  - cbn. rewrite Nat.eqb_refl. cbn. f_equal.
    clear - Hn. induction l as [|y l IH]; [reflexivity|].
    cbn. destruct (Nat.eqb_spec y h); [subst; exfalso; apply Hn; now left|].
    cbn. f_equal. apply IH. intros H; apply Hn; now right.
  - cbn. destruct (Nat.eqb_spec x h); [subst; contradiction|].
    cbn. rewrite <- IH by exact Hin. reflexivity.
Qed.

Lemma o_run_leaks ops : forall s,
  o_inv s ->
  (length (o_live (snd (o_run s ops))) + held_count s =
   length (o_live s) + held_count (snd (o_run s ops)) + failed_reads (phase_of s) ops)%nat.
Proof.
  induction ops as [|o ops IH]; intros s H; [cbn; lia|].
  cbn [o_run]. pose proof (o_step_inv s o H) as H1.
  assert (Hs : (length (o_live (snd (o_step s o))) + held_count s + failed_reads (phase_of (snd (o_step s o))) ops =
    length (o_live s) + held_count (snd (o_step s o)) + failed_reads (phase_of s) (o :: ops))%nat).
  { destruct H as (Hn & _ & _ & _ & _ & H6). unfold held_count, phase_of.
    destruct o as [p w|]; cbn [o_step]; destruct (o_held s) as [h|] eqn:Eh.
    - cbn [snd]. rewrite Eh. cbn [failed_reads]. destruct w; lia.
    - destruct w; cbn; rewrite ?Eh; cbn; try lia.
      rewrite (failed_reads_handle ops (o_next s) 0%nat). lia.
    - destruct H6 as [-> Hin]. cbn. pose proof (filter_remove_length h _ Hn Hin). lia.
    - cbn [snd]. rewrite Eh. cbn [failed_reads]. lia. }
  destruct (o_step s o) as [r s1]. cbn [snd] in *.
  specialize (IH s1 H1). destruct (o_run s1 ops) as [rs s2]. cbn [snd] in *. lia.
Qed.

(** Reading a structure from bytes that are known. *)
Lemma read_struct_map pre ks d post vs off :
  off = len pre -> length d = struct_size ks -> map_struct ks d = Some vs ->
  read_struct (pre ++ d ++ post) ks off = Ok vs.
Proof.
  intros -> Hl Hm. unfold read_struct. rewrite (read_at_app pre d post) by (unfold len; lia).
  cbn [bind]. unfold len. rewrite Hl, Z.eqb_refl. cbn [negb]. rewrite Hm. reflexivity.
Qed.

(** A fixed-size structure is read exactly when it lies inside the file. *)
Lemma read_struct_inside content ks off vs :
  read_struct content ks off = Ok vs -> (0 < struct_size ks)%nat ->
  0 <= off /\ off + Z.of_nat (struct_size ks) <= len content.
Proof.
  intros E Hs. apply read_struct_ok in E. destruct E as (H1 & _ & H3).
  rewrite len_zfirstn, len_zskipn in H3. lia.
Qed.

Lemma read_struct_exists content ks off :
  0 <= off -> off + Z.of_nat (struct_size ks) <= len content ->
  exists vs, read_struct content ks off = Ok vs.
Proof.
  intros H1 H2. unfold read_struct, read_at. destruct (Z.ltb_spec off 0); [lia|]. cbn [bind].
  destruct (Z.ltb_spec (Z.of_nat (struct_size ks)) 0); [lia|].
  assert (L : len (zfirstn (Z.of_nat (struct_size ks)) (zskipn off content)) = Z.of_nat (struct_size ks)).
  { rewrite len_zfirstn, len_zskipn. lia. }
  rewrite L, Z.eqb_refl. cbn [negb].
  destruct (map_struct_some ks (zfirstn (Z.of_nat (struct_size ks)) (zskipn off content))) as [vs E].
  - unfold len in L. lia.
  - rewrite E. eauto.
Qed.

(** Values read from bytes are in the range of their fields, and encode the bytes. *)
Definition fkind_wf (k : fkind) : Prop := match k with FS _ n => (0 < n)%nat | _ => True end.

Lemma is_bytes_firstn n l : is_bytes l -> is_bytes (firstn n l).
Proof. intros H. rewrite <- (firstn_skipn n l) in H. apply is_bytes_app in H. tauto. Qed.

Lemma is_bytes_skipn n l : is_bytes l -> is_bytes (skipn n l).
Proof. intros H. rewrite <- (firstn_skipn n l) in H. apply is_bytes_app in H. tauto. Qed.

Lemma to_signed_bounds n v : (0 < n)%nat -> 0 <= v < 256 ^ Z.of_nat n ->
  - 2 ^ (8 * Z.of_nat n - 1) <= to_signed n v < 2 ^ (8 * Z.of_nat n - 1) /\
  to_signed n v mod 256 ^ Z.of_nat n = v.
Proof.
  intros Hn H. rewrite pow256_pow2 in *. unfold to_signed.
  assert (E : 2 ^ (8 * Z.of_nat n) = 2 * 2 ^ (8 * Z.of_nat n - 1)).
  { replace (8 * Z.of_nat n) with (1 + (8 * Z.of_nat n - 1)) at 1 by lia. rewrite Z.pow_add_r by lia. lia. }
  destruct (Z.ltb_spec v (2 ^ (8 * Z.of_nat n - 1))).
  - split; [lia|]. apply Z.mod_small; lia.
  - split; [lia|]. replace (v - 2 ^ (8 * Z.of_nat n)) with (v + (-1) * 2 ^ (8 * Z.of_nat n)) by lia.
    rewrite Z.mod_add by lia. apply Z.mod_small; lia.
Qed.

Lemma map_field_ok k d : is_bytes d -> length d = fsize k -> fkind_wf k ->
  fval_ok k (map_field k d) /\ enc_field k (map_field k d) = d.
Proof.
  intros Hb Hl Hw. destruct k as [e n|e n|n]; cbn [fsize map_field fval_ok enc_field fkind_wf] in *.
  - destruct e; cbn [endian_int enc_int].
    + split; [pose proof (le_int_bounds d Hb) as B; unfold len in B; rewrite Hl in B; exact B|].
      rewrite <- Hl. apply le_enc_int; exact Hb.
    + split; [pose proof (be_int_bounds d Hb) as B; unfold len in B; rewrite Hl in B; exact B|].
      rewrite <- Hl. apply be_enc_int; exact Hb.
  - destruct e; cbn [endian_int enc_int].
    + pose proof (le_int_bounds d Hb) as B; unfold len in B; rewrite Hl in B.
      destruct (to_signed_bounds n _ Hw B) as [B1 B2]. split; [auto|]. rewrite B2. rewrite <- Hl. apply le_enc_int; exact Hb.
    + pose proof (be_int_bounds d Hb) as B; unfold len in B; rewrite Hl in B.
      destruct (to_signed_bounds n _ Hw B) as [B1 B2]. split; [auto|]. rewrite B2. rewrite <- Hl. apply be_enc_int; exact Hb.
  - auto.
Qed.

Lemma map_struct_vals ks : forall d vs, is_bytes d -> Forall fkind_wf ks -> map_struct ks d = Some vs ->
  Forall2 fval_ok ks vs /\ enc_struct ks vs = firstn (struct_size ks) d.
Proof.
  induction ks as [|k ks IH]; intros d vs Hb Hw; cbn [map_struct].
  - injection 1 as <-. split; constructor.
  - destruct (Nat.ltb_spec (length d) (fsize k)); [discriminate|].
    destruct (map_struct ks (skipn (fsize k) d)) as [vs'|] eqn:E; [|discriminate].
    intros E2. assert (vs = map_field k (firstn (fsize k) d) :: vs') by congruence. subst vs. clear E2.
    apply IH in E; [|apply is_bytes_skipn, Hb|apply Forall_inv_tail in Hw; exact Hw].
    destruct E as [E1 E2].
    destruct (map_field_ok k (firstn (fsize k) d)) as [F1 F2].
    + apply is_bytes_firstn, Hb.
    + rewrite firstn_length. lia.
    + apply Forall_inv in Hw. exact Hw.
    + split; [constructor; assumption|]. cbn [enc_struct]. rewrite F2, E2.
      change (struct_size (k :: ks)) with (fsize k + struct_size ks)%nat.
      rewrite <- (firstn_skipn (fsize k) d) at 3. rewrite firstn_app, firstn_firstn, firstn_length.
      rewrite !Nat.min_r by lia. f_equal. f_equal. lia.
Qed.

Lemma read_struct_vals content ks off vs :
  is_bytes content -> Forall fkind_wf ks -> read_struct content ks off = Ok vs ->
  Forall2 fval_ok ks vs /\ 0 <= off /\
  zfirstn (Z.of_nat (struct_size ks)) (zskipn off content) = enc_struct ks vs.
Proof.
  intros Hb Hw E. apply read_struct_ok in E. destruct E as (H0 & Em & El).
  apply map_struct_vals in Em; [|apply is_bytes_zfirstn, is_bytes_zskipn, Hb|exact Hw].
  destruct Em as [F E]. split; [exact F|]. split; [exact H0|]. rewrite E.
  rewrite firstn_all2; [reflexivity|]. unfold len in El. lia.
Qed.

Lemma Forall2_cons_iff {A B} (R : A -> B -> Prop) x y l m :
  Forall2 R (x :: l) (y :: m) <-> R x y /\ Forall2 R l m.
Proof. split; [intros H; inversion H; auto|intros [? ?]; constructor; auto]. Qed.

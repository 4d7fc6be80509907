From Verif Require Import Base BaseFacts CoreModel CoreProofs BitFacts VarModel VarFacts
  StrModel StrFacts LdbModel LdbSpec LdbProofs.

(** ** Fragments *)

Lemma le_enc_mod n v : le_enc n (v mod 256 ^ Z.of_nat n) = le_enc n v.
Proof.
  rewrite <- le_int_enc_mod. rewrite <- (le_enc_length n v) at 1.
  apply le_enc_int, le_enc_bytes.
Qed.

Lemma read_log_block_frag crc t d pre rest :
  0 <= t < 256 -> len d < 65536 ->
  read_log_block (pre ++ frag crc t d ++ rest) (len pre) = Ok (t, d, 7 + len d).
Proof.
  intros Ht Hd. unfold read_log_block, frag. pose proof (len_nonneg d).
  set (vs := [VI (crc t d mod 4294967296); VI (len d); VI t]).
  assert (E : (le_enc 4 (crc t d) ++ le_enc 2 (len d) ++ [t] ++ d) ++ rest =
              enc_struct log_block_header vs ++ d ++ rest).
  { cbn [enc_struct enc_field log_block_header enc_int vs].
    change 4294967296 with (256 ^ Z.of_nat 4). rewrite le_enc_mod.
    cbn [le_enc]. rewrite (Z.mod_small t) by lia. rewrite app_nil_r, <- !app_assoc. reflexivity. }
  rewrite E. rewrite read_var_enc.
  - reflexivity.
  - unfold vs, log_block_header. fvals; try lia; apply Z.mod_pos_bound; lia.
  - reflexivity.
  - reflexivity.
Qed.

(** Reader state behind a writer state: a rest of at most 6 bytes is skipped at once. *)
Definition r_off (off room : Z) : Z := if room <=? 6 then off + room else off.
Definition r_page (room : Z) : Z := if room <=? 6 then 32768 else room.

Definition last_frag (t : Z) : bool := (t =? 1) || (t =? 4).

Lemma len_frag crc t d : len (frag crc t d) = 7 + len d.
Proof. unfold frag. rewrite !len_app, !len_le_enc, len_cons, len_nil. lia. Qed.

(** One fragment that is read at the reader position. *)
Lemma log_read_frag {R} (rr : Z -> bytes -> run R) k pre crc (first last : bool) d rest room recd recoff acc :
  0 <= room - 7 - len d -> room <= 32768 -> (first = true \/ first = false) ->
  let t := frag_type first last in
  let content := pre ++ frag crc t d ++ rest in
  let rec' := if first then d else recd ++ d in
  let off' := if first then len pre else recoff in
  let pos := len pre + (7 + len d) in
  log_read (S k) rr content (len pre) room recd recoff acc =
  if last then
    match rr off' rec' with
    | OutOfFuel => OutOfFuel
    | Done (Err e) => Done (Err e)
    | Done (Ok r) => log_read k rr content (r_off pos (room - 7 - len d)) (r_page (room - 7 - len d))
                       rec' off' (acc ++ [r])
    end
  else log_read k rr content (r_off pos (room - 7 - len d)) (r_page (room - 7 - len d)) rec' off' acc.
Proof.
  intros Hr Hm _ t content rec' off' pos. cbn [log_read].
  assert (Hlen : len content = len pre + (7 + len d) + len rest).
  { unfold content. rewrite !len_app, len_frag. lia. }
  pose proof (len_nonneg pre). pose proof (len_nonneg d). pose proof (len_nonneg rest).
  destruct (Z.ltb_spec (len pre) (len content)); [|lia].
  assert (Ht : 0 <= t < 256) by (unfold t; destruct first, last; cbn; lia).
  unfold content at 1. rewrite read_log_block_frag by lia.
  replace (room - (7 + len d)) with (room - 7 - len d) by lia.
  unfold r_off, r_page. fold pos.
  clearbody content pos.
  unfold t, rec', off'; destruct first, last; cbn [frag_type Z.eqb Pos.eqb orb].
  - destruct (rr (len pre) d) as [[r|e]|]; try reflexivity.
    destruct (room - 7 - len d <=? 6); reflexivity.
  - destruct (room - 7 - len d <=? 6); reflexivity.
  - destruct (rr recoff (recd ++ d)) as [[r|e]|]; try reflexivity.
    destruct (room - 7 - len d <=? 6); reflexivity.
  - destruct (room - 7 - len d <=? 6); reflexivity.
Qed.

Lemma len_repeat_z (n : Z) : 0 <= n -> len (repeat 0 (Z.to_nat n)) = n.
Proof. intros H. rewrite len_repeat. lia. Qed.

(** One record: [j] iterations of the reader. *)
Lemma add_record_read {R} (rr : Z -> bytes -> run R) crc : forall fuel d room first pre rest recd recoff b room',
  add_record fuel crc room first d = (b, room') ->
  (length d < fuel)%nat \/ (room < 7 /\ (length d <= fuel)%nat /\ (0 < fuel)%nat) ->
  0 <= room <= 32768 ->
  let content := pre ++ b ++ rest in
  let rec' := if first then d else recd ++ d in
  let off' := if first then record_start (len pre) room else recoff in
  0 <= room' <= 32768 /\
  exists j, (0 < j <= length b)%nat /\ forall k acc,
  log_read (j + k) rr content (r_off (len pre) room) (r_page room) recd recoff acc =
  match rr off' rec' with
  | OutOfFuel => OutOfFuel
  | Done (Err e) => Done (Err e)
  | Done (Ok r) => log_read k rr content (r_off (len (pre ++ b)) room') (r_page room')
                     rec' off' (acc ++ [r])
  end.
Proof.
  induction fuel as [|fuel IH]; intros d room first pre rest recd recoff b room' E Hf Hroom content rec' off'.
  { exfalso. lia. }
  cbn [add_record] in E.
  pose proof (len_nonneg d) as Hd. pose proof (len_nonneg pre) as Hpre.
  (* the padding and the room in the page that is used *)
  set (pad := if room <? 7 then repeat 0 (Z.to_nat room) else []).
  set (rm := if room <? 7 then 32768 else room).
  assert (Ep : (if room <? 7 then (repeat 0 (Z.to_nat room), 32768) else ([], room)) = (pad, rm))
    by (unfold pad, rm; destruct (room <? 7); reflexivity).
  rewrite Ep in E.
  assert (Hpos : r_off (len pre) room = len (pre ++ pad) /\ r_page room = rm /\
                 record_start (len pre) room = len (pre ++ pad)).
  { unfold r_off, r_page, record_start, pad, rm. rewrite len_app.
    destruct (Z.ltb_spec room 7); destruct (Z.leb_spec room 6); try lia.
    - rewrite len_repeat_z by lia. auto.
    - rewrite len_nil. rewrite Z.add_0_r. auto. }
  destruct Hpos as (Po & Pp & Ps).
  assert (Hrm : 7 <= rm <= 32768) by (unfold rm; destruct (Z.ltb_spec room 7); lia).
  set (n := Z.min (rm - 7) (len d)) in *.
  assert (Hn : 0 <= n <= len d) by (unfold n; lia).
  set (last := len d <=? rm - 7) in *.
  set (d1 := zfirstn n d) in *.
  assert (Ld1 : len d1 = n) by (unfold d1; rewrite len_zfirstn; lia).
  set (t := frag_type first last) in *.
  rewrite Po, Pp.
  destruct last eqn:El.
  - (* last fragment *)
    assert (Hlast : len d <= rm - 7) by (unfold last in El; apply Z.leb_le in El; exact El).
    assert (Hd1 : d1 = d) by (unfold d1; apply zfirstn_all; unfold n; lia).
    injection E as <- <-. split; [lia|].
    exists 1%nat. split; [rewrite app_length; pose proof (len_frag crc t d1) as L; unfold len in L; lia|].
    intros k acc. unfold content. cbn [Nat.add].
    replace (pre ++ (pad ++ frag crc t d1) ++ rest) with ((pre ++ pad) ++ frag crc t d1 ++ rest)
      by (rewrite <- !app_assoc; reflexivity).
    unfold t. rewrite (log_read_frag rr k (pre ++ pad) crc first true d1 rest rm) by (try lia; destruct first; auto).
    rewrite Ld1. replace (len ((pre ++ pad)) + (7 + n)) with (len (pre ++ pad ++ frag crc t d1))
      by (rewrite !len_app, len_frag, Ld1; lia).
    unfold off', rec'. rewrite Ps, Hd1. unfold t. destruct first; reflexivity.
  - (* more fragments *)
    assert (Hmore : rm - 7 < len d) by (unfold last in El; apply Z.leb_gt in El; exact El).
    destruct (add_record fuel crc (rm - 7 - n) false (zskipn n d)) as [r room2] eqn:E2.
    injection E as <- <-.
    assert (Hn2 : n = rm - 7) by (unfold n; lia).
    assert (Lsk : len (zskipn n d) = len d - n) by (rewrite len_zskipn; lia).
    specialize (IH (zskipn n d) (rm - 7 - n) false (pre ++ pad ++ frag crc t d1) rest
                  (if first then d1 else recd ++ d1)
                  (if first then len (pre ++ pad) else recoff) r room2 E2).
    destruct IH as (Hroom2 & j & Hj & IH).
    + unfold len in *. destruct Hf as [Hf|Hf].
      * right. lia.
      * left. assert (rm = 32768) by (unfold rm; destruct (Z.ltb_spec room 7); lia). lia.
    + lia.
    + split; [exact Hroom2|].
      exists (S j). split.
      { rewrite !app_length. pose proof (len_frag crc t d1) as L. unfold len in L. lia. }
      intros k acc. unfold content.
      replace (pre ++ ((pad ++ frag crc t d1) ++ r) ++ rest) with ((pre ++ pad) ++ frag crc t d1 ++ (r ++ rest))
        by (rewrite <- !app_assoc; reflexivity).
      cbn [Nat.add]. unfold t.
      rewrite (log_read_frag rr (j + k) (pre ++ pad) crc first false d1 (r ++ rest) rm) by (try lia; destruct first; auto).
      fold t. rewrite Ld1.
      replace (len (pre ++ pad) + (7 + n)) with (len (pre ++ pad ++ frag crc t d1))
        by (rewrite !len_app, len_frag, Ld1; lia).
      replace ((pre ++ pad) ++ frag crc t d1 ++ r ++ rest) with ((pre ++ pad ++ frag crc t d1) ++ r ++ rest)
        by (rewrite <- !app_assoc; reflexivity).
      rewrite IH.
      assert (Erec : (if first then d1 else recd ++ d1) ++ zskipn n d = rec').
      { unfold rec'. assert (Ed : d1 ++ zskipn n d = d) by apply zfirstn_zskipn.
        destruct first; [exact Ed|]. rewrite <- app_assoc, Ed. reflexivity. }
      assert (Eoff : (if first then len (pre ++ pad) else recoff) = off').
      { unfold off'. rewrite Ps. reflexivity. }
      rewrite Erec, Eoff.
      replace (pre ++ (pad ++ frag crc t d1) ++ r) with ((pre ++ pad ++ frag crc t d1) ++ r)
        by (rewrite <- !app_assoc; reflexivity).
      reflexivity.
Qed.

Lemma add_records_read {R} (rr : Z -> bytes -> run R) crc : forall l room pre b ps rs recd recoff acc fuel,
  add_records crc (len pre) room l = (b, ps) -> 0 <= room <= 32768 ->
  Forall2 (fun p r => rr (fst p) (snd p) = Done (Ok r)) ps rs ->
  (length b <= fuel)%nat ->
  log_read fuel rr (pre ++ b) (r_off (len pre) room) (r_page room) recd recoff acc =
  Done (Ok (acc ++ rs)).
Proof.
  induction l as [|d l IH]; intros room pre b ps rs recd recoff acc fuel E Hroom HF Hf.
  - cbn [add_records] in E. injection E as <- <-.
    destruct rs; [|inversion HF]. rewrite !app_nil_r.
    assert (r_off (len pre) room >= len pre) by (unfold r_off; destruct (room <=? 6); lia).
    destruct fuel; cbn [log_read]; destruct (Z.ltb_spec (r_off (len pre) room) (len pre)); try lia; reflexivity.
  - cbn [add_records] in E.
    destruct (add_record (S (length d)) crc room true d) as [b1 room1] eqn:E1.
    destruct (add_records crc (len pre + len b1) room1 l) as [b2 ps2] eqn:E2.
    assert (Eb : b = b1 ++ b2) by congruence.
    assert (Eps : ps = (record_start (len pre) room, d) :: ps2) by congruence. clear E. subst b ps.
    destruct rs as [|r rs]; [inversion HF|]. apply Forall2_cons_iff in HF. destruct HF as [Hr HF].
    cbn [fst snd] in Hr.
    destruct (add_record_read rr crc (S (length d)) d room true pre b2 recd recoff b1 room1 E1
                ltac:(left; lia) Hroom) as (Hroom1 & j & Hj & HR).
    rewrite app_length in Hf.
    replace fuel with (j + (fuel - j))%nat by lia.
    rewrite HR. cbn iota. rewrite Hr.
    rewrite app_assoc. erewrite IH; [|rewrite len_app; exact E2|lia|exact HF|lia].
    rewrite <- app_assoc. reflexivity.
Qed.

Lemma read_log_file {R} (rr : Z -> bytes -> run R) crc l rs fuel :
  Forall2 (fun p r => rr (fst p) (snd p) = Done (Ok r)) (log_positions crc l) rs ->
  (length (log_file crc l) <= fuel)%nat ->
  read_log fuel rr (log_file crc l) = Done (Ok rs).
Proof.
  unfold log_positions, log_file. intros HF Hf.
  destruct (add_records crc 0 32768 l) as [b ps] eqn:E. cbn [fst snd] in *.
  unfold read_log.
  exact (add_records_read rr crc l 32768 [] b ps rs [] 0 [] fuel E ltac:(lia) HF Hf).
Qed.

(** The positions: the records themselves, in order, at increasing offsets inside the file,
    each with its first fragment there. *)
Lemma add_records_records crc : forall l off room,
  map snd (snd (add_records crc off room l)) = l.
Proof.
  induction l as [|d l IH]; intros off room; cbn [add_records]; [reflexivity|].
  destruct (add_record (S (length d)) crc room true d) as [b1 room1].
  specialize (IH (off + len b1) room1).
  destruct (add_records crc (off + len b1) room1 l) as [b2 ps2]. cbn [snd map] in *. rewrite IH. reflexivity.
Qed.

(** The block at a position is the first fragment of the record (type 1 or 2). *)
Lemma add_records_first_fragment crc : forall l room pre,
  0 <= room <= 32768 ->
  Forall (fun p => exists t d1, (t = 1 \/ t = 2) /\
            (exists d2, snd p = d1 ++ d2) /\
            read_log_block (pre ++ fst (add_records crc (len pre) room l)) (fst p) = Ok (t, d1, 7 + len d1))
    (snd (add_records crc (len pre) room l)).
Proof.
  induction l as [|d l IH]; intros room pre Hroom; cbn [add_records]; [constructor|].
  destruct (add_record (S (length d)) crc room true d) as [b1 room1] eqn:E1.
  assert (Hroom1 : 0 <= room1 <= 32768).
  { destruct (add_record_read (fun _ _ => Done (Ok tt)) crc (S (length d)) d room true [] [] [] 0 b1 room1 E1
                ltac:(left; lia) Hroom) as (H & _). exact H. }
  specialize (IH room1 (pre ++ b1) Hroom1). rewrite len_app in IH.
  destruct (add_records crc (len pre + len b1) room1 l) as [b2 ps2]. cbn [fst snd] in *.
  rewrite <- app_assoc in IH. constructor; [|exact IH]. clear IH.
  cbn [add_record] in E1. cbn [fst snd].
  set (pad := if room <? 7 then repeat 0 (Z.to_nat room) else []).
  set (rm := if room <? 7 then 32768 else room).
  assert (Ep : (if room <? 7 then (repeat 0 (Z.to_nat room), 32768) else ([], room)) = (pad, rm))
    by (unfold pad, rm; destruct (room <? 7); reflexivity).
  rewrite Ep in E1.
  assert (Ps : record_start (len pre) room = len (pre ++ pad)).
  { unfold record_start, pad. rewrite len_app. destruct (Z.ltb_spec room 7).
    - rewrite len_repeat_z by lia. reflexivity.
    - rewrite len_nil. lia. }
  assert (Hrm : 7 <= rm <= 32768) by (unfold rm; destruct (Z.ltb_spec room 7); lia).
  set (n := Z.min (rm - 7) (len d)) in *. set (last := len d <=? rm - 7) in *.
  pose proof (len_nonneg d) as Hd.
  exists (frag_type true last), (zfirstn n d).
  split; [unfold frag_type; destruct last; auto|]. split; [exists (zskipn n d); symmetry; apply zfirstn_zskipn|].
  rewrite Ps.
  assert (Eb : exists b3, b1 = pad ++ frag crc (frag_type true last) (zfirstn n d) ++ b3).
  { destruct last.
    - injection E1 as <- _. exists []. rewrite app_nil_r. reflexivity.
    - destruct (add_record (length d) crc (rm - 7 - n) false (zskipn n d)) as [r room2].
      injection E1 as <- _. exists r. rewrite <- app_assoc. reflexivity. }
  destruct Eb as [b3 ->].
  replace (pre ++ (pad ++ frag crc (frag_type true last) (zfirstn n d) ++ b3) ++ b2)
    with ((pre ++ pad) ++ frag crc (frag_type true last) (zfirstn n d) ++ (b3 ++ b2))
    by (rewrite <- !app_assoc; reflexivity).
  apply read_log_block_frag.
  - unfold frag_type. destruct last; lia.
  - rewrite len_zfirstn. lia.
Qed.

(** ** Termination *)

Lemma read_log_block_progress content off t d n :
  is_bytes content -> read_log_block content off = Ok (t, d, n) -> 7 <= n /\ 0 <= off /\ off + n <= len content.
Proof.
  intros Hb. unfold read_log_block.
  destruct (read_var content log_block_header log_block_ext off) as [[[vs d'] n']|] eqn:E; cbn [bind]; [|discriminate].
  apply read_var_inside in E; [|cbn; lia]. change (Z.of_nat (struct_size log_block_header)) with 7 in E.
  destruct vs as [|? [|? [|[?|?] [|? ?]]]]; try discriminate. intros H. assert (n = n') by congruence. lia.
Qed.

Lemma log_read_terminates {R} (rr : Z -> bytes -> run R) content :
  is_bytes content -> (forall o d, rr o d <> OutOfFuel) ->
  forall fuel off page recd recoff acc,
  6 < page -> (Z.to_nat (len content - off) <= fuel)%nat ->
  log_read fuel rr content off page recd recoff acc <> OutOfFuel.
Proof.
  intros Hb Hrr. induction fuel as [|k IH]; intros off page recd recoff acc Hp Hf; cbn [log_read];
    destruct (Z.ltb_spec off (len content)); try discriminate; [lia|].
  destruct (read_log_block content off) as [[[t d] n]|] eqn:E; [|discriminate].
  apply read_log_block_progress in E; [|exact Hb].
  destruct (if (t =? 1) || (t =? 2) then _ else _) as [rd ro].
  assert (Hnext : forall acc', (if page - n <=? 6
     then log_read k rr content (off + n + (page - n)) page_bytes rd ro acc'
     else log_read k rr content (off + n) (page - n) rd ro acc') <> OutOfFuel).
  { intros acc'. destruct (Z.leb_spec (page - n) 6).
    - apply IH; [unfold page_bytes; lia|lia].
    - apply IH; lia. }
  destruct ((t =? 1) || (t =? 4)).
  - specialize (Hrr ro rd). destruct (rr ro rd) as [[r|]|]; [apply Hnext|discriminate|congruence].
  - apply Hnext.
Qed.

(** ** Descriptors *)

Lemma read_varint_from pre v bs rest off :
  vint v bs -> off = len pre -> read_varint (pyslice_from (pre ++ bs ++ rest) off) = Ok (v, len bs).
Proof. intros Hv ->. rewrite pyslice_from_app by reflexivity. apply read_varint_vint; exact Hv. Qed.

(** Bytes of a list of values. *)
Inductive dvalues_bytes (utf8 : bytes -> result str) : list dkind -> list dvalue -> bytes -> Prop :=
| dv_nil : dvalues_bytes utf8 [] [] []
| dv_int n b ks vs bs : vint n b -> dvalues_bytes utf8 ks vs bs ->
    dvalues_bytes utf8 (KInt :: ks) (DI n :: vs) (b ++ bs)
| dv_slice d b ks vs bs : vslice d b -> dvalues_bytes utf8 ks vs bs ->
    dvalues_bytes utf8 (KSlice :: ks) (DB d :: vs) (b ++ bs)
| dv_str s d b ks vs bs : utf8 d = Ok s -> vslice d b -> dvalues_bytes utf8 ks vs bs ->
    dvalues_bytes utf8 (KString :: ks) (DS s :: vs) (b ++ bs).

Lemma read_dvalues_ok utf8 ks vs bs : dvalues_bytes utf8 ks vs bs -> forall pre rest,
  read_dvalues utf8 ks (pre ++ bs ++ rest) (len pre) = Ok (vs, len (pre ++ bs)).
Proof.
  induction 1 as [|n b ks vs bs Hn H IH|d b ks vs bs Hd H IH|s d b ks vs bs Hs Hd H IH]; intros pre rest;
    cbn [read_dvalues].
  - rewrite app_nil_r. reflexivity.
  - rewrite <- app_assoc. rewrite pyslice_from_app by reflexivity. cbn [read_dvalue].
    rewrite (read_varint_vint _ _ _ Hn). cbn [bind].
    rewrite (app_assoc pre). replace (len pre + len b) with (len (pre ++ b)) by (rewrite len_app; reflexivity).
    rewrite IH. cbn [bind]. rewrite <- app_assoc. reflexivity.
  - rewrite <- app_assoc. rewrite pyslice_from_app by reflexivity. cbn [read_dvalue].
    rewrite (read_slice_vslice _ _ _ Hd). cbn [bind].
    rewrite (app_assoc pre). replace (len pre + len b) with (len (pre ++ b)) by (rewrite len_app; reflexivity).
    rewrite IH. cbn [bind]. rewrite <- app_assoc. reflexivity.
  - rewrite <- app_assoc. rewrite pyslice_from_app by reflexivity. cbn [read_dvalue].
    destruct Hd as (nb & Hnb & ->). rewrite <- app_assoc. rewrite (read_varint_vint _ _ _ Hnb). cbn [bind].
    rewrite pyslice_app_mid by lia. rewrite Hs. cbn [bind].
    replace (pre ++ nb ++ d ++ bs ++ rest) with ((pre ++ nb ++ d) ++ bs ++ rest) by (rewrite <- !app_assoc; reflexivity).
    replace (len pre + (len nb + len d)) with (len (pre ++ nb ++ d)) by (rewrite !len_app; reflexivity).
    rewrite IH. cbn [bind]. rewrite <- !app_assoc. reflexivity.
Qed.

Lemma edit_values utf8 e b : edit_bytes utf8 e b ->
  exists t bs ks, b = t ++ bs /\ vint (fst (edit_report e)) t /\
    tag_values (fst (edit_report e)) = Some ks /\ dvalues_bytes utf8 ks (snd (edit_report e)) bs.
Proof.
  destruct 1; cbn [edit_report fst snd]; do 3 eexists; (split; [reflexivity|]);
    (split; [eassumption|]); (split; [reflexivity|]).
  - rewrite <- (app_nil_r b). eapply dv_str; eauto; constructor.
  - rewrite <- (app_nil_r b). apply dv_int; auto; constructor.
  - rewrite <- (app_nil_r b). apply dv_int; auto; constructor.
  - rewrite <- (app_nil_r b). apply dv_int; auto; constructor.
  - apply dv_int; auto. rewrite <- (app_nil_r c). apply dv_slice; auto; constructor.
  - apply dv_int; auto. rewrite <- (app_nil_r c). apply dv_int; auto; constructor.
  - do 3 (apply dv_int; auto). apply dv_slice; auto. rewrite <- (app_nil_r f). apply dv_slice; auto; constructor.
  - rewrite <- (app_nil_r b). apply dv_int; auto; constructor.
Qed.

Lemma read_edits_ok utf8 es bs : edits_bytes utf8 es bs -> forall pre acc fuel,
  (length es <= fuel)%nat ->
  read_edits fuel utf8 (pre ++ bs) (len pre) acc = Done (Ok (acc ++ map edit_report es)).
Proof.
  induction 1 as [|e l b bs He Hl IH]; intros pre acc fuel Hf.
  - cbn [map]. rewrite !app_nil_r. destruct fuel; cbn [read_edits]; rewrite Z.ltb_irrefl; reflexivity.
  - cbn [length] in Hf. destruct fuel as [|k]; [lia|]. cbn [read_edits].
    apply edit_values in He. destruct He as (t & vb & ks & -> & Ht & Ek & Hv).
    pose proof (vint_len _ _ Ht). pose proof (len_nonneg vb). pose proof (len_nonneg bs).
    destruct (Z.ltb_spec (len pre) (len (pre ++ (t ++ vb) ++ bs))) as [_|Hx]; [|rewrite !len_app in Hx; lia].
    rewrite <- app_assoc.
    rewrite (read_varint_from pre _ t (vb ++ bs) _ Ht eq_refl). rewrite Ek.
    rewrite (app_assoc pre t). replace (len pre + len t) with (len (pre ++ t)) by (rewrite len_app; reflexivity).
    rewrite (read_dvalues_ok _ _ _ _ Hv). rewrite (app_assoc (pre ++ t)).
    rewrite IH by lia. cbn [map]. rewrite <- (app_assoc acc). cbn [app].
    rewrite <- surjective_pairing. reflexivity.
Qed.

Lemma edits_bytes_length utf8 es bs : edits_bytes utf8 es bs -> (length es <= length bs)%nat.
Proof.
  induction 1 as [|e l b bs He Hl IH]; [cbn; lia|]. cbn [length]. rewrite app_length.
  apply edit_values in He. destruct He as (t & vb & ks & -> & Ht & _ & _). rewrite app_length.
  apply vint_len in Ht. unfold len in Ht. lia.
Qed.

(** An unknown tag behind well-formed edits. *)
Lemma read_edits_bad_tag utf8 es bs : edits_bytes utf8 es bs -> forall tag t rest pre acc fuel,
  vint tag t -> tag_values tag = None -> (length es < fuel)%nat ->
  read_edits fuel utf8 (pre ++ bs ++ t ++ rest) (len pre) acc = Done (Err ParseError).
Proof.
  induction 1 as [|e l b bs He Hl IH]; intros tag t rest pre acc fuel Ht Hno Hf.
  - destruct fuel as [|k]; [lia|]. cbn [read_edits app].
    pose proof (vint_len _ _ Ht). pose proof (len_nonneg rest).
    destruct (Z.ltb_spec (len pre) (len (pre ++ t ++ rest))) as [_|Hx]; [|rewrite !len_app in Hx; lia].
    rewrite (read_varint_from pre _ t rest _ Ht eq_refl). rewrite Hno. reflexivity.
  - cbn [length] in Hf. destruct fuel as [|k]; [lia|]. cbn [read_edits].
    apply edit_values in He. destruct He as (te & vb & ks & -> & Hte & Ek & Hv).
    pose proof (vint_len _ _ Hte). pose proof (len_nonneg vb). pose proof (len_nonneg bs).
    set (post := bs ++ t ++ rest).
    replace (pre ++ ((te ++ vb) ++ bs) ++ t ++ rest) with (pre ++ te ++ vb ++ post)
      by (unfold post; rewrite <- !app_assoc; reflexivity).
    pose proof (len_nonneg post).
    destruct (Z.ltb_spec (len pre) (len (pre ++ te ++ vb ++ post))) as [_|Hx]; [|rewrite !len_app in Hx; lia].
    rewrite (read_varint_from pre _ te (vb ++ post) _ Hte eq_refl). rewrite Ek.
    rewrite (app_assoc pre te). replace (len pre + len te) with (len (pre ++ te)) by (rewrite len_app; reflexivity).
    rewrite (read_dvalues_ok _ _ _ _ Hv). rewrite (app_assoc (pre ++ te)).
    unfold post. eapply IH; eauto; lia.
Qed.

Lemma read_dvalues_bounds utf8 ks : forall data off vs o,
  read_dvalues utf8 ks data off = Ok (vs, o) -> off <= o.
Proof.
  induction ks as [|k ks IH]; intros data off vs o; cbn [read_dvalues].
  - intros H. assert (off = o) by congruence. lia.
  - destruct (read_dvalue utf8 k (pyslice_from data off)) as [[v n]|] eqn:E; cbn [bind]; [|discriminate].
    destruct (read_dvalues utf8 ks data (off + n)) as [[vs' o']|] eqn:E2; cbn [bind]; [|discriminate].
    intros H. assert (o' = o) by congruence. subst o'. apply IH in E2.
    assert (0 <= n).
    { destruct k; cbn [read_dvalue] in E.
      - destruct (read_varint _) as [[v' n']|] eqn:Ev; cbn [bind] in E; [|discriminate].
        apply read_varint_bounds in Ev. assert (n = n') by congruence. lia.
      - destruct (read_slice _) as [[v' n']|] eqn:Ev; cbn [bind] in E; [|discriminate].
        apply read_slice_bounds in Ev. assert (n = n') by congruence. lia.
      - destruct (read_varint _) as [[v' n']|] eqn:Ev; cbn [bind] in E; [|discriminate].
        apply read_varint_bounds in Ev. destruct (utf8 _); cbn [bind] in E; [|discriminate].
        assert (n = n' + v') by congruence. lia. }
    lia.
Qed.

Lemma read_edits_terminates utf8 data : forall fuel off acc, 0 <= off ->
  (Z.to_nat (len data - off) <= fuel)%nat -> read_edits fuel utf8 data off acc <> OutOfFuel.
Proof.
  induction fuel as [|k IH]; intros off acc Ho Hf; cbn [read_edits];
    destruct (Z.ltb_spec off (len data)); try discriminate; [lia|].
  destruct (read_varint _) as [[tag n]|] eqn:E; [|discriminate]. apply read_varint_bounds in E.
  destruct (tag_values tag) as [ks|]; [|discriminate].
  destruct (read_dvalues utf8 ks data (off + n)) as [[vs o]|] eqn:E2; [|discriminate].
  apply read_dvalues_bounds in E2. apply IH; lia.
Qed.

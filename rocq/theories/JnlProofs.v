From Verif Require Import Base BaseFacts CoreModel CoreProofs VarModel VarFacts SeqModel SeqSpec SeqFacts DictModel MemModel MemSpec MemFacts MemTools ChainFacts JnlModel JnlSpec.

Lemma le1 z : 0 <= z < 256 -> le_enc 1 z = [z].
Proof. intros H. cbn [le_enc]. rewrite Z.mod_small by lia. reflexivity. Qed.

Lemma sd_object_wf : Forall mem_wf sd_object.
Proof. unfold sd_object, u64. repeat (apply Forall_cons; [cbn; try exact I; lia|]). apply Forall_nil. Qed.

Lemma sd_read_iff big content off fixed ms vs : is_bytes content -> len content < 2 ^ 63 -> 0 <= off -> Forall mem_wf ms ->
  (sd_read big content off fixed ms = Ok vs <->
   exists t f r size vs' d, vs = [MI t; MI f; MB r; MI size] ++ vs' /\ 0 <= t < 256 /\ 0 <= f < 256 /\ len r = 6 /\ is_u64 size /\
     mems_enc [MI t; MI f; MB r; MI size] ms vs' d /\ stored_at content off ([t; f] ++ r ++ le_enc 8 size ++ d) /\
     off + fixed <= len content /\ size - fixed < 2 ^ 63).
Proof.
  intros Hb Hl Ho W. unfold sd_read. split.
  - destruct (Z.ltb_spec off (2 ^ 63)) as [_|]; cbn [guard bind]; [|discriminate].
    destruct (Z.ltb_spec (len content) off) as [Hfar|Hin].
    { unfold sd_object. rewrite read_mems_far; [discriminate|cbn; lia|lia]. }
    destruct (read_mems content off [] sd_object) as [[v0 p]|] eqn:E; cbn [bind]; [|discriminate].
    apply (read_mems_iff content Hb) in E as (vs0 & d0 & -> & M & S & ->); [|apply sd_object_wf|lia].
    unfold sd_object, u64 in M. unmem M. cbn [app] in *. pose proof (stored_at_inside _ _ _ S) as I.
    destruct (Z.leb_spec (off + fixed) (len content)); cbn [guard bind]; [|discriminate].
    unfold mint at 1. cbn [nth_error].
    match goal with |- context [guard (?a <? ?b) OverflowError] => destruct (Z.ltb_spec a b) end; cbn [guard bind]; [|discriminate].
    match goal with |- context [read_mems content ?p ?v ms] => destruct (read_mems content p v ms) as [[v2 p2]|] eqn:E2; cbn [bind]; [|discriminate] end.
    apply (read_mems_iff content Hb) in E2 as (vs2 & d2 & -> & M' & S' & _); [|exact W|match type of I with context [len ?d] => pose proof (len_nonneg d) end; lia].
    intros H'. injection H' as <-. do 6 eexists. split; [cbn [app]; reflexivity|].
    split; [match goal with H : 0 <= z < 256 ^ _ |- _ => exact H end|]. split; [match goal with H : 0 <= z0 < 256 ^ _ |- _ => exact H end|].
    split; [assumption|]. split; [match goal with H : 0 <= z1 < 256 ^ _ |- _ => exact H end|]. split; [exact M'|].
    split; [|split; assumption].
    assert (S2 := proj2 (stored_at_app content off _ _) (conj S S')). cbn [enc_int] in S2. rewrite !le1 in S2 by assumption. rewrite app_nil_r in S2. rewrite <- !app_assoc in S2. exact S2.
  - intros (t & f & r & size & vs' & d & -> & Ht & Hf & Hr & Hs & M & S & Hfix & Hsz).
    pose proof (stored_at_inside _ _ _ S) as I. rewrite !len_app, len_le_enc in I. change (len [t; f]) with 2 in I. pose proof (len_nonneg d).
    destruct (Z.ltb_spec off (2 ^ 63)) as [_|]; [|lia]. cbn [guard bind].
    assert (E : read_mems content off [] sd_object = Ok ([MI t; MI f; MB r; MI size], off + 16)).
    { apply (read_mems_iff content Hb); [apply sd_object_wf|lia|]. exists [MI t; MI f; MB r; MI size], ([t; f] ++ r ++ le_enc 8 size).
      split; [reflexivity|]. split.
      - unfold sd_object, u64. rewrite <- (app_nil_r (le_enc 8 size)). change ([t; f] ++ r ++ le_enc 8 size ++ []) with ([t] ++ [f] ++ r ++ le_enc 8 size ++ []).
        apply mse_cons; [apply me_uint_iff; exists t; cbn [enc_int]; rewrite le1 by exact Ht; repeat split; lia|].
        apply mse_cons; [apply me_uint_iff; exists f; cbn [enc_int]; rewrite le1 by exact Hf; repeat split; lia|].
        apply mse_cons; [constructor; exact Hr|]. apply mse_cons; [constructor; exact Hs|]. constructor.
      - split; [|rewrite !len_app, len_le_enc, Hr; change (len [t; f]) with 2; lia]. 
        rewrite (app_assoc r), (app_assoc [t; f]) in S. apply stored_at_app in S as [S _]. exact S. }
    rewrite E. cbn [bind]. destruct (Z.leb_spec (off + fixed) (len content)); [|lia]. cbn [guard bind]. unfold mint at 1. cbn [nth_error].
    destruct (Z.ltb_spec (size - fixed) (2 ^ 63)); [|lia]. cbn [guard bind].
    assert (E2 : read_mems content (off + 16) [MI t; MI f; MB r; MI size] ms = Ok ([MI t; MI f; MB r; MI size] ++ vs', off + 16 + len d)).
    { apply (read_mems_iff content Hb); [exact W|lia|]. exists vs', d. split; [reflexivity|]. split; [exact M|]. split; [|reflexivity].
      rewrite (app_assoc r), (app_assoc [t; f]) in S. apply stored_at_app in S as [_ S]. rewrite !len_app, len_le_enc, Hr in S. change (len [t; f]) with 2 in S.
      replace (off + 16) with (off + (2 + (6 + Z.of_nat 8))) by lia. exact S. }
    rewrite E2. reflexivity.
Qed.

Lemma sd_read_err big content off fixed ms e : is_bytes content -> 0 <= off -> Forall mem_wf ms -> sd_read big content off fixed ms = Err e ->
  e = ParseError \/ 2 ^ 63 <= off /\ e = big \/ e = OverflowError.
Proof.
  intros Hb Ho W. unfold sd_read. destruct (Z.ltb_spec off (2 ^ 63)) as [_|]; cbn [guard bind]; [|intros H'; injection H' as <-; auto].
  destruct (Z.ltb_spec (len content) off) as [Hfar|Hin].
  { unfold sd_object. rewrite read_mems_far; [|cbn; lia|lia]. cbn [bind]. intros H'. injection H' as <-. auto. }
  destruct (read_mems content off [] sd_object) as [[v0 p]|x] eqn:E; cbn [bind].
  - apply (read_mems_iff content Hb) in E as (vs0 & d0 & -> & M & S & ->); [|apply sd_object_wf|lia]. pose proof (stored_at_inside _ _ _ S) as I. pose proof (len_nonneg d0).
    destruct (off + fixed <=? len content); cbn [guard bind]; [|intros H'; injection H' as <-; auto].
    destruct (_ <? _); cbn [guard bind]; [|intros H'; injection H' as <-; auto].
    destruct (read_mems content _ _ ms) as [[]|] eqn:E2; cbn [bind]; [discriminate|]. intros H'. injection H' as <-. left.
    apply (read_mems_err content Hb) in E2; [exact E2|exact W|lia].
  - intros H'. injection H' as <-. left. apply (read_mems_err content Hb) in E; [exact E|apply sd_object_wf|lia].
Qed.

Lemma wf_array : Forall mem_wf sd_array.
Proof. unfold sd_array, sd_rest, u64. cbn [app]. repeat (apply Forall_cons; [cbn; try exact I; lia|]). apply Forall_nil. Qed.
Lemma wf_entry : Forall mem_wf sd_entry.
Proof. unfold sd_entry, sd_rest, u64. cbn [app]. repeat (apply Forall_cons; [cbn; try exact I; lia|]). apply Forall_nil. Qed.
Lemma wf_data : Forall mem_wf sd_data.
Proof. unfold sd_data, u64. cbn [app repeat]. repeat (apply Forall_cons; [cbn; try exact I; lia|]). apply Forall_nil. Qed.

Lemma len_le64s l : len (concat (map (le_enc 8) l)) = 8 * len l.
Proof. induction l as [|x l IH]; [reflexivity|]. cbn [map concat]. rewrite len_app, IH, len_le_enc, len_cons. lia. Qed.

Lemma div_mod_space space n k m : 0 < n -> space / n = k -> m = (if n <=? space then space mod n else 0) -> 0 <= k ->
  n * k <= space < n * k + n /\ m = if n * k =? 0 then 0 else space - n * k.
Proof.
  intros Hn Hk Hm Hk0. pose proof (Z.div_mod space n ltac:(lia)) as D. pose proof (Z.mod_pos_bound space n Hn). rewrite Hk in D.
  split; [lia|]. assert (K : k = 0 \/ n <= n * k) by nia.
  destruct (Z.leb_spec n space) as [|L]; destruct (Z.eqb_spec (n * k) 0) as [E|E]; lia.
Qed.

Lemma space_tail space n k m : 0 < n -> n * k <= space < n * k + n -> 0 <= k -> m = (if n * k =? 0 then 0 else space - n * k) ->
  m = if n <=? space then space mod n else 0.
Proof.
  intros Hn B Hk ->. assert (D : space / n = k) by (symmetry; apply (Z.div_unique _ _ _ (space - n * k)); lia).
  pose proof (Z.div_mod space n ltac:(lia)) as E. rewrite D in E. pose proof (Z.mod_pos_bound space n Hn). assert (K : k = 0 \/ n <= n * k) by nia.
  destruct (Z.leb_spec n space); destruct (Z.eqb_spec (n * k) 0); lia.
Qed.

Lemma array_iff big content off next offs : is_bytes content -> len content < 2 ^ 63 -> 0 <= off ->
  (read_sd_array big content off = Ok (next, offs) <-> array_at content off next offs).
Proof.
  intros Hb Hl Ho. unfold read_sd_array. split.
  - destruct (sd_read big content off 24 sd_array) as [vs|] eqn:E; cbn [bind]; [|discriminate].
    apply (sd_read_iff _ _ _ _ _ _ Hb Hl Ho wf_array) in E as (t & f & r & size & vs' & d & -> & Ht & Hf & Hr & Hs & M & S & Hfix & Hsz).
    unfold sd_array, sd_rest, u64 in M. cbn [app] in M. unmem M. unfold mint at 1 2. cbn [app nth_error].
    destruct (Z.eqb_spec t 6) as [->|]; cbn [guard bind]; [|discriminate]. destruct (Z.eqb_spec f 0) as [->|]; cbn [guard bind]; [|discriminate].
    unfold mint, mlist. cbn [nth_error]. intros H. injection H as <- <-. unfold mint in M1, M3. cbn [nth_error] in M1, M3. rewrite Z.mul_1_r in M1.
    pose proof (len_nonneg l). destruct (div_mod_space (size - 24) 8 (len l) (len d) ltac:(lia) (eq_sym M1) M3 ltac:(lia)) as [B R].
    exists size, d. split; [exact M0|]. split; [exact M2|]. split; [lia|]. split.
    + exact R.
    + exists r. split; [exact Hr|]. split; [exact Hs|]. rewrite app_nil_r in S. exact S.
  - intros (size & tail & Hn & Hoffs & B & R & r & Hr & Hs & S). pose proof (len_nonneg offs). pose proof (stored_at_inside _ _ _ S) as I. pose proof (len_nonneg tail).
    rewrite !len_app, !len_le_enc, len_le64s, Hr in I. change (len [6; 0]) with 2 in I.
    assert (Dv : (size - 24) / 8 = len offs) by (symmetry; apply (Z.div_unique _ _ _ (size - 24 - 8 * len offs)); lia).
    assert (E : sd_read big content off 24 sd_array = Ok ([MI 6; MI 0; MB r; MI size] ++ [MI next; ML offs; MB tail])).
    { apply (sd_read_iff _ _ _ _ _ _ Hb Hl Ho wf_array). exists 6, 0, r, size, [MI next; ML offs; MB tail], (le_enc 8 next ++ concat (map (le_enc 8) offs) ++ tail ++ []).
      split; [reflexivity|]. split; [lia|]. split; [lia|]. split; [exact Hr|]. split; [exact Hs|]. split.
      - unfold sd_array, sd_rest, u64. cbn [app]. apply mse_cons; [constructor; exact Hn|]. apply mse_cons; [apply me_uints_iff|].
        + exists offs. split; [reflexivity|]. split; [reflexivity|]. split; [|exact Hoffs]. unfold mint. cbn [app nth_error]. rewrite Dv. lia.
        + apply mse_cons; [constructor|constructor]. unfold mint. cbn [app nth_error].
          apply (space_tail (size - 24) 8 (len offs)); lia || assumption.
      - rewrite app_nil_r. split; [exact S|]. destruct (Z.eqb_spec (8 * len offs) 0); lia. }
    rewrite E. reflexivity.
Qed.

Definition flat (l : list (Z * Z)) : list Z := concat (map (fun p => [fst p; snd p]) l).

Lemma pairs_flat l : pairs (flat l) = l.
Proof. induction l as [|[a b] l IH]; [reflexivity|]. unfold flat in *. cbn [map concat app pairs fst snd]. rewrite IH. reflexivity. Qed.

Lemma flat_pairs k : forall l, length l = (2 * k)%nat -> flat (pairs l) = l /\ length (pairs l) = k.
Proof.
  induction k as [|k IH]; intros l L.
  - destruct l; [split; reflexivity|discriminate].
  - destruct l as [|a [|b l]]; cbn [length] in L; try lia. destruct (IH l ltac:(lia)) as [E1 E2]. cbn [pairs]. unfold flat in *. cbn [map concat app fst snd length].
    rewrite E1, E2. split; reflexivity.
Qed.

Lemma len_flat l : len (flat l) = 2 * len l.
Proof. induction l as [|p l IH]; [reflexivity|]. unfold flat in *. cbn [map concat app]. rewrite !len_cons, IH. lia. Qed.

Lemma flat_bytes l : concat (map (le_enc 8) (flat l)) = concat (map item_bytes l).
Proof. induction l as [|p l IH]; [reflexivity|]. unfold flat in *. cbn [map concat app]. rewrite IH. unfold item_bytes. rewrite <- app_assoc. reflexivity. Qed.

Lemma flat_forall (P : Z -> Prop) l : Forall P (flat l) <-> Forall (fun p => P (fst p) /\ P (snd p)) l.
Proof.
  unfold flat. induction l as [|p l IH]; [split; constructor|]. cbn [map concat app]. rewrite !Forall_cons_iff, IH. tauto.
Qed.

Lemma len_items l : len (concat (map item_bytes l)) = 16 * len l.
Proof. rewrite <- flat_bytes, len_le64s, len_flat. lia. Qed.

Lemma entry_iff big content off n : is_bytes content -> len content < 2 ^ 63 -> 0 <= off ->
  (read_sd_entry big content off = Ok n <-> entry_at content off n).
Proof.
  intros Hb Hl Ho. unfold read_sd_entry. split.
  - destruct (sd_read big content off 64 sd_entry) as [vs|] eqn:E; cbn [bind]; [|discriminate].
    apply (sd_read_iff _ _ _ _ _ _ Hb Hl Ho wf_entry) in E as (t & f & r & size & vs' & d & -> & Ht & Hf & Hr & Hs & M & S & Hfix & Hsz).
    unfold sd_entry, sd_rest, u64 in M. cbn [app] in M. unmem M. unfold mint at 1 2. cbn [app nth_error].
    destruct (Z.eqb_spec t 3) as [->|]; cbn [guard bind]; [|discriminate]. destruct (Z.eqb_spec f 0) as [->|]; cbn [guard bind]; [|discriminate].
    unfold mint, mlist, mdata. cbn [nth_error]. intros H. injection H as <-.
    unfold mint in *. cbn [nth_error] in *.
    match goal with H : len l = _ |- _ => rename H into L1 end. match goal with H : len ?d = (if _ then _ else _) |- _ => rename H into L2; rename d into tail end.
    pose proof (len_nonneg l). destruct (flat_pairs (Z.to_nat ((size - 64) / 16)) l ltac:(unfold len in *; lia)) as [P1 P2].
    assert (P3 : len (pairs l) = (size - 64) / 16) by (unfold len in *; lia).
    destruct (div_mod_space (size - 64) 16 (len (pairs l)) (len tail) ltac:(lia) (eq_sym P3) L2 ltac:(lia)) as [B R].
    exists size, tail. cbn [n_sequence n_real n_monotonic n_xor n_boot n_items].
    split; [repeat (apply Forall_cons; [assumption|]); apply Forall_nil|]. split; [assumption|].
    split; [apply flat_forall; rewrite P1; assumption|]. split; [lia|]. split; [exact R|].
    exists r. split; [exact Hr|]. split; [exact Hs|]. rewrite <- flat_bytes, P1. rewrite app_nil_r in S. exact S.
  - intros (size & tail & Hn & Hboot & Hitems & B & R & r & Hr & Hs & S). destruct n as [sq re mo boot xor items]. cbn [n_sequence n_real n_monotonic n_xor n_boot n_items] in *.
    pose proof (len_nonneg items). pose proof (stored_at_inside _ _ _ S) as I. pose proof (len_nonneg tail).
    rewrite !len_app, !len_le_enc, len_items, Hr, Hboot in I. change (len [3; 0]) with 2 in I.
    assert (Dv : (size - 64) / 16 = len items) by (symmetry; apply (Z.div_unique _ _ _ (size - 64 - 16 * len items)); lia).
    repeat match goal with H : Forall is_u64 (_ :: _) |- _ => apply Forall_cons_iff in H; destruct H end.
    assert (E : sd_read big content off 64 sd_entry = Ok ([MI 3; MI 0; MB r; MI size] ++ [MI sq; MI re; MI mo; MB boot; MI xor; ML (flat items); MB tail])).
    { apply (sd_read_iff _ _ _ _ _ _ Hb Hl Ho wf_entry). exists 3, 0, r, size, [MI sq; MI re; MI mo; MB boot; MI xor; ML (flat items); MB tail],
        (le_enc 8 sq ++ le_enc 8 re ++ le_enc 8 mo ++ boot ++ le_enc 8 xor ++ concat (map (le_enc 8) (flat items)) ++ tail ++ []).
      split; [reflexivity|]. split; [lia|]. split; [lia|]. split; [exact Hr|]. split; [exact Hs|]. split.
      - unfold sd_entry, sd_rest, u64. cbn [app]. do 3 (apply mse_cons; [constructor; assumption|]). apply mse_cons; [constructor; exact Hboot|]. apply mse_cons; [constructor; assumption|].
        apply mse_cons; [apply me_uints_iff|].
        + exists (flat items). split; [reflexivity|]. split; [reflexivity|]. split; [|apply flat_forall; exact Hitems]. unfold mint. cbn [app nth_error]. rewrite Dv, len_flat. lia.
        + apply mse_cons; [constructor|constructor]. unfold mint. cbn [app nth_error]. apply (space_tail (size - 64) 16 (len items)); lia || assumption.
      - rewrite app_nil_r, flat_bytes. split; [exact S|]. unfold rest_of in R. destruct (Z.eqb_spec (16 * len items) 0); lia. }
    rewrite E. cbn [bind app]. unfold mint, mdata, mlist. cbn [nth_error]. rewrite pairs_flat. reflexivity.
Qed.

Lemma data_iff big content off n : is_bytes content -> len content < 2 ^ 63 -> 0 <= off ->
  (read_sd_data big content off = Ok n <-> data_at content off n).
Proof.
  intros Hb Hl Ho. unfold read_sd_data. split.
  - destruct (sd_read big content off 64 sd_data) as [vs|] eqn:E; cbn [bind]; [|discriminate].
    apply (sd_read_iff _ _ _ _ _ _ Hb Hl Ho wf_data) in E as (t & f & r & size & vs' & d & -> & Ht & Hf & Hr & Hs & M & S & Hfix & Hsz).
    unfold sd_data, u64 in M. cbn [app repeat] in M. unmem M. unfold mint at 1 2 3 4. cbn [app nth_error].
    destruct (Z.eqb_spec t 1) as [->|]; cbn [guard bind]; [|discriminate].
    assert (F : (f =? 0) || (f =? 1) || (f =? 2) = true <-> f = 0 \/ f = 1 \/ f = 2) by lia.
    destruct ((f =? 0) || (f =? 1) || (f =? 2)); cbn [guard bind]; [|discriminate].
    unfold mint, mdata. cbn [nth_error]. intros H. injection H as <-. unfold mint in *. cbn [nth_error] in *.
    unfold data_at. cbn [d_flags d_hash d_next_hash d_next_field d_entry d_array d_number d_payload].
    split; [apply F; reflexivity|]. split; [repeat (apply Forall_cons; [assumption|]); apply Forall_nil|].
    match goal with H : len ?d = size - 64 |- _ => replace (64 + len d) with size by lia end.
    exists r. split; [exact Hr|]. split; [exact Hs|]. rewrite app_nil_r in S. exact S.
  - intros (F & Hn & r & Hr & Hs & S). destruct n as [f h nh nf en ar nu payload]. cbn [d_flags d_hash d_next_hash d_next_field d_entry d_array d_number d_payload] in *.
    pose proof (stored_at_inside _ _ _ S) as I. pose proof (len_nonneg payload).
    rewrite !len_app, !len_le_enc, Hr in I. change (len [1; f]) with 2 in I.
    repeat match goal with H : Forall is_u64 (_ :: _) |- _ => apply Forall_cons_iff in H; destruct H end.
    assert (E : sd_read big content off 64 sd_data = Ok ([MI 1; MI f; MB r; MI (64 + len payload)] ++ [MI h; MI nh; MI nf; MI en; MI ar; MI nu; MB payload])).
    { apply (sd_read_iff _ _ _ _ _ _ Hb Hl Ho wf_data). exists 1, f, r, (64 + len payload), [MI h; MI nh; MI nf; MI en; MI ar; MI nu; MB payload],
        (le_enc 8 h ++ le_enc 8 nh ++ le_enc 8 nf ++ le_enc 8 en ++ le_enc 8 ar ++ le_enc 8 nu ++ payload ++ []).
      split; [reflexivity|]. split; [lia|]. split; [lia|]. split; [exact Hr|]. split; [exact Hs|]. split.
      - unfold sd_data, u64. cbn [app repeat]. do 6 (apply mse_cons; [constructor; assumption|]). apply mse_cons; [constructor|constructor].
        unfold mint. cbn [app nth_error]. lia.
      - rewrite app_nil_r. split; [exact S|]. lia. }
    rewrite E. cbn [bind app]. unfold mint at 1 2 3 4. cbn [nth_error]. replace ((f =? 0) || (f =? 1) || (f =? 2)) with true by lia. reflexivity.
Qed.

Lemma wf_header : Forall mem_wf sd_header.
Proof. unfold sd_header, u64. cbn [app repeat]. repeat (apply Forall_cons; [cbn; try exact I; lia|]). apply Forall_nil. Qed.

Lemma header_iff content first : is_bytes content ->
  (read_sd_header content = Ok first <-> header_at content first).
Proof.
  intros Hb. pose proof (len_nonneg content). unfold read_sd_header. split.
  - destruct (read_mems content 0 [] sd_header) as [[vs p]|] eqn:E; cbn [bind]; [|discriminate].
    apply (read_mems_iff content Hb) in E as (vs' & d & -> & M & S & _); [|apply wf_header|lia].
    unfold sd_header, u64 in M. cbn [app repeat] in M. unmem M. unfold mint. cbn [app nth_error].
    match goal with |- context [existsb ?f ?l] => destruct (existsb f l) eqn:E end; cbn [guard bind]; [|discriminate].
    intros H'. injection H' as <-. apply existsb_exists in E as (size & I & E). apply Z.eqb_eq in E. subst.
    match goal with H : list_eqb _ _ = true |- _ => apply list_eqb_eq in H; rename H into Sig end.
    unfold header_at.
    match type of S with stored_at _ _ (?a ++ ?b1 ++ ?b2 ++ ?b3 ++ ?b4 ++ ?b5 ++ ?b6 ++ ?b7 ++ ?b8 ++ ?sz ++ ?c1 ++ ?c2 ++ ?c3 ++ ?c4 ++ ?c5 ++ ?c6 ++ ?c7 ++ ?c8 ++ ?c9 ++ ?c10 ++ ?fi ++ ?t1 ++ ?t2 ++ ?t3 ++ []) =>
      exists (b1 ++ b2 ++ b3 ++ b4 ++ b5 ++ b6 ++ b7 ++ b8), size, (c1 ++ c2 ++ c3 ++ c4 ++ c5 ++ c6 ++ c7 ++ c8 ++ c9 ++ c10), (t1 ++ t2 ++ t3) end.
    cbn [enc_int] in *. rewrite !len_app, !len_le_enc.
    split; [assumption|]. split; [exact I|]. split; [lia|]. split; [lia|]. split; [lia|].
    change [76; 80; 75; 83; 72; 72; 82; 72] with (s2z "LPKSHHRH"). rewrite Sig. rewrite <- !app_assoc. rewrite app_nil_r in S. exact S.
  - intros (unknown & size & sizes & times & Hf & Hs & Lu & Ls & Lt & S).
    assert (Bd := is_bytes_stored _ _ _ Hb S). apply Forall_app in Bd as [_ Bd]. apply Forall_app in Bd as [Bu Bd]. apply Forall_app in Bd as [_ Bd].
    apply Forall_app in Bd as [Bs Bd]. apply Forall_app in Bd as [_ Bt].
    set (sig := [76; 80; 75; 83; 72; 72; 82; 72]) in *.
    destruct (fixed_total [MInt (FU LE 4); MInt (FU LE 4); MInt (FU LE 1); MData (fun _ => 7); MData (fun _ => 16); MData (fun _ => 16); MData (fun _ => 16); MData (fun _ => 16)]
      ltac:(repeat constructor; cbn; lia) [MB sig] unknown Bu Lu) as (v1 & M1 & L1).
    destruct (fixed_total (repeat u64 10) ltac:(repeat constructor; cbn; lia) ([MB sig] ++ v1 ++ [MI size]) sizes Bs Ls) as (v2 & M2 & L2).
    destruct (fixed_total (repeat u64 3) ltac:(repeat constructor; cbn; lia) ([MB sig] ++ v1 ++ [MI size] ++ v2 ++ [MI first]) times Bt Lt) as (v3 & M3 & L3).
    assert (E : read_mems content 0 [] sd_header = Ok ([MB sig] ++ v1 ++ [MI size] ++ v2 ++ [MI first] ++ v3, 0 + len (sig ++ unknown ++ le_enc 8 size ++ sizes ++ le_enc 8 first ++ times))).
    { apply (read_mems_iff content Hb); [apply wf_header|lia|]. eexists. eexists. split; [reflexivity|]. split; [|split; [exact S|reflexivity]].
      change sd_header with ([MText (list_eqb (s2z "LPKSHHRH")) (fun _ => 8)] ++ [MInt (FU LE 4); MInt (FU LE 4); MInt (FU LE 1); MData (fun _ => 7); MData (fun _ => 16); MData (fun _ => 16); MData (fun _ => 16); MData (fun _ => 16)] ++
        [u64] ++ repeat u64 10 ++ [u64] ++ repeat u64 3).
      apply (mems_enc_app [] [_] _ [MB sig] _ sig); [apply mems_one, me_text_iff; repeat split; reflexivity|]. change (@nil mval ++ [MB sig]) with [MB sig].
      apply mems_enc_app; [exact M1|].
      apply mems_enc_app; [apply mems_one; constructor; cbn in Hs; cbn; lia|].
      apply mems_enc_app; [rewrite <- app_assoc; exact M2|].
      apply mems_enc_app; [apply mems_one; constructor; exact Hf|].
      rewrite <- !app_assoc. exact M3. }
    rewrite E. cbn [bind].
    do 8 (destruct v1 as [|? v1]; [discriminate|]). destruct v1; [|discriminate]. do 10 (destruct v2 as [|? v2]; [discriminate|]). destruct v2; [|discriminate].
    unfold mint. cbn [app nth_error]. replace (existsb (Z.eqb size) [208; 224; 240]) with true by (cbn in Hs |- *; lia). reflexivity.
Qed.

Lemma header_err content e : is_bytes content -> read_sd_header content = Err e -> e = ParseError.
Proof.
  intros Hb. pose proof (len_nonneg content). unfold read_sd_header. destruct (read_mems content 0 [] sd_header) as [[vs p]|x] eqn:E; cbn [bind].
  - destruct (existsb _ _); cbn [guard bind]; [discriminate|congruence].
  - intros H'. apply (read_mems_err content Hb) in E; [congruence|apply wf_header|lia].
Qed.

Definition sd_err (big e : exn) : Prop := e = ParseError \/ e = big \/ e = OverflowError.

Lemma array_err big content off e : is_bytes content -> 0 <= off -> read_sd_array big content off = Err e -> sd_err big e.
Proof.
  intros Hb Ho. unfold read_sd_array, sd_err. destruct (sd_read big content off 24 sd_array) as [vs|x] eqn:E; cbn [bind].
  - destruct (_ =? _); cbn [guard bind]; [|intros H; injection H as <-; auto]. destruct (_ =? _); cbn [guard bind]; [discriminate|intros H; injection H as <-; auto].
  - intros H. injection H as <-. apply sd_read_err in E; [|exact Hb|exact Ho|exact wf_array]. tauto.
Qed.

Lemma entry_err big content off e : is_bytes content -> 0 <= off -> read_sd_entry big content off = Err e -> sd_err big e.
Proof.
  intros Hb Ho. unfold read_sd_entry, sd_err. destruct (sd_read big content off 64 sd_entry) as [vs|x] eqn:E; cbn [bind].
  - destruct (_ =? _); cbn [guard bind]; [|intros H; injection H as <-; auto]. destruct (_ =? _); cbn [guard bind]; [discriminate|intros H; injection H as <-; auto].
  - intros H. injection H as <-. apply sd_read_err in E; [|exact Hb|exact Ho|exact wf_entry]. tauto.
Qed.

Lemma data_err big content off e : is_bytes content -> 0 <= off -> read_sd_data big content off = Err e -> sd_err big e.
Proof.
  intros Hb Ho. unfold read_sd_data, sd_err. destruct (sd_read big content off 64 sd_data) as [vs|x] eqn:E; cbn [bind].
  - destruct (_ =? _); cbn [guard bind]; [|intros H; injection H as <-; auto]. destruct (_ || _); cbn [guard bind]; [discriminate|intros H; injection H as <-; auto].
  - intros H. injection H as <-. apply sd_read_err in E; [|exact Hb|exact Ho|exact wf_data]. tauto.
Qed.

(** The array behind the one at an offset. *)
Definition next_array (big : exn) (content : bytes) (off : Z) : option Z :=
  match read_sd_array big content off with
  | Ok (next, _) => if next =? 0 then None else Some next
  | Err _ => None
  end.

Lemma array_next_pos content off next offs : array_at content off next offs -> 0 <= off < len content /\ 0 <= next /\ Forall (fun o => 0 <= o) offs.
Proof.
  intros (size & tail & Hn & Hoffs & B & R & r & Hr & Hs & S). apply stored_at_inside in S as I. rewrite len_app in I. change (len [6; 0]) with 2 in I.
  match type of I with context [2 + len ?x] => pose proof (len_nonneg x) end. split; [lia|]. split; [unfold is_u64 in Hn; lia|]. eapply Forall_impl; [|exact Hoffs]. intros a Ha. unfold is_u64 in Ha. lia.
Qed.

Lemma arrays_iff big content : is_bytes content -> len content < 2 ^ 63 -> forall off offs, 0 <= off ->
  ((exists fuel, read_sd_arrays fuel big content off = Done (Ok offs)) <-> arrays_at content off offs).
Proof.
  intros Hb Hl off offs Ho. split.
  - intros [fuel E]. revert off offs Ho E. induction fuel as [|fuel IH]; intros off offs Ho; cbn [read_sd_arrays]; [discriminate|].
    destruct (read_sd_array big content off) as [[next l]|] eqn:E; [|discriminate]. apply (array_iff _ _ _ _ _ Hb Hl Ho) in E.
    destruct (Z.eqb_spec next 0) as [->|N]; [intros H; injection H as <-; constructor; exact E|].
    destruct (read_sd_arrays fuel big content next) as [[r|]|] eqn:E2; [|discriminate|discriminate]. cbn [rbind]. intros H. injection H as <-.
    apply array_next_pos in E as P. eapply aa_next; [exact E|exact N|]. apply IH; [lia|exact E2].
  - intros H. revert Ho. induction H as [off offs A|off next offs rest A N H IH]; intros Ho.
    + exists 1%nat. cbn [read_sd_arrays]. rewrite (proj2 (array_iff big _ _ _ _ Hb Hl Ho) A). reflexivity.
    + apply array_next_pos in A as P. destruct IH as [fuel IH]; [lia|]. exists (S fuel). cbn [read_sd_arrays].
      rewrite (proj2 (array_iff big _ _ _ _ Hb Hl Ho) A). destruct (Z.eqb_spec next 0); [contradiction|]. rewrite IH. reflexivity.
Qed.

(** The loop ends when following the arrays ends. *)
Lemma arrays_done big content : forall fuel off, steps fuel (next_array big content) off = None -> exists r, read_sd_arrays fuel big content off = Done r.
Proof.
  induction fuel as [|fuel IH]; intros off; cbn [steps read_sd_arrays]; [discriminate|]. unfold next_array at 1.
  destruct (read_sd_array big content off) as [[next l]|]; [|eauto]. destruct (next =? 0); [eauto|]. intros E. apply IH in E as [r ->]. destruct r; cbn [rbind]; eauto.
Qed.

Lemma arrays_fuel big content : forall fuel off, steps fuel (next_array big content) off <> None -> read_sd_arrays fuel big content off = OutOfFuel.
Proof.
  induction fuel as [|fuel IH]; intros off; cbn [steps read_sd_arrays]; [reflexivity|]. unfold next_array at 1.
  destruct (read_sd_array big content off) as [[next l]|]; [|contradiction]. destruct (next =? 0); [contradiction|]. intros E. rewrite IH by exact E. reflexivity.
Qed.

Lemma next_array_iff big content off next : is_bytes content -> len content < 2 ^ 63 -> 0 <= off ->
  (next_array big content off = Some next <-> next <> 0 /\ exists offs, array_at content off next offs).
Proof.
  intros Hb Hl Ho. unfold next_array. split.
  - destruct (read_sd_array big content off) as [[n l]|] eqn:E; [|discriminate]. apply (array_iff _ _ _ _ _ Hb Hl Ho) in E.
    destruct (Z.eqb_spec n 0) as [->|N]; [discriminate|]. intros H. injection H as <-. eauto.
  - intros (N & offs & A). rewrite (proj2 (array_iff big _ _ _ _ Hb Hl Ho) A). destruct (Z.eqb_spec next 0); [contradiction|reflexivity].
Qed.

Lemma steps_leads big content : is_bytes content -> len content < 2 ^ 63 -> forall n off o, 0 <= off ->
  steps (S n) (next_array big content) off = Some o -> array_leads content off o.
Proof.
  intros Hb Hl. induction n as [|n IH]; intros off o Ho; cbn [steps].
  - destruct (next_array big content off) as [next|] eqn:E; [|discriminate]. intros H. injection H as <-. apply (next_array_iff _ _ _ _ Hb Hl Ho) in E as (N & offs & A). eapply al_one; eassumption.
  - destruct (next_array big content off) as [next|] eqn:E; [|discriminate]. apply (next_array_iff _ _ _ _ Hb Hl Ho) in E as (N & offs & A). intros H. apply array_next_pos in A as P.
    eapply al_more; [exact A|exact N|]. apply IH; [lia|exact H].
Qed.

Lemma leads_steps big content : is_bytes content -> len content < 2 ^ 63 -> forall off o, 0 <= off -> array_leads content off o ->
  exists n, steps (S n) (next_array big content) off = Some o.
Proof.
  intros Hb Hl off o Ho H. induction H as [off next offs A N|off next offs o A N H IH].
  - exists 0%nat. cbn [steps]. rewrite (proj2 (next_array_iff big _ _ _ Hb Hl Ho)) by eauto. reflexivity.
  - apply array_next_pos in A as P. destruct IH as [n IH]; [lia|]. exists (S n). change (steps (S (S n)) ?f off) with (match f off with None => None | Some y => steps (S n) f y end). cbv beta.
    rewrite (proj2 (next_array_iff big _ _ _ Hb Hl Ho)) by eauto. exact IH.
Qed.

Lemma leads_pos content off o : array_leads content off o -> 0 <= o.
Proof. induction 1 as [off next offs A N|]; [apply array_next_pos in A; lia|assumption]. Qed.

Lemma cycle_iff big content off : is_bytes content -> len content < 2 ^ 63 -> 0 <= off ->
  (cyclic (next_array big content) off <-> array_cycle content off).
Proof.
  intros Hb Hl Ho. split.
  - intros (a & b & y & E1 & E2). exists y. destruct a as [|a].
    + cbn [steps] in E1. injection E1 as <-. split; [auto|]. eapply steps_leads; eauto.
    + apply (steps_leads _ _ Hb Hl _ _ _ Ho) in E1. split; [auto|]. eapply steps_leads; eauto. eapply leads_pos, E1.
  - intros (o & R & C). assert (P : 0 <= o) by (eapply leads_pos; exact C). apply (leads_steps big _ Hb Hl _ _ P) in C as [b C]. destruct R as [->|R].
    + exists 0%nat, b, off. split; [reflexivity|exact C].
    + apply (leads_steps big _ Hb Hl _ _ Ho) in R as [a R]. exists (S a), b, o. auto.
Qed.

Lemma next_array_inside big content : is_bytes content -> len content < 2 ^ 63 -> forall x y, 0 <= x -> next_array big content x = Some y ->
  0 <= x < Z.of_nat (length content) /\ 0 <= y.
Proof.
  intros Hb Hl x y Hx E. apply (next_array_iff _ _ _ _ Hb Hl) in E as (_ & offs & A); [|assumption]. apply array_next_pos in A. unfold len in *. lia.
Qed.

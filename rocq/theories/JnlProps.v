(** Properties of the systemd journal reader. *)

From Verif Require Import Base BaseFacts CoreModel CoreProofs SeqModel SeqSpec SeqFacts DictModel MemModel MemSpec MemFacts MemTools ChainFacts JnlModel JnlSpec JnlProofs.

(** *** C66: systemd journal entry arrays *)

Lemma entries_iff big content offs l : is_bytes content -> len content < 2 ^ 63 -> Forall (fun o => 0 <= o) offs ->
  (read_sd_entries big content offs = Ok l <->
   Forall2 (fun off p => entry_at content off (fst p) /\ Forall2 (fun i d => data_at content (fst i) d) (n_items (fst p)) (snd p)) (filter (fun off => negb (off =? 0)) offs) l).
Proof.
  intros Hb Hl Ho. unfold read_sd_entries. apply mapr_iff. intros o [n ds] I. apply filter_In in I as [I _]. rewrite Forall_forall in Ho. apply Ho in I. cbn [fst snd].
  assert (D : forall n, entry_at content o n -> forall ds, (mapr (fun p => read_sd_data big content (fst p)) (n_items n) = Ok ds <-> Forall2 (fun i d => data_at content (fst i) d) (n_items n) ds)).
  { clear n ds. intros n (size & tail & _ & _ & P & _) ds. apply mapr_iff. intros p d Ip. apply data_iff; [exact Hb|exact Hl|]. rewrite Forall_forall in P. apply P in Ip as [Ip _]. unfold is_u64 in Ip. lia. }
  split.
  - destruct (read_sd_entry big content o) as [n'|] eqn:E; cbn [bind]; [|discriminate]. apply (entry_iff _ _ _ _ Hb Hl I) in E.
    destruct (mapr _ (n_items n')) as [ds'|] eqn:E2; cbn [bind]; [|discriminate]. intros H. injection H as <- <-. split; [exact E|]. apply D; assumption.
  - intros [E F]. rewrite (proj2 (entry_iff big _ _ _ Hb Hl I) E). cbn [bind]. rewrite (proj2 (D n E ds) F). reflexivity.
Qed.

Lemma arrays_pos content off offs : arrays_at content off offs -> Forall (fun o => 0 <= o) offs.
Proof.
  induction 1 as [off offs A|off next offs rest A N H IH]; [apply array_next_pos in A; tauto|]. apply Forall_app. split; [apply array_next_pos in A; tauto|exact IH].
Qed.

Lemma first_pos content first : header_at content first -> 0 <= first.
Proof. intros (u & size & a & b & H & _). unfold is_u64 in H. lia. Qed.

(** A file is read exactly if it is a journal, into its entries and their data objects: those at
    the set offsets of the entry arrays, in their order. *)
Theorem C66_read : forall big content l, is_bytes content -> len content < 2 ^ 63 ->
  ((exists fuel, read_sd fuel big content = Done (Ok l)) <-> journal content l).
Proof.
  intros big content l Hb Hl. unfold read_sd, journal. split.
  - intros [fuel E]. destruct (read_sd_header content) as [first|] eqn:E1; [|discriminate]. apply (header_iff _ _ Hb) in E1. assert (P := first_pos _ _ E1).
    destruct (read_sd_arrays fuel big content first) as [[offs|]|] eqn:E2; [|discriminate|discriminate]. cbn [rbind] in E.
    assert (A : arrays_at content first offs) by (apply (arrays_iff big _ Hb Hl _ _ P); eauto). exists first, offs. split; [exact E1|]. split; [exact A|].
    apply (entries_iff big _ _ _ Hb Hl (arrays_pos _ _ _ A)). congruence.
  - intros (first & offs & H & A & F). assert (P := first_pos _ _ H). assert (A' := A). apply (arrays_iff big _ Hb Hl _ _ P) in A' as [fuel E]. exists fuel.
    rewrite (proj2 (header_iff _ _ Hb) H), E. cbn [rbind]. rewrite (proj2 (entries_iff big _ _ _ Hb Hl (arrays_pos _ _ _ A)) F). reflexivity.
Qed.
Print Assumptions C66_read.

(** As many steps as the file has bytes are enough, unless the arrays are in a cycle. *)
Theorem C66_ends : forall big content, is_bytes content -> len content < 2 ^ 63 ->
  (exists r, read_sd (S (length content)) big content = Done r) \/
  (exists first, header_at content first /\ array_cycle content first).
Proof.
  intros big content Hb Hl. unfold read_sd. destruct (read_sd_header content) as [first|] eqn:E1; [|eauto]. apply (header_iff _ _ Hb) in E1. assert (P := first_pos _ _ E1).
  destruct (steps_end (next_array big content) (fun x => 0 <= x) (length content) first (next_array_inside big content Hb Hl) P) as [E|C].
  - left. apply arrays_done in E as [r ->]. destruct r; cbn [rbind]; eauto.
  - right. exists first. split; [exact E1|]. apply (cycle_iff big _ _ Hb Hl P). exact C.
Qed.
Print Assumptions C66_ends.

(** Reading never ends exactly if an entry array leads back to itself. *)
Theorem C66_cycle : forall big content, is_bytes content -> len content < 2 ^ 63 ->
  ((forall fuel, read_sd fuel big content = OutOfFuel) <-> exists first, header_at content first /\ array_cycle content first).
Proof.
  intros big content Hb Hl. split.
  - intros H. destruct (C66_ends big content Hb Hl) as [[r E]|C]; [|exact C]. rewrite H in E. discriminate.
  - intros (first & H & C) fuel. assert (P := first_pos _ _ H). unfold read_sd. rewrite (proj2 (header_iff _ _ Hb) H).
    rewrite arrays_fuel; [reflexivity|]. apply cyclic_never. apply (cycle_iff big _ _ Hb Hl P). exact C.
Qed.
Print Assumptions C66_cycle.

(** Other errors than ParseError are only raised for offsets or sizes that do not fit into 63
    bits. *)
Theorem C66_errors : forall big fuel content e, is_bytes content -> len content < 2 ^ 63 ->
  read_sd fuel big content = Done (Err e) -> e = ParseError \/ e = big \/ e = OverflowError.
Proof.
  intros big fuel content e Hb Hl. unfold read_sd. destruct (read_sd_header content) as [first|x] eqn:E1.
  2:{ intros H. apply header_err in E1; [|exact Hb]. left. congruence. }
  apply (header_iff _ _ Hb) in E1. assert (P := first_pos _ _ E1).
  destruct (read_sd_arrays fuel big content first) as [[offs|x]|] eqn:E2; [| |discriminate]; cbn [rbind].
  - assert (A : arrays_at content first offs) by (apply (arrays_iff big _ Hb Hl _ _ P); eauto). apply arrays_pos in A.
    intros H. assert (E : read_sd_entries big content offs = Err e) by congruence. unfold read_sd_entries in E. apply mapr_errors in E as (o & I & E).
    apply filter_In in I as [I _]. rewrite Forall_forall in A. apply A in I. destruct (read_sd_entry big content o) as [n|x] eqn:En; cbn [bind] in E.
    + apply (entry_iff _ _ _ _ Hb Hl I) in En as (size & tail & _ & _ & F & _). destruct (mapr _ _) as [ds|x] eqn:Ed; cbn [bind] in E; [discriminate|]. injection E as <-.
      apply mapr_errors in Ed as (p & Ip & Ed). rewrite Forall_forall in F. apply F in Ip as [Ip _]. unfold is_u64 in Ip. eapply data_err; [exact Hb| |exact Ed]. lia.
    + injection E as <-. eapply entry_err; [exact Hb|exact I|exact En].
  - intros H. assert (x = e) by congruence. subst x. clear H. revert P E2. generalize first. induction fuel as [|fuel IH]; intros off P; cbn [read_sd_arrays]; [discriminate|].
    destruct (read_sd_array big content off) as [[next l]|x] eqn:E; [|intros H; assert (x = e) by congruence; subst x; eapply array_err; [exact Hb|exact P|exact E]].
    apply (array_iff _ _ _ _ _ Hb Hl P) in E. apply array_next_pos in E as (_ & N & _). destruct (next =? 0); [discriminate|].
    destruct (read_sd_arrays fuel big content next) as [[|x]|] eqn:E2; cbn [rbind]; [discriminate| |discriminate]. intros H. apply (IH next N). congruence.
Qed.
Print Assumptions C66_errors.

(** A journal with one entry that has two data objects; the second offset of the array is not
    set. *)
Definition ex_object (type flags : Z) (body : bytes) : bytes := [type; flags] ++ repeat 0 6 ++ le_enc 8 (16 + len body) ++ body.
Definition ex_header (first : Z) : bytes :=
  [76; 80; 75; 83; 72; 72; 82; 72] ++ repeat 0 80 ++ le_enc 8 208 ++ repeat 0 80 ++ le_enc 8 first ++ repeat 0 24.
Definition ex_array (next : Z) (offs : list Z) : bytes := ex_object 6 0 (le_enc 8 next ++ concat (map (le_enc 8) offs)).
Definition ex_entry (items : list (Z * Z)) : bytes :=
  ex_object 3 0 (le_enc 8 1 ++ le_enc 8 2 ++ le_enc 8 3 ++ repeat 9 16 ++ le_enc 8 4 ++ concat (map item_bytes items)).
Definition ex_data (flags : Z) (payload : bytes) : bytes := ex_object 1 flags (concat (map (le_enc 8) [5; 6; 7; 8; 9; 10]) ++ payload).
Definition ex_journal : bytes :=
  ex_header 208 ++ ex_array 0 [248; 0] ++ ex_entry [(344, 11); (412, 12)] ++ ex_data 0 (s2z "A=1") ++ [0] ++ ex_data 1 (s2z "zip").

Example C66_case : forall big,
  journal ex_journal
    [(mkent 1 2 3 (repeat 9 16) 4 [(344, 11); (412, 12)],
      [mkdat 0 5 6 7 8 9 10 (s2z "A=1"); mkdat 1 5 6 7 8 9 10 (s2z "zip")])] /\
  read_sd 1 big ex_journal = Done (Ok
    [(mkent 1 2 3 (repeat 9 16) 4 [(344, 11); (412, 12)],
      [mkdat 0 5 6 7 8 9 10 (s2z "A=1"); mkdat 1 5 6 7 8 9 10 (s2z "zip")])]).
Proof.
  intros big. assert (E : read_sd 1 big ex_journal = Done (Ok
    [(mkent 1 2 3 (repeat 9 16) 4 [(344, 11); (412, 12)],
      [mkdat 0 5 6 7 8 9 10 (s2z "A=1"); mkdat 1 5 6 7 8 9 10 (s2z "zip")])])) by (vm_compute; reflexivity).
  split; [|exact E]. apply (C66_read big); [apply is_bytes_forallb; vm_compute; reflexivity|vm_compute; reflexivity|]. exists 1%nat. exact E.
Qed.

(** Two arrays that refer to each other. *)
Theorem C66_cycle_refuted : forall big fuel, read_sd fuel big (ex_header 208 ++ ex_array 240 [0] ++ ex_array 208 [0]) = OutOfFuel.
Proof.
  intros big fuel. set (content := ex_header 208 ++ ex_array 240 [0] ++ ex_array 208 [0]).
  assert (Hb : is_bytes content) by (apply is_bytes_forallb; vm_compute; reflexivity).
  assert (Hl : len content < 2 ^ 63) by (vm_compute; reflexivity).
  apply C66_cycle; [exact Hb|exact Hl|]. exists 208. split; [apply (header_iff _ _ Hb); vm_compute; reflexivity|].
  exists 208. split; [auto|]. eapply (al_more content 208 240 [0]); [apply (array_iff big content 208 240 [0] Hb Hl); [lia|vm_compute; reflexivity]|lia|].
  eapply (al_one content 240 208 [0]); [apply (array_iff big content 240 208 [0] Hb Hl); [lia|vm_compute; reflexivity]|lia].
Qed.
Print Assumptions C66_cycle_refuted.

(** At offset 0 is the signature of the file. *)
Lemma object_not_0 content first type flags size body : header_at content first -> object_at content 0 type flags size body -> type = 76.
Proof.
  intros (u & sz & a & b & _ & _ & _ & _ & _ & S) (r & _ & _ & S'). destruct S as (pre & post & E & L). destruct S' as (pre' & post' & E' & L').
  apply len_zero in L, L'. subst pre pre'. rewrite E in E'. cbn [app] in E'. congruence.
Qed.

(** A journal without entries has no entry array; its offset is 0. It cannot be read. *)
Theorem C66_empty_refuted : forall big fuel content, is_bytes content -> len content < 2 ^ 63 -> header_at content 0 ->
  exists e, read_sd (S fuel) big content = Done (Err e).
Proof.
  intros big fuel content Hb Hl H. unfold read_sd. rewrite (proj2 (header_iff _ _ Hb) H). cbn [read_sd_arrays].
  destruct (read_sd_array big content 0) as [[next l]|e] eqn:E.
  - exfalso. apply (array_iff _ _ _ _ _ Hb Hl (Z.le_refl 0)) in E as (size & tail & _ & _ & _ & _ & O). pose proof (object_not_0 _ _ _ _ _ _ H O). lia.
  - cbn [rbind]. eauto.
Qed.
Print Assumptions C66_empty_refuted.

Example C66_empty_case : forall big, read_sd 1 big (ex_header 0) = Done (Err ParseError) /\ header_at (ex_header 0) 0.
Proof. intros big. split; [reflexivity|]. apply header_iff; [apply is_bytes_forallb|]; vm_compute; reflexivity. Qed.

(** The offset of an entry item can be 0 if it is not set. The journal then cannot be read. *)
Theorem C66_unset_item_refuted :
  (forall big fuel content l, is_bytes content -> len content < 2 ^ 63 -> read_sd fuel big content = Done (Ok l) ->
     Forall (fun p => Forall (fun i => fst i <> 0) (n_items (fst p))) l) /\
  forall big, read_sd 1 big (ex_header 208 ++ ex_array 0 [240] ++ ex_entry [(0, 0)]) = Done (Err ParseError).
Proof.
  split; [|reflexivity]. intros big fuel content l Hb Hl E.
  assert (J : journal content l) by (apply (C66_read big content l Hb Hl); eauto). destruct J as (first & offs & H & A & F).
  clear E A. induction F as [|o p os l [_ D] F IH]; constructor; [|exact IH]. clear IH F.
  induction D as [|i d is ds D Ds IH]; constructor; [|exact IH]. intros E. rewrite E in D. destruct D as (_ & _ & O).
  pose proof (object_not_0 _ _ _ _ _ _ H O). lia.
Qed.
Print Assumptions C66_unset_item_refuted.

(** An offset of more than 63 bits is not reported as a ParseError. *)
Theorem C66_overflow_refuted : forall big fuel content first, is_bytes content -> header_at content first -> 2 ^ 63 <= first ->
  read_sd (S fuel) big content = Done (Err big).
Proof.
  intros big fuel content first Hb H Hf. unfold read_sd. rewrite (proj2 (header_iff _ _ Hb) H). cbn [read_sd_arrays]. unfold read_sd_array, sd_read.
  destruct (Z.ltb_spec first (2 ^ 63)); [lia|]. reflexivity.
Qed.
Print Assumptions C66_overflow_refuted.

Example C66_overflow_case : header_at (ex_header (2 ^ 63)) (2 ^ 63).
Proof. apply header_iff; [apply is_bytes_forallb|]; vm_compute; reflexivity. Qed.

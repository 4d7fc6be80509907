(** C100: the node cells of the repository file of a WMI repository. *)

From Verif Require Import Base BaseFacts SeqSpec CoreModel StrModel DictModel RdModel TvSpec FhSpec WcrModel WcrSpec WcrProofs.

(** The offsets of the two root nodes are those of the cells whose numbers are in the file header. *)
Theorem C100_cells : forall content root system, is_bytes content ->
  ((exists fuel, rep_file fuel content = Done (Ok (root, system))) <->
   exists h d, rheader_bytes h d /\ stored_at content 0 d /\ found content h root system).
Proof. exact rep_file_iff. Qed.
Print Assumptions C100_cells.

(** Otherwise there is a ParseError. *)
Theorem C100_errors : forall fuel content x, is_bytes content -> rep_file fuel content = Done (Err x) -> x = ParseError.
Proof. exact rep_file_errors. Qed.
Print Assumptions C100_errors.

(** A cell number is that of one cell, and what is found is determined by the file. *)
Theorem C100_unique : forall content first n a b, is_bytes content -> cell_number content first n a -> cell_number content first n b -> a = b.
Proof. exact cell_number_det. Qed.
Print Assumptions C100_unique.

Theorem C100_count : forall content first n m k a, is_bytes content -> number_of_cells content first n -> number_of_cells content first m -> cell_number content first k a ->
  n = m /\ 0 <= k < n.
Proof. intros content first n m k a B N M C. split; [eapply number_det; eassumption|eapply cell_before; eassumption]. Qed.
Print Assumptions C100_count.

(** If the cells have a size reading ends. *)
Theorem C100_ends : forall content, is_bytes content ->
  (forall h d, rheader_bytes h d -> stored_at content 0 d -> sized content (rh_bin h)) -> rep_file (length content) content <> OutOfFuel.
Proof. exact rep_file_terminates. Qed.
Print Assumptions C100_ends.

(** ** Two node bins with three cells *)

Definition ex_header (system root bin : Z) : bytes :=
  le_enc 4 system ++ le_enc 4 root ++ concat (map (le_enc 4) [1; 2; 3; 4; 5; 6; 7]) ++ le_enc 4 bin.

Definition ex_file : bytes :=
  ex_header 2 1 60 ++ le_enc 4 8 ++ [1; 2; 3; 4] ++ le_enc 4 12 ++ [1; 2; 3; 4; 5; 6; 7; 8] ++
  le_enc 4 100 ++ le_enc 4 0x80000008 ++ [9; 9; 9; 9] ++ le_enc 4 0.

Example C100_case : is_bytes ex_file /\ rep_file 5 ex_file = Done (Ok (Some 52, Some 68)) /\
  exists h d, rheader_bytes h d /\ stored_at ex_file 0 d /\ rh_root h = 1 /\ rh_system h = 2 /\ rh_bin h = 60 /\
    cell_number ex_file 60 1 52 /\ cell_number ex_file 60 2 68.
Proof.
  assert (B : is_bytes ex_file) by (apply is_bytes_forallb; vm_compute; reflexivity). split; [exact B|].
  assert (R : rep_file 5 ex_file = Done (Ok (Some 52, Some 68))) by (vm_compute; reflexivity). split; [exact R|].
  destruct (proj1 (C100_cells ex_file (Some 52) (Some 68) B) (ex_intro _ _ R)) as (h & d & H & S & F). exists h, d. split; [exact H|]. split; [exact S|].
  assert (E : exists p, rd_rheader ex_file 0 = Ok (h, p)) by (apply header_iff; eauto). destruct E as [p E].
  assert (X : rd_rheader ex_file 0 = Ok (mkrh 2 1 60, 40)) by (vm_compute; reflexivity). rewrite X in E. injection E as <- _. cbn [rh_root rh_system rh_bin] in *.
  repeat (split; [reflexivity|]). destruct F as [(a & b & E1 & E2 & _ & F1 & F2)|(n & N & F1 & F2 & _)].
  - injection E1 as <-. injection E2 as <-. split; assumption.
  - split; [exact F1|]. apply F2. cbn. lia.
Qed.

(** Fewer cells than the numbers in the header: an offset is missing. *)
Example C100_missing_case : rep_file 5 (ex_header 7 1 60 ++ zskipn 40 ex_file) = Done (Ok (Some 52, None)).
Proof. vm_compute. reflexivity. Qed.

(** ** Findings *)

(** The same cell for both: the system class is not found. *)
Theorem C100_same_refuted : ~ (forall content h d n a b system, is_bytes content -> rheader_bytes h d -> stored_at content 0 d ->
  number_of_cells content (rh_bin h) n -> cell_number content (rh_bin h) (rh_root h) a -> cell_number content (rh_bin h) (rh_system h) b ->
  (exists fuel, rep_file fuel content = Done (Ok (Some a, system))) -> system = Some b).
Proof.
  intros H. pose (c := ex_header 1 1 60 ++ zskipn 40 ex_file).
  assert (B : is_bytes c) by (apply is_bytes_forallb; vm_compute; reflexivity).
  assert (R : rep_file 5 c = Done (Ok (Some 52, None))) by (vm_compute; reflexivity).
  destruct (proj1 (C100_cells c (Some 52) None B) (ex_intro _ _ R)) as (h & d & Hh & S & [(a & b & _ & X & _)|(n & N & F1 & _)]); [discriminate X|].
  assert (E : exists p, rd_rheader c 0 = Ok (h, p)) by (apply header_iff; eauto). destruct E as [p E].
  assert (X : rd_rheader c 0 = Ok (mkrh 1 1 60, 40)) by (vm_compute; reflexivity). rewrite X in E. injection E as <- _.
  specialize (H c (mkrh 1 1 60) d n 52 52 None B Hh S N F1 F1 (ex_intro _ 5%nat R)). discriminate H.
Qed.
Print Assumptions C100_same_refuted.

(** A cell whose size has upper bits only: reading does not get any further. *)
Definition ex_stuck : bytes := ex_header 0 0 0 ++ le_enc 4 0x80000000.

Theorem C100_ends_refuted : is_bytes ex_stuck /\ forall fuel, rep_file fuel ex_stuck = OutOfFuel.
Proof.
  split; [apply is_bytes_forallb; vm_compute; reflexivity|]. intros fuel.
  assert (X : rd_rheader ex_stuck 0 = Ok (mkrh 0 0 0, 40)) by (vm_compute; reflexivity). unfold rep_file. rewrite X. cbn [rbind].
  assert (Nb : next_bin ex_stuck 40 0 = Ok (40, 0)) by reflexivity. assert (Rc : rd_cell ex_stuck 40 = Ok ((0x80000000, []), 44)) by (vm_compute; reflexivity).
  assert (L : forall f n, 0 < n -> find_cells f ex_stuck (mkrh 0 0 0) 40 n 0 (Some 44) None = OutOfFuel).
  { induction f as [|f IH]; intros n P; [reflexivity|]. rewrite find_step. change (40 <? len ex_stuck) with true. cbv iota. rewrite Nb. cbn [rbind]. rewrite Rc. cbn [rbind fst].
    change (2147483648 =? 0) with false. cbv iota. unfold step_root, step_system. cbn [rh_root rh_system]. destruct (Z.eqb_spec 0 n); [lia|]. cbn [negb andb].
    change (cell_size 2147483648) with 0. rewrite Z.add_0_r. apply IH. lia. }
  destruct fuel as [|f]; [reflexivity|]. rewrite find_step. change (40 <? len ex_stuck) with true. cbv iota. cbn [rh_bin]. rewrite Nb. cbn [rbind]. rewrite Rc. cbn [rbind fst].
  change (2147483648 =? 0) with false. cbv iota. unfold step_root, step_system. cbn [rh_root rh_system]. change (0 =? 0) with true. cbn [negb andb]. change (cell_size 2147483648) with 0. apply L. lia.
Qed.
Print Assumptions C100_ends_refuted.

(** Such a cell is cells of many numbers. *)
Example C100_numbers_case : rep_file 9 (ex_header 7 5 0 ++ le_enc 4 0x80000000) = Done (Ok (Some 44, Some 44)).
Proof. vm_compute. reflexivity. Qed.

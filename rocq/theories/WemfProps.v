(** Properties of the Windows (Enhanced) Metafile readers. *)

From Verif Require Import Base BaseFacts CoreModel SeqSpec SeqFacts DictModel WemfModel WemfSpec WemfProofs.
From Coq Require String FinFun.
Import String.StringSyntax.

(** *** C69: WEMF record walking *)

(** An EMF file is read exactly if it has a header of 108 bytes that is followed by records to the
    end of the file; the types and the sizes are those of the records. *)
Theorem C69_emf : forall content l, is_bytes content ->
  ((exists fuel rs, read_emf fuel false content = Done (Ok rs) /\ map head rs = l) <->
   108 <= len content /\ chain (emf_at content) (len content) 108 l).
Proof.
  intros content l Hb. unfold read_emf. split.
  - intros (fuel & rs & E & <-). destruct (read_struct content emf_header 0) as [vs|] eqn:H; [|discriminate].
    split; [apply emf_header_ok; eauto|]. eapply walk_sound; [|lia|exact E].
    intros off r Ho R. apply emf_record_sound in R as (A & _); [|exact Hb|exact Ho]. split; [exact A|apply A].
  - intros [H C]. apply emf_header_ok in H as [vs H]; [|exact Hb]. rewrite H.
    destruct (walk_complete (emf_record false content) (emf_at content) (len content) (fun off t s Ho A => emf_record_complete content off t s Hb Ho A) 108 l C ltac:(lia) (length l) (le_n _)) as (rs & E & M).
    eauto.
Qed.
Print Assumptions C69_emf.

(** With debug output the same records are read, if the reader does not fail. *)
Theorem C69_emf_debug : forall fuel content rs, is_bytes content -> read_emf fuel true content = Done (Ok rs) ->
  108 <= len content /\ chain (emf_at content) (len content) 108 (map head rs).
Proof.
  intros fuel content rs Hb. unfold read_emf. destruct (read_struct content emf_header 0) as [vs|] eqn:H; [|discriminate].
  intros E. split; [apply emf_header_ok; eauto|]. eapply walk_sound; [|lia|exact E].
  intros off r Ho R. apply emf_record_sound in R as (A & _); [|exact Hb|exact Ho]. split; [exact A|apply A].
Qed.
Print Assumptions C69_emf_debug.

(** A file written record by record is read back. *)
Theorem C69_emf_records : forall h rs, len h = 108 -> is_bytes (h ++ concat (map emf_bytes rs)) -> Forall emf_wf rs ->
  exists fuel l, read_emf fuel false (h ++ concat (map emf_bytes rs)) = Done (Ok l) /\
    map head l = map (fun r : Z * bytes => (fst r, 8 + len (snd r))) rs.
Proof.
  intros h rs Lh Hb W. apply C69_emf; [exact Hb|]. split; [rewrite len_app; pose proof (len_nonneg (concat (map emf_bytes rs))); lia|].
  rewrite <- Lh. apply emf_chain; [exact W|reflexivity].
Qed.
Print Assumptions C69_emf_records.

(** A WMF file is read exactly if it has a supported header, possibly after a placeable header, that
    is followed by records to the end of the file. *)
Theorem C69_wmf : forall content l, is_bytes content ->
  ((exists fuel rs, read_wmf fuel false content = Done (Ok rs) /\ map head rs = l) <->
   exists start, wmf_start content start /\ chain (wmf_at content) (len content) start l).
Proof.
  intros content l Hb. destruct (read_wmf_cases content Hb) as [(start & St & H0 & R)|(N & R)].
  - split.
    + intros (fuel & rs & E & <-). exists start. split; [exact St|]. rewrite R in E. eapply walk_sound; [|exact H0|exact E].
      intros off r Ho Hr. apply wmf_record_sound in Hr as (A & _); [|exact Hb|exact Ho]. split; [exact A|]. destruct A as (w & -> & _ & A & _). lia.
    + intros (start' & St' & C). assert (start' = start) by (eapply wmf_start_unique; eassumption). subst start'.
      destruct (walk_complete (wmf_record false content) (wmf_at content) (len content) (fun off t s Ho A => wmf_record_complete content off t s Hb Ho A) start l C H0 (length l) (le_n _)) as (rs & E & M).
      exists (length l), rs. rewrite R. auto.
  - split.
    + intros (fuel & rs & E & _). rewrite R in E. discriminate.
    + intros (start & St & _). destruct (N start St).
Qed.
Print Assumptions C69_wmf.

Theorem C69_wmf_records : forall p h rs, len h = 18 -> wmf_head h -> (p = [] \/ exists r, len r = 18 /\ p = [0xd7; 0xcd; 0xc6; 0x9a] ++ r) ->
  is_bytes (p ++ h ++ concat (map wmf_bytes rs)) -> Forall wmf_wf rs ->
  exists fuel l, read_wmf fuel false (p ++ h ++ concat (map wmf_bytes rs)) = Done (Ok l) /\
    map head l = map (fun r : Z * bytes => (fst r, 6 + len (snd r))) rs.
Proof.
  intros p h rs Lh Hh Hp Hb W. apply C69_wmf; [exact Hb|]. exists (len p + 18). split.
  - exists p, h. split; [exact Lh|]. split; [exact Hh|]. split; [|auto]. exists [], (concat (map wmf_bytes rs)). split; [cbn [app]; rewrite <- app_assoc; reflexivity|reflexivity].
  - rewrite <- Lh, <- len_app. rewrite app_assoc. apply wmf_chain; [exact W|reflexivity].
Qed.
Print Assumptions C69_wmf_records.

(** Reading ends within a step per byte of the file, unless a record of size 0 is reached; then it
    does not end. *)
Theorem C69_emf_ends : forall content, is_bytes content ->
  (exists r, forall fuel, (length content <= fuel)%nat -> read_emf fuel false content = Done r) \/
  (108 <= len content /\ (exists off t, reach (emf_at content) (len content) 108 off /\ off < len content /\ emf_at content off t 0) /\
   forall fuel, read_emf fuel false content = OutOfFuel).
Proof.
  intros content Hb. unfold read_emf. destruct (read_struct content emf_header 0) as [vs|e] eqn:H; [|left; eauto].
  destruct (walk_ends (emf_record false content) (emf_at content) (len content)) with (fuel := length content) (off := 108) as [[r E]|(off & t & R & L & A)].
  - intros off r Ho R. apply emf_record_sound in R as (A & _); [|exact Hb|exact Ho]. split; [exact A|apply A].
  - lia.
  - unfold len. lia.
  - left. exists r. intros fuel Hf. eapply walk_more; eassumption.
  - right. split; [apply emf_header_ok; eauto|]. split; [eauto|]. eapply walk_loops; [|exact R|lia|exact L|exact A].
    intros off' t' s Ho A'. apply emf_record_complete; assumption.
Qed.
Print Assumptions C69_emf_ends.

Theorem C69_wmf_ends : forall content, is_bytes content ->
  (exists r, forall fuel, (length content <= fuel)%nat -> read_wmf fuel false content = Done r) \/
  ((exists start off t, wmf_start content start /\ reach (wmf_at content) (len content) start off /\ off < len content /\ wmf_at content off t 0) /\
   forall fuel, read_wmf fuel false content = OutOfFuel).
Proof.
  intros content Hb. destruct (read_wmf_cases content Hb) as [(start & St & H0 & R)|(N & R)]; [|left; eauto].
  destruct (walk_ends (wmf_record false content) (wmf_at content) (len content)) with (fuel := length content) (off := start) as [[r E]|(off & t & Rc & L & A)].
  - intros off r Ho Hr. apply wmf_record_sound in Hr as (A & _); [|exact Hb|exact Ho]. split; [exact A|]. destruct A as (w & -> & _ & A & _). lia.
  - exact H0.
  - unfold len. lia.
  - left. exists r. intros fuel Hf. rewrite R. eapply walk_more; eassumption.
  - right. split; [eauto 8|]. intros fuel. rewrite R. eapply walk_loops; [|exact Rc|exact H0|exact L|exact A].
    intros off' t' s Ho A'. apply wmf_record_complete; assumption.
Qed.
Print Assumptions C69_wmf_ends.

(** The only error is ParseError; with debug output there is one more (see below). *)
Theorem C69_errors : forall fuel content e, is_bytes content ->
  (read_emf fuel false content = Done (Err e) -> e = ParseError) /\ (read_wmf fuel false content = Done (Err e) -> e = ParseError) /\
  (read_emf fuel true content = Done (Err e) -> e = ParseError \/ e = OtherError) /\
  (read_wmf fuel true content = Done (Err e) -> e = ParseError \/ e = OtherError).
Proof.
  intros fuel content e Hb.
  assert (K1 : forall debug (P : exn -> Prop), P ParseError -> (debug = true -> P OtherError) -> read_emf fuel debug content = Done (Err e) -> P e).
  { intros debug P Hp Hd. unfold read_emf. destruct (read_struct content emf_header 0) as [vs|e'] eqn:H.
    - apply walk_errs; [|lia]. intros off Ho. split; [apply emf_record_errs; assumption|]. intros r R. apply emf_record_sound in R as (A & _); [|exact Hb|exact Ho]. apply A.
    - intros E. assert (e' = e) by congruence. subst e'. assert (e = ParseError) by (eapply read_struct_err; [|exact H]; lia). subst e. exact Hp. }
  assert (K2 : forall debug (P : exn -> Prop), P ParseError -> (debug = true -> P OtherError) -> read_wmf fuel debug content = Done (Err e) -> P e).
  { intros debug P Hp Hd. destruct (read_wmf_cases content Hb) as [(start & St & H0 & R)|(N & R)]; rewrite R.
    - apply walk_errs; [|exact H0]. intros off Ho. split; [apply wmf_record_errs; assumption|]. intros r Hr. apply wmf_record_sound in Hr as ((w & -> & _ & A & _) & _); [lia|exact Hb|exact Ho].
    - intros E. assert (e = ParseError) by congruence. subst e. exact Hp. }
  split; [|split; [|split]].
  - apply (K1 false (fun e => e = ParseError)); [reflexivity|discriminate].
  - apply (K2 false (fun e => e = ParseError)); [reflexivity|discriminate].
  - apply (K1 true (fun e => e = ParseError \/ e = OtherError)); auto.
  - apply (K2 true (fun e => e = ParseError \/ e = OtherError)); auto.
Qed.
Print Assumptions C69_errors.

Definition emf_file (rs : list (Z * bytes)) : bytes := repeat 0 108 ++ concat (map emf_bytes rs).
Definition wmf_file (rs : list (Z * bytes)) : bytes := le_enc 2 1 ++ le_enc 2 9 ++ repeat 0 14 ++ concat (map wmf_bytes rs).

Example C69_case :
  read_emf 9 false (emf_file [(0x18, [1; 2; 3; 4]); (0x0e, [])]) =
    Done (Ok [mkwrec 0x18 12 8 112 None; mkwrec 0x0e 8 8 120 None]) /\
  read_wmf 9 false (wmf_file [(0x103, [1; 0]); (0, [])]) =
    Done (Ok [mkwrec 0x103 8 6 20 None; mkwrec 0 6 6 26 None]) /\
  read_wmf 9 false [1; 0; 9] = Done (Err ParseError).
Proof. split; [|split]; vm_compute; reflexivity. Qed.

(** A record of size 0 makes the reader loop forever: these files of 116 and of 24 bytes. *)
Theorem C69_loop_refuted :
  (forall fuel, read_emf fuel false (repeat 0 116) = OutOfFuel) /\
  (forall fuel, read_wmf fuel false (le_enc 2 1 ++ le_enc 2 9 ++ repeat 0 20) = OutOfFuel).
Proof.
  split; intros fuel.
  - destruct (C69_emf_ends (repeat 0 116)) as [[r E]|(_ & _ & E)]; [apply is_bytes_forallb; vm_compute; reflexivity| |apply E].
    pose proof (E 200%nat) as K. assert (X : read_emf 200 false (repeat 0 116) = OutOfFuel) by (vm_compute; reflexivity).
    rewrite X in K. discriminate K. rewrite repeat_length. lia.
  - destruct (C69_wmf_ends (le_enc 2 1 ++ le_enc 2 9 ++ repeat 0 20)) as [[r E]|(_ & E)]; [apply is_bytes_forallb; vm_compute; reflexivity| |apply E].
    pose proof (E 200%nat) as K. assert (X : read_wmf 200 false (le_enc 2 1 ++ le_enc 2 9 ++ repeat 0 20) = OutOfFuel) by (vm_compute; reflexivity).
    rewrite X in K. discriminate K. rewrite !app_length, !le_enc_length, repeat_length. lia.
Qed.
Print Assumptions C69_loop_refuted.

(** The data offset of every record is the size of a record header, not the offset of the data, and
    the data size is too large by the offset of the record. *)
Theorem C69_data_refuted :
  (forall debug content off r, is_bytes content -> 0 < off -> emf_record debug content off = Ok r ->
     w_data_offset r = 8 /\ w_data_offset r <> off + 8 /\ w_data_size r = (w_size r - 8) + off) /\
  (forall debug content off r, is_bytes content -> 0 < off -> wmf_record debug content off = Ok r ->
     w_data_offset r = 6 /\ w_data_offset r <> off + 6 /\ w_data_size r = (w_size r - 6) + off).
Proof.
  split; intros debug content off r Hb Ho R; [apply emf_record_sound in R as (_ & -> & -> & _)|apply wmf_record_sound in R as (_ & -> & -> & _)]; try assumption; lia.
Qed.
Print Assumptions C69_data_refuted.

(** The debug output of a record therefore shows the bytes of the records behind it as well. *)
Theorem C69_shown_refuted :
  exists rs, read_emf 9 true (emf_file [(0x18, [1; 2; 3; 4]); (0x0e, [5; 6])]) = Done (Ok rs) /\
    map w_shown rs = [Some ([1; 2; 3; 4] ++ emf_bytes (0x0e, [5; 6])); Some [5; 6]].
Proof. eexists. split; [vm_compute; reflexivity|]. vm_compute. reflexivity. Qed.
Print Assumptions C69_shown_refuted.

(** With debug output a truncated record raises an error of dtFabric, not a ParseError. *)
Theorem C69_debug_error_refuted :
  read_emf 9 true (repeat 0 108 ++ le_enc 4 0x18 ++ le_enc 4 8) = Done (Err OtherError) /\
  read_wmf 9 true (le_enc 2 1 ++ le_enc 2 9 ++ repeat 0 14 ++ le_enc 4 3 ++ le_enc 2 0x103) = Done (Err OtherError).
Proof. split; vm_compute; reflexivity. Qed.
Print Assumptions C69_debug_error_refuted.

(** The size of the header record is ignored: a file with a header of 88 bytes is misread. *)
Theorem C69_header_refuted : exists h, emf_head_88 h /\
  (exists l, read_emf 9 false (h ++ concat (map emf_bytes [(0x11, [0; 0; 0; 0]); (0x0e, [0x10; 0; 0; 0; 0x14; 0; 0; 0; 0; 0; 0; 0])])) = Done (Ok l) /\
     map head l = [(0x10, 0x14)] ) /\
  read_emf 9 false (h ++ concat (map emf_bytes [(0x18, [1; 2; 3; 4]); (0x0e, [0])])) = Done (Err ParseError).
Proof.
  exists (le_enc 4 1 ++ le_enc 4 88 ++ repeat 0 32 ++ [0x20; 0x45; 0x4d; 0x46] ++ repeat 0 44). split; [|split].
  - exists (repeat 0 32), (repeat 0 44). auto.
  - eexists. split; vm_compute; reflexivity.
  - vm_compute. reflexivity.
Qed.
Print Assumptions C69_header_refuted.

(** The names of stretch modes are those of map modes. *)
Theorem C69_stretch_refuted : forall v name, In (v, name) stretch_modes -> stretch_mode_name v <> name.
Proof. intros v name I. cbn in I. destruct I as [E|[E|[E|[E|[]]]]]; inversion E; subst; vm_compute; discriminate. Qed.
Print Assumptions C69_stretch_refuted.

(** *** C82: Raster operation names *)

(** There is exactly one code for each of the 256 operations. *)
Theorem C82_codes : forall i, 0 <= i < 256 -> exists code name, In (code, name) wmf_raster_operations /\ Z.shiftr code 16 = i /\
  forall code' name', In (code', name') wmf_raster_operations -> Z.shiftr code' 16 = i -> code' = code /\ name' = name.
Proof.
  assert (E : map (fun e => Z.shiftr (fst e) 16) wmf_raster_operations = map Z.of_nat (seq 0 256)) by (vm_compute; reflexivity).
  assert (N : NoDup (map (fun e => Z.shiftr (fst e) 16) wmf_raster_operations)).
  { rewrite E. apply FinFun.Injective_map_NoDup; [intros a b; apply Nat2Z.inj|apply seq_NoDup]. }
  intros i Hi. assert (I : In i (map (fun e => Z.shiftr (fst e) 16) wmf_raster_operations)).
  { rewrite E. apply in_map_iff. exists (Z.to_nat i). split; [lia|]. apply in_seq. lia. }
  apply in_map_iff in I as ([code name] & Ei & I). exists code, name. split; [exact I|]. split; [exact Ei|].
  intros code' name' I' Ei'. assert (K : (code', name') = (code, name)); [|inversion K; auto].
  revert N I I'. generalize wmf_raster_operations. intros t. induction t as [|x t IH]; intros N I I'; [contradiction|].
  cbn [map] in N. inversion N as [|? ? N1 N2]. subst. cbn [fst] in *. destruct I as [->|I]; destruct I' as [I'|I'].
  - congruence.
  - exfalso. apply N1. cbn [fst]. apply in_map_iff. exists (code', name'). auto.
  - subst x. exfalso. apply N1. cbn [fst]. rewrite Ei'. apply in_map_iff. exists (code, name). auto.
  - apply IH; assumption.
Qed.
Print Assumptions C82_codes.

(** The name of a code is that of the table, other codes are unknown. *)
Theorem C82_lookup : forall code, (forall name, In (code, name) wmf_raster_operations -> raster_operation_name code = name) /\
  (~ In code (map fst wmf_raster_operations) -> raster_operation_name code = "UNKNOWN"%string).
Proof.
  intros code. unfold raster_operation_name, enum_name. destruct (find _ _) as [[c s]|] eqn:F.
  - pose proof F as F'. apply find_some in F as [I F]. cbn [fst] in F. apply Z.eqb_eq in F. subst c. split.
    + intros name I'. destruct (C82_codes (Z.shiftr code 16)) as (c & n & _ & _ & U).
      * assert (K : In (Z.shiftr code 16) (map (fun e => Z.shiftr (fst e) 16) wmf_raster_operations)) by (apply in_map_iff; exists (code, s); auto).
        assert (E : map (fun e => Z.shiftr (fst e) 16) wmf_raster_operations = map Z.of_nat (seq 0 256)) by (vm_compute; reflexivity).
        rewrite E in K. apply in_map_iff in K as (k & <- & K). apply in_seq in K. lia.
      * destruct (U _ _ I eq_refl), (U _ _ I' eq_refl). congruence.
    + intros N. destruct N. apply in_map_iff. exists (code, s). auto.
  - split; [|reflexivity]. intros name I. pose proof (find_none _ _ F _ I) as K. cbn [fst] in K. rewrite Z.eqb_refl in K. discriminate.
Qed.
Print Assumptions C82_lookup.

(** The codes with a wrong name. *)
Definition misnamed : list Z :=
  [0x00010289; 0x00020C89; 0x000300AA; 0x00040C88; 0x000500A9; 0x00060865; 0x000702C5; 0x00080F08;
   0x00090245; 0x000A0329; 0x000B0B2A; 0x000C0324; 0x000D0B25; 0x000E08A5; 0x000F0001; 0x00100C85;
   0x00120868; 0x001302C8; 0x00140869; 0x001502C9; 0x00165CCA; 0x00171D54; 0x00180D59; 0x00191CC8;
   0x001A06C5; 0x001B0768; 0x001C06CA; 0x001D0766; 0x001E01A5; 0x001F0385; 0x00200F09; 0x00210248;
   0x00220326; 0x00230B24; 0x00240D55; 0x00251CC5; 0x002606C8; 0x006F0C65].

(** All other names denote the operation of their code. *)
Theorem C82_names : forall code name, In (code, name) wmf_raster_operations -> ~ In code misnamed -> named_right code name.
Proof.
  assert (E : forallb (fun e => existsb (Z.eqb (fst e)) misnamed || right_name (fst e) (snd e)) wmf_raster_operations = true) by (vm_compute; reflexivity).
  intros code name I N. rewrite forallb_forall in E. specialize (E _ I). cbn [fst snd] in E. apply orb_true_iff in E as [E|E].
  - destruct N. apply existsb_exists in E as (x & Ix & Ex). apply Z.eqb_eq in Ex. subst x. exact Ix.
  - apply right_name_iff. exact E.
Qed.
Print Assumptions C82_names.

(** The operations of a name are unambiguous, thus the comparison is meaningful. *)
Theorem C82_unambiguous : forall name r r', rpn r name -> rpn r' name -> r = r'.
Proof. intros name r r' H H'. apply rpn_read_iff in H, H'. congruence. Qed.
Print Assumptions C82_unambiguous.

Example C82_case : named_right 0x00E20746 (raster_operation_name 0x00E20746) /\ raster_operation_name 0x00E20746 = "DSPDXAX"%string /\
  raster_operation_name 0x00CC0020 = "SRCCOPY"%string /\ raster_operation_name 0x00010289 = "DPSOO"%string /\
  named_right 0x00010289 "DPSOON" /\ ~ named_right 0x00010289 "DPSOO".
Proof.
  split; [apply right_name_iff; vm_compute; reflexivity|]. split; [vm_compute; reflexivity|]. split; [vm_compute; reflexivity|]. split; [vm_compute; reflexivity|].
  split; [apply right_name_iff; vm_compute; reflexivity|]. intros K. apply right_name_iff in K. vm_compute in K. discriminate.
Qed.

(** These 38 names do not: most of them lost their last letter. *)
Theorem C82_names_refuted : forall code, In code misnamed -> In code (map fst wmf_raster_operations) /\ ~ named_right code (raster_operation_name code).
Proof.
  assert (E : forallb (fun c => existsb (Z.eqb c) (map fst wmf_raster_operations) && negb (right_name c (raster_operation_name c))) misnamed = true) by (vm_compute; reflexivity).
  intros code I. rewrite forallb_forall in E. specialize (E _ I). apply andb_true_iff in E as [E1 E2]. split.
  - apply existsb_exists in E1 as (x & Ix & Ex). apply Z.eqb_eq in Ex. subst x. exact Ix.
  - intros K. apply right_name_iff in K. rewrite K in E2. discriminate.
Qed.
Print Assumptions C82_names_refuted.

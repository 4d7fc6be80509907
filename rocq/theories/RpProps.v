(** Properties of the rp.log reader. *)

From Verif Require Import Base BaseFacts CoreModel StrModel StrFacts TextModel SeqModel SeqSpec SeqFacts Utf16Model Utf16Spec Utf16Facts RdModel RdSpec RdFacts RpModel RpSpec RpProofs.
From Coq Require String.
Import String.StringSyntax.

(** *** C83: Restore Point logs *)

(** Every rp.log file is read into its values. *)
Theorem C83_file : forall content h unknown time, is_bytes content -> rp_file h unknown time content -> read_rp content = Ok (h, unknown, time).
Proof.
  intros content h u t Hb (Ht & d & I & ->). assert (E : rd_rp_header (d ++ u ++ le_enc 8 t) 0 = Ok (h, len d)).
  { destruct (header_reads _ 0 Hb) as [R _]; [pose proof (len_nonneg (d ++ u ++ le_enc 8 t)); lia|]. apply R. exists d. split; [exact I|]. split; [|reflexivity]. exists [], (u ++ le_enc 8 t). split; reflexivity. }
  destruct (rp_rest h d _ Hb I E) as [[L _]|[[L _]|(u' & f & Er & L & R)]]; try (rewrite len_app, len_le_enc in L; pose proof (len_nonneg u); lia).
  assert (Lu : length u' = length u) by (apply (f_equal (@length Z)) in Er; rewrite !app_length in Er; pose proof (len_le_enc 8 t) as Q; unfold len in *; lia).
  apply app_split in Er as [-> <-]; [|symmetry; exact Lu]. rewrite R. rewrite (le_int_enc 8 t) by exact Ht. reflexivity.
Qed.
Print Assumptions C83_file.

(** Whatever is read is stored in the file, except that the creation time can begin one byte early. *)
Theorem C83_sound : forall content h unknown time, is_bytes content -> read_rp content = Ok (h, unknown, time) ->
  rp_file h unknown time content \/
  (exists d, rp_information h d /\ content = d ++ unknown /\ len unknown = 7 /\ time = le_int (0 :: unknown)).
Proof.
  intros content h u t Hb E. destruct (header_cases content Hb) as [(h' & d & rest & -> & I & H)|[H _]].
  2:{ unfold read_rp in E. rewrite H in E. discriminate. }
  destruct (rp_rest h' d rest Hb I H) as [[L R]|[[L R]|(u' & f & -> & L & R)]]; rewrite R in E; [discriminate| |].
  - right. assert (h' = h /\ rest = u /\ t = le_int (0 :: rest)) as (-> & -> & ->) by (repeat split; congruence). exists d. auto.
  - left. assert (h' = h /\ u' = u /\ t = le_int f) as (-> & -> & ->) by (repeat split; congruence).
    assert (Hf : is_bytes f) by (apply Forall_app in Hb as [_ Hb]; apply Forall_app in Hb as [_ Hb]; exact Hb).
    split; [pose proof (le_int_bounds f Hf) as B; rewrite L in B; exact B|]. exists d. split; [exact I|]. do 2 f_equal.
    replace 8%nat with (length f) by (unfold len in L; lia). rewrite le_enc_int by exact Hf. reflexivity.
Qed.
Print Assumptions C83_sound.

(** Files without Restore Point information are refused with ParseError. *)
Theorem C83_refused : forall content, is_bytes content -> (read_rp content = Err ParseError <-> forall h d rest, content = d ++ rest -> ~ rp_information h d).
Proof.
  intros content Hb. destruct (header_cases content Hb) as [(h & d & rest & -> & I & H)|[H N]].
  - split; [|intros N; exfalso; exact (N h d rest eq_refl I)].
    destruct (rp_rest h d rest Hb I H) as [[L R]|[[L R]|(u' & f & Er & L & R)]]; rewrite R; discriminate.
  - split; [intros _; exact N|]. intros _. unfold read_rp. rewrite H. reflexivity.
Qed.
Print Assumptions C83_refused.

(** Information that is followed by 7 bytes is accepted as a file: the creation time then begins
    with a byte of the description. *)
Theorem C83_overlap_refuted : forall h d rest, is_bytes (d ++ rest) -> rp_information h d -> len rest = 7 ->
  read_rp (d ++ rest) = Ok (h, rest, le_int (0 :: rest)) /\ forall unknown time, ~ rp_file h unknown time (d ++ rest).
Proof.
  intros h d rest Hb I L. assert (E : rd_rp_header (d ++ rest) 0 = Ok (h, len d)).
  { destruct (header_reads _ 0 Hb) as [R _]; [pose proof (len_nonneg (d ++ rest)); lia|]. apply R. exists d. split; [exact I|]. split; [|reflexivity]. exists [], rest. split; reflexivity. }
  assert (Q : read_rp (d ++ rest) = Ok (h, rest, le_int (0 :: rest))).
  { destruct (rp_rest h d rest Hb I E) as [[L' _]|[[_ R]|(u & f & -> & L' & _)]]; [lia|exact R|]. rewrite len_app in L. pose proof (len_nonneg u). lia. }
  split; [exact Q|]. intros u t F. pose proof (C83_file _ _ _ _ Hb F) as Q'. rewrite Q in Q'. destruct F as (_ & d' & I' & Ec).
  assert (u = rest) by congruence. subst u. 
  assert (S : len d' = len d).
  { destruct (header_reads _ 0 Hb) as [R _]; [pose proof (len_nonneg (d ++ rest)); lia|]. assert (Q2 : Ok (h, len d) = Ok (h, 0 + len d')); [rewrite <- E; apply R|assert (len d = 0 + len d') by congruence; lia].
    exists d'. split; [exact I'|]. split; [|reflexivity]. rewrite Ec. exists [], (rest ++ le_enc 8 t). split; reflexivity. }
  apply (f_equal len) in Ec. rewrite !len_app, len_le_enc in Ec. lia.
Qed.
Print Assumptions C83_overlap_refuted.

(** Information that is followed by fewer bytes raises ValueError instead of ParseError. *)
Theorem C83_short_refuted : forall h d rest, is_bytes (d ++ rest) -> rp_information h d -> len rest < 7 -> read_rp (d ++ rest) = Err ValueError.
Proof.
  intros h d rest Hb I L. assert (E : rd_rp_header (d ++ rest) 0 = Ok (h, len d)).
  { destruct (header_reads _ 0 Hb) as [R _]; [pose proof (len_nonneg (d ++ rest)); lia|]. apply R. exists d. split; [exact I|]. split; [|reflexivity]. exists [], rest. split; reflexivity. }
  destruct (rp_rest h d rest Hb I E) as [[_ R]|[[L' _]|(u & f & -> & L' & _)]]; [exact R|lia|]. rewrite len_app in L. pose proof (len_nonneg u). lia.
Qed.
Print Assumptions C83_short_refuted.

(** The values shown: the numbers in hexadecimal and the documented names. *)
Theorem C83_shown : forall h, 0 <= rh_event h -> 0 <= rh_type h -> 0 <= rh_sequence h ->
  exists d1 n1 d2 n2 d3, rp_header_texts h = [s2z "0x"%string ++ d1 ++ s2z " ("%string ++ n1 ++ s2z ")"%string; s2z "0x"%string ++ d2 ++ s2z " ("%string ++ n2 ++ s2z ")"%string; s2z "0x"%string ++ d3; rh_description h] /\
    parse_nat 16 d1 = Some (rh_event h) /\ parse_nat 16 d2 = Some (rh_type h) /\ parse_nat 16 d3 = Some (rh_sequence h) /\
    documented (rh_event h) n1 [(0x64, s2z "BEGIN_SYSTEM_CHANGE"%string); (0x65, s2z "END_SYSTEM_CHANGE"%string); (0x66, s2z "BEGIN_NESTED_SYSTEM_CHANGE"%string); (0x67, s2z "END_NESTED_SYSTEM_CHANGE"%string)] /\
    documented (rh_type h) n2 [(0, s2z "APPLICATION_INSTALL"%string); (1, s2z "APPLICATION_UNINSTALL"%string); (0xa, s2z "DEVICE_DRIVER_INSTALL"%string); (0xc, s2z "MODIFY_SETTINGS"%string); (0xd, s2z "CANCELLED_OPERATION"%string)].
Proof.
  intros h He Ht Hs. do 5 eexists. split; [reflexivity|]. unfold fmt_x. rewrite !parse_nat_fmt by lia. repeat (split; [reflexivity|]).
  assert (G : forall l v, documented v (rp_name l v) l).
  { intros l v. unfold rp_name, documented. destruct (find _ l) as [[x s]|] eqn:F.
    - left. apply find_some in F as [F Ev]. apply Z.eqb_eq in Ev. cbn [fst] in Ev. subst x. exact F.
    - right. split; [reflexivity|]. intros I. apply in_map_iff in I as ([x s] & Ex & I). cbn [fst] in Ex. subst x. pose proof (find_none _ _ F _ I) as Q. cbn [fst] in Q. rewrite Z.eqb_refl in Q. discriminate. }
  split; apply G.
Qed.
Print Assumptions C83_shown.

Example C83_case :
  let d := le_enc 4 0x64 ++ le_enc 4 0xc ++ le_enc 8 7 ++ [72; 0; 105; 0; 0; 0] in
  let h := mkrph 0x64 0xc 7 [72; 105] in
  read_rp (d ++ [1; 2; 3] ++ le_enc 8 127000000000000000) = Ok (h, [1; 2; 3], 127000000000000000) /\
  read_rp (d ++ repeat 0 7) = Ok (h, repeat 0 7, 0) /\
  read_rp (d ++ repeat 0 6) = Err ValueError /\
  read_rp (le_enc 4 0x64) = Err ParseError /\
  rp_header_texts h = [s2z "0x00000064 (BEGIN_SYSTEM_CHANGE)"%string; s2z "0x0000000c (MODIFY_SETTINGS)"%string; s2z "0x00000007"%string; s2z "Hi"%string].
Proof. repeat split; vm_compute; reflexivity. Qed.

(** Properties of the alias data reader. *)

From Verif Require Import Base BaseFacts CoreModel StrModel StrFacts TextModel SeqModel SeqSpec SeqFacts Utf16Model Utf16Spec RdModel RdSpec RdFacts AliasModel AliasSpec AliasProofs.
From Coq Require String.
Import String.StringSyntax.

(** *** C85: alias data *)

(** A record of alias data is read into its values. *)
Theorem C85_file : forall fuel utf8 content r l, is_bytes content -> len content < Z.of_nat fuel ->
  alias_file utf8 r l content -> read_alias fuel utf8 content = Done (Ok (r, l)).
Proof. intros fuel utf8 content r l Hb Hf H. apply alias_iff; auto. Qed.
Print Assumptions C85_file.

(** Whatever is read is a record of alias data, or a version 2 record that stops within the 28 bytes
    before the tagged values. *)
Theorem C85_sound : forall fuel utf8 content r l, is_bytes content -> len content < Z.of_nat fuel ->
  read_alias fuel utf8 content = Done (Ok (r, l)) -> alias_file utf8 r l content \/ alias_cut r l content.
Proof. intros fuel utf8 content r l Hb Hf. apply alias_iff; auto. Qed.
Print Assumptions C85_sound.

(** The read ends; all other files are refused with ParseError. *)
Theorem C85_ends : forall fuel utf8 content, is_bytes content -> len content < Z.of_nat fuel ->
  exists x, read_alias fuel utf8 content = Done x /\ (forall y, x = Err y -> y = ParseError).
Proof. intros fuel utf8 content. apply alias_ends. Qed.
Print Assumptions C85_ends.

(** Such a cut off version 2 record is accepted. *)
Theorem C85_cut_refuted : forall fuel utf8 content r l, is_bytes content -> len content < Z.of_nat fuel ->
  alias_cut r l content -> read_alias fuel utf8 content = Done (Ok (r, l)) /\ forall l', ~ alias_file utf8 r l' content.
Proof.
  intros fuel utf8 content r l Hb Hf H. split; [apply alias_iff; auto|]. intros l' (_ & d & ds & _ & F). destruct H as (_ & _ & H). destruct r as [r|r]; [|exact H].
  destruct H as (d' & u' & L' & V' & E'). destruct F as (u & L & V & E). apply (f_equal len) in E, E'. rewrite !len_app, header_len in E. rewrite !len_app, header_len in E'.
  pose proof (v2_len _ _ V). pose proof (v2_len _ _ V'). pose proof (len_nonneg (concat ds)). lia.
Qed.
Print Assumptions C85_cut_refuted.

(** The format has "one or more records", the reader refuses alias data with more than one. *)
Theorem C85_records_refuted : forall fuel utf8 r1 r2 rec l, is_bytes (r1 ++ r2) -> r2 <> [] -> alias_file utf8 rec l r1 ->
  read_alias fuel utf8 (r1 ++ r2) = Done (Err ParseError).
Proof. intros fuel utf8 r1 r2 rec l Hb N H. eapply alias_many; eassumption. Qed.
Print Assumptions C85_records_refuted.

(** A record of version 3 with a volume name, the identifiers of two ancestors and a terminator. *)
Definition alias_sample (rest : bytes) : bytes :=
  alias_header (58 + 10 + 12 + 4 + len rest) 3 ++ [0; 1] ++ be_enc 8 7 ++ s2z "H+cu"%string ++ [0; 0] ++ be_enc 4 20 ++ be_enc 4 30 ++ be_enc 8 65536 ++ be_enc 4 9 ++
  repeat 0 14 ++ [0; 0xf; 0; 6; 0; 2; 0; 72; 0; 68] ++ [0; 1; 0; 8; 0; 0; 0; 20; 0; 0; 0; 2] ++ [255; 255; 0; 0] ++ rest.
Definition alias_sample_record : alias_record := AliasV3 (mkav3 1 7 (s2z "H+cu"%string) 0 20 30 65536 9 (repeat 0 14)).
Example C85_case : is_bytes (alias_sample []) /\ len (alias_sample []) = 84 /\
  read_alias 100 (fun d => Some d) (alias_sample []) = Done (Ok (alias_sample_record, [(15, AText (s2z "HD"%string)); (1, AInts [20; 2]); (0xffff, AData [])])) /\
  read_alias 100 (fun d => Some d) (removelast (alias_sample [])) = Done (Err ParseError).
Proof. split; [apply is_bytes_forallb; vm_compute; reflexivity|]. vm_compute. repeat split; reflexivity. Qed.

(** "Indicates the end of the tagged values": data behind the terminator still are read as tagged
    values, a single byte makes the record unreadable. *)
Theorem C85_terminator_refuted : forall utf8,
  read_alias 100 utf8 (alias_sample [0; 3; 0; 1; 7; 0]) =
    Done (Ok (alias_sample_record, [(15, AText (s2z "HD"%string)); (1, AInts [20; 2]); (0xffff, AData []); (3, AData [7])])) /\
  read_alias 100 utf8 (alias_sample [0]) = Done (Err ParseError).
Proof. intros utf8. split; vm_compute; reflexivity. Qed.
Print Assumptions C85_terminator_refuted.

(** Fractions of a second are counted in 65536ths but shown as if they were decimals: half a second is
    shown as .32768, and 200 65536ths as more than 1000. *)
Theorem C85_fraction_refuted : forall hfs n s, hfs n = Some s -> s <> [] -> 0 <= n ->
  hfs_time_text hfs (65536 * n + 32768) = s ++ s2z ".32768 UTC"%string /\
  hfs_time_text hfs (65536 * n + 200) = s ++ s2z ".200 UTC"%string /\
  hfs_time_text hfs (65536 * n + 1000) = s ++ s2z ".1000 UTC"%string.
Proof.
  intros hfs n s H N Hn.
  assert (Q : forall f, 0 < f < 65536 -> hfs_time_text hfs (65536 * n + f) = s ++ s2z "."%string ++ fmt_int 10 3 f ++ s2z " UTC"%string).
  { intros f Hf. unfold hfs_time_text. destruct (Z.eqb_spec (65536 * n + f) 0); [lia|].
    replace (65536 * n + f) with (f + n * 65536) by lia. rewrite Z.div_add, Z.div_small, Z.mod_add, Z.mod_small by lia. cbn [Z.add]. rewrite H. destruct s; [congruence|reflexivity]. }
  rewrite !Q by lia. repeat split; f_equal; reflexivity.
Qed.
Print Assumptions C85_fraction_refuted.

(** Different times are shown differently as long as different dates have different texts of the same
    size; a zero time is "not set". *)
Theorem C85_time : forall hfs v w, 0 <= v -> 0 <= w ->
  (forall n, exists s, hfs n = Some s /\ len s = 19) -> (forall n m, 0 <= n -> 0 <= m -> hfs n = hfs m -> n = m) ->
  hfs_time_text hfs 0 = s2z "Not set (0)"%string /\ (hfs_time_text hfs v = hfs_time_text hfs w -> v = w).
Proof.
  intros hfs v w Hv Hw Hl Hi. split; [reflexivity|].
  assert (Q : forall v, v <> 0 -> exists s, hfs (v / 65536) = Some s /\ len s = 19 /\ hfs_time_text hfs v = s ++ s2z "."%string ++ fmt_int 10 3 (v mod 65536) ++ s2z " UTC"%string).
  { intros x N. destruct (Hl (x / 65536)) as (s & E & L). exists s. split; [exact E|]. split; [exact L|]. unfold hfs_time_text. destruct (Z.eqb_spec x 0); [contradiction|].
    rewrite E. destruct s; [change (len []) with 0 in L; lia|reflexivity]. }
  assert (Q0 : forall v, v <> 0 -> hfs_time_text hfs v <> s2z "Not set (0)"%string).
  { intros x N E. destruct (Q x N) as (s & _ & L & T). rewrite T in E. apply (f_equal len) in E. rewrite len_app, L in E. change (len (s2z "Not set (0)"%string)) with 11 in E.
    pose proof (len_nonneg (s2z "."%string ++ fmt_int 10 3 (x mod 65536) ++ s2z " UTC"%string)). lia. }
  destruct (Z.eq_dec v 0) as [->|Nv]; destruct (Z.eq_dec w 0) as [->|Nw]; intros E; [reflexivity| | |].
  - exfalso. apply (Q0 w Nw). symmetry. exact E.
  - exfalso. apply (Q0 v Nv). exact E.
  - destruct (Q v Nv) as (s & Es & Ls & Ts). destruct (Q w Nw) as (t & Et & Lt & Tt). rewrite Ts, Tt in E.
    apply RpProofs.app_split in E as [<- E]; [|unfold len in Ls, Lt; lia]. apply app_inv_head in E. apply app_inv_tail in E. apply fmt_int_inj in E; [|lia].
    assert (D : v / 65536 = w / 65536) by (apply Hi; [apply Z.div_pos; lia|apply Z.div_pos; lia|congruence]).
    rewrite (Z.div_mod v 65536), (Z.div_mod w 65536), D, E by lia. reflexivity.
Qed.
Print Assumptions C85_time.

Example C85_time_case : hfs_time_text (fun _ => Some (s2z "2020-01-01 00:00:00"%string)) (65536 * 3660681600 + 7) = s2z "2020-01-01 00:00:00.007 UTC"%string.
Proof. vm_compute. reflexivity. Qed.

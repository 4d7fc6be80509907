(** Properties of the output of the Jump List script. *)

From Verif Require Import Base BaseFacts StrModel StrFacts DictModel SpvSpec LdsModel KcsModel KcsProofs JlsModel JlsSpec JlsProofs.
From Coq Require String.
Import String.StringSyntax.

(** *** C117: Entries shown by the Jump List script *)

(** All entries are shown, each of them as on its own and below its number. *)
Theorem C117_entries filetime fat keys entries s : jump_list_script filetime fat keys entries = (s, Ok tt) <->
  exists texts text, Forall2 (fun l t => write_shortcut filetime fat keys l = (t, Ok tt)) entries texts /\ with_numbers (s2z "Entry: ") 1 texts text /\
    s = s2z "Windows Jump List information:" ++ [10] ++ write_value (s2z "Number of entries") (fmt_d (Z.of_nat (length entries))) ++ [10] ++ text.
Proof.
  unfold jump_list_script. rewrite then_ok. split.
  - intros (s1 & s2 & E1 & E2 & ->). apply (f_equal fst) in E1. cbn [printed fst] in E1. subst s1. apply numbered_texts in E2 as (texts & F & W). exists texts, s2. split; [exact F|]. split; [exact W|].
    rewrite <- !app_assoc. reflexivity.
  - intros (texts & text & F & W & ->). do 2 eexists. split; [reflexivity|]. split; [apply numbered_texts; exists texts; split; [exact F|exact W]|]. rewrite <- !app_assoc. reflexivity.
Qed.
Print Assumptions C117_entries.

(** All items of the target of a shortcut are shown, and after them all of its data blocks, below their numbers. *)
Theorem C117_shortcut filetime fat keys l items s : l_items l = Some items -> write_shortcut filetime fat keys l = (s, Ok tt) ->
  exists head itexts itext btexts btext,
    Forall2 (fun i t => write_item filetime fat keys i = (t, Ok tt)) items itexts /\ with_numbers (tabs2 ++ s2z "Shell item: ") 1 itexts itext /\
    Forall2 (fun b t => write_block filetime keys b = (t, Ok tt)) (l_blocks l) btexts /\ with_numbers ([9] ++ s2z "Data block: ") 1 btexts btext /\
    s = head ++ itext ++ btext.
Proof.
  intros I. unfold write_shortcut, write_items. rewrite I. intros H. apply then_ok in H as (s1 & s2 & E1 & E2 & ->). apply then_ok in E2 as (s3 & s4 & E3 & E4 & ->).
  apply then_ok in E3 as (s5 & s6 & E5 & E6 & ->). apply numbered_texts in E6 as (itexts & F & W). apply numbered_texts in E4 as (btexts & G & V).
  exists (s1 ++ s5), itexts, s6, btexts, s4. repeat (split; [assumption|]). rewrite <- !app_assoc. reflexivity.
Qed.
Print Assumptions C117_shortcut.

(** The script fails exactly if a property of one of the entries has a type that is not supported, with RuntimeError. *)
Theorem C117_errors filetime fat keys entries :
  (snd (jump_list_script filetime fat keys entries) = Ok tt <-> forall l p, In l entries -> property_of l p -> supported (p_type p)) /\
  forall e, snd (jump_list_script filetime fat keys entries) = Err e -> e = RuntimeError.
Proof.
  destruct (script_snd filetime fat keys entries) as [[-> H]|[-> H]]; (split; [split|]); try congruence; try tauto. 
Qed.
Print Assumptions C117_errors.

(** A terminal shows all values in the same column, 74, when the description is short enough. *)
Theorem C117_aligned k d v : plain d -> (8 * k + length d < 72)%nat ->
  expand 0 (write_value (repeat 9 k ++ d) v) = repeat 32 (8 * k) ++ d ++ repeat 32 (72 - (8 * k + length d)) ++ s2z ": " ++ expand 74 (v ++ [10]).
Proof. apply value_column. Qed.
Print Assumptions C117_aligned.

(** Two file references are shown alike only if they are the same. The number of the MFT entry and the sequence number are
    shown for references greater than 2^48. *)
Theorem C117_reference r : 0 <= r ->
  (forall r', 0 <= r' -> reference_text r = reference_text r' -> r = r') /\
  (2 ^ 48 < r -> exists entry sequence, r = sequence * 2 ^ 48 + entry /\ 0 <= entry < 2 ^ 48 /\ 1 <= sequence /\
     reference_text r = fmt_d entry ++ s2z "-" ++ fmt_d sequence).
Proof.
  intros Hr. split; [intros r' Hr'; apply reference_inj; assumption|]. intros H. exists (r mod 2 ^ 48), (r / 2 ^ 48).
  pose proof (Z.div_mod r (2 ^ 48) ltac:(lia)). pose proof (Z.mod_pos_bound r (2 ^ 48) ltac:(lia)). split; [lia|]. split; [lia|]. split; [|apply reference_parts, H].
  apply Z.div_le_lower_bound; lia.
Qed.
Print Assumptions C117_reference.

(** The data flags are shown alike exactly if these nine bits are the same. *)
Theorem C117_data_flags f g : flags_lines f = flags_lines g <-> forall i, In i shown_bits -> Z.testbit f i = Z.testbit g i.
Proof. apply flags_iff. Qed.
Print Assumptions C117_data_flags.

Definition ex_lnk (p : prop) : lnk :=
  mklnk 0x81 1 0 0x7fffffffffffffff 5 12 0 1 0 0x20 None (Some (s2z "x")) None None
    (Some [mkitem (IFile 12 0 0x20 (Some (s2z "x"))) None [EFile 0xbeef0004 0 0 (Some (s2z "x.txt")) None (Some (2 ^ 48 + 5))]])
    [mkblock 0xa0000009 None [(s2z "id", [p])]].
Definition no_time (_ : Z) : option str := None.

Example C117_case :
  jump_list_script no_time no_time [] [ex_lnk (mkprop 0x1f 0 (Some (s2z "text")) false [] None 4)] =
    (concat (map (fun s => s ++ [10])
      [s2z "Windows Jump List information:"; s2z "Number of entries" ++ repeat 9 7 ++ s2z ": 1"; []; s2z "Entry: 1";
       [9] ++ s2z "Windows Shortcut information:"; [9; 9] ++ s2z "Contains a link target identifier"; [9] ++ s2z "Number of data blocks" ++ repeat 9 6 ++ s2z ": 1"; [];
       [9] ++ s2z "Link information:"; [9; 9] ++ s2z "Creation time" ++ repeat 9 6 ++ s2z ": Not set (0)";
       [9; 9] ++ s2z "Modification time" ++ repeat 9 5 ++ s2z ": Never (0x7fffffffffffffff)"; [9; 9] ++ s2z "Accesss time" ++ repeat 9 6 ++ s2z ": 0x00000005";
       [9; 9] ++ s2z "File size" ++ repeat 9 6 ++ s2z ": 12"; [9; 9] ++ s2z "Icon index" ++ repeat 9 6 ++ s2z ": 0"; [9; 9] ++ s2z "Show Window value" ++ repeat 9 5 ++ s2z ": 0x00000001";
       [9; 9] ++ s2z "Hot Key value" ++ repeat 9 6 ++ s2z ": 0"; [9; 9] ++ s2z "File attribute flags" ++ repeat 9 5 ++ s2z ": 0x00000020";
       [9; 9] ++ s2z "Description" ++ repeat 9 6 ++ s2z ": "; [9; 9] ++ s2z "Relative path" ++ repeat 9 6 ++ s2z ": x"; [9; 9] ++ s2z "Working directory" ++ repeat 9 5 ++ s2z ": ";
       [9; 9] ++ s2z "Icon location" ++ repeat 9 6 ++ s2z ": "; [];
       [9] ++ s2z "Link target identifier:"; [9; 9] ++ s2z "Shell item list:"; [9; 9; 9] ++ s2z "Number of items" ++ repeat 9 5 ++ s2z ": 1"; [];
       [9; 9] ++ s2z "Shell item: 1"; [9; 9; 9] ++ s2z "Item type" ++ repeat 9 5 ++ s2z ": File Entry"; [9; 9; 9] ++ s2z "File size" ++ repeat 9 5 ++ s2z ": 12";
       [9; 9; 9] ++ s2z "Modification time" ++ repeat 9 4 ++ s2z ": Not set (0)"; [9; 9; 9] ++ s2z "File attribute flags" ++ repeat 9 4 ++ s2z ": 0x0800000020";
       [9; 9; 9] ++ s2z "Name" ++ repeat 9 6 ++ s2z ": x"; [9; 9] ++ s2z "Extension block: 1"; [9; 9; 9] ++ s2z "Signature" ++ repeat 9 5 ++ s2z ": 0xbeef0004";
       [9; 9; 9] ++ s2z "Creation time" ++ repeat 9 5 ++ s2z ": Not set (0)"; [9; 9; 9] ++ s2z "Access time" ++ repeat 9 5 ++ s2z ": Not set (0)";
       [9; 9; 9] ++ s2z "Long name" ++ repeat 9 5 ++ s2z ": x.txt"; [9; 9; 9] ++ s2z "File reference" ++ repeat 9 5 ++ s2z ": 5-1"; [];
       [9] ++ s2z "Data block: 1"; [9; 9] ++ s2z "Signature" ++ repeat 9 6 ++ s2z ": 0xa0000009 (Metadata property store)";
       [9; 9] ++ s2z "Property: {id}/4 (Unknown)"; [9; 9; 9] ++ s2z "Value (0x001f)" ++ repeat 9 5 ++ s2z ": text"; []]), Ok tt).
Proof. vm_compute. reflexivity. Qed.

(** *** Findings *)

(** Not so: the attribute flags of a shell item are shown as those of the shortcut. They are shown after 0x08, as another
    number of ten digits. *)
Theorem C117_flags_refuted f : 0 <= f < 2 ^ 32 ->
  flags_text f = s2z "0x08" ++ fmt_x 8 f /\ length (flags_text f) = 12%nat /\ flags_text f <> s2z "0x" ++ fmt_x 8 f.
Proof.
  intros H. assert (L : len (fmt_x 8 f) = 8) by (apply fmt_int_exact_width; lia). unfold len in L. split; [reflexivity|].
  assert (L12 : length (flags_text f) = 12%nat) by (unfold flags_text; rewrite app_length; change (length (s2z "0x08")) with 4%nat; lia). split; [exact L12|].
  intros E. rewrite E, app_length in L12. change (length (s2z "0x")) with 2%nat in L12. lia.
Qed.
Print Assumptions C117_flags_refuted.

(** Not so: file references with a sequence number are shown with it. That of entry 0 with sequence number 1, the MFT itself,
    is not. *)
Theorem C117_reference_refuted : reference_text (1 * 2 ^ 48 + 0) = s2z "0x1000000000000" /\ reference_text (1 * 2 ^ 48 + 1) = s2z "1-1" /\ reference_text (2 * 2 ^ 48 + 0) = s2z "0-2".
Proof. vm_compute. repeat split. Qed.
Print Assumptions C117_reference_refuted.

(** Not so: one property of a type that is not supported, such as a 16-bit or an unsigned 8-bit integer, does not affect what
    is shown of others. All entries after it are missing. *)
Theorem C117_property_refuted filetime fat keys l after : l_items l = None -> l_blocks l = [mkblock 0xa0000009 None [([], [mkprop 0x12 1 None false [] None 4])]] ->
  jump_list_script filetime fat keys (l :: after) =
    (fst (jump_list_script filetime fat keys (l :: after)), Err RuntimeError) /\
  exists text, forall after', len after' = len after -> fst (jump_list_script filetime fat keys (l :: after')) = text.
Proof.
  intros I B.
  assert (W : exists t, write_shortcut filetime fat keys l = (t, Err RuntimeError)).
  { unfold write_shortcut, write_items. rewrite I, B. eexists. reflexivity. }
  destruct W as (t & W). unfold jump_list_script. cbn [numbered]. rewrite W. cbn [then_print printed fst snd]. split; [reflexivity|].
  eexists. intros after' L. unfold len in *. cbn [length]. rewrite !Nat2Z.inj_succ, L. reflexivity.
Qed.
Print Assumptions C117_property_refuted.

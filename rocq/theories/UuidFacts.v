From Verif Require Import Base BaseFacts StrModel StrFacts UuidModel UuidSpec.

Lemma byte_hex_parse b acc r : is_byte b -> parse_digits 16 (byte_hex b ++ r) acc = parse_digits 16 r (acc * 256 + b).
Proof.
  unfold is_byte. intros Hb. assert (0 <= b / 16 < 16) by (split; [apply Z.div_pos; lia|apply Z.div_lt_upper_bound; lia]).
  pose proof (Z.mod_pos_bound b 16 ltac:(lia)). pose proof (Z.div_mod b 16 ltac:(lia)). unfold byte_hex. cbn [app parse_digits].
  rewrite !char_digit_char by lia. destruct (Z.ltb_spec (b / 16) 16); [|lia]. destruct (Z.ltb_spec (b mod 16) 16); [|lia]. f_equal. lia.
Qed.

Lemma bytes_hex_parse d acc : is_bytes d -> parse_digits 16 (bytes_hex d) acc = Some (fold_left (fun acc b => acc * 256 + b) d acc).
Proof.
  intros H. revert acc. induction H as [|b d Hb Hd IH]; intros acc; [reflexivity|].
  change (bytes_hex (b :: d)) with (byte_hex b ++ bytes_hex d). rewrite byte_hex_parse by exact Hb. apply IH.
Qed.

Lemma bytes_hex_len d : len (bytes_hex d) = 2 * len d.
Proof. induction d as [|b d IH]; [reflexivity|]. change (bytes_hex (b :: d)) with (byte_hex b ++ bytes_hex d). rewrite len_app, IH, len_cons. change (len (byte_hex b)) with 2. lia. Qed.

Lemma bytes_hex_field d : is_bytes d -> d <> [] -> hex_field (2 * len d) (be_int d) (bytes_hex d).
Proof.
  intros H N. split; [apply bytes_hex_len|]. unfold parse_nat. destruct (bytes_hex d) eqn:E; [destruct d; [congruence|discriminate]|].
  rewrite <- E. apply bytes_hex_parse, H.
Qed.

Lemma five_fields (u : bytes) : len u = 16 -> exists a b c d e, u = a ++ b ++ c ++ d ++ e /\ len a = 4 /\ len b = 2 /\ len c = 2 /\ len d = 2 /\ len e = 6.
Proof.
  unfold len. intros L. assert (E : length u = 16%nat) by lia. do 17 (destruct u as [|? u]; try discriminate).
  exists [z; z0; z1; z2], [z3; z4], [z5; z6], [z7; z8], [z9; z10; z11; z12; z13; z14]. repeat split.
Qed.

Lemma uuid_str_fields a b c d e : len a = 4 -> len b = 2 -> len c = 2 -> len d = 2 -> len e = 6 ->
  uuid_str (a ++ b ++ c ++ d ++ e) = join [45] [bytes_hex a; bytes_hex b; bytes_hex c; bytes_hex d; bytes_hex e].
Proof.
  unfold len. intros La Lb Lc Ld Le.
  do 5 (destruct a as [|? a]; try discriminate La; try (cbn in La; lia)). do 3 (destruct b as [|? b]; try (cbn in Lb; lia)).
  do 3 (destruct c as [|? c]; try (cbn in Lc; lia)). do 3 (destruct d as [|? d]; try (cbn in Ld; lia)). do 7 (destruct e as [|? e]; try (cbn in Le; lia)).
  reflexivity.
Qed.

Lemma uuid_le_str_fields a b c d e : len a = 4 -> len b = 2 -> len c = 2 -> len d = 2 -> len e = 6 ->
  uuid_le_str (a ++ b ++ c ++ d ++ e) = uuid_str (rev a ++ rev b ++ rev c ++ d ++ e).
Proof.
  unfold len. intros La Lb Lc Ld Le.
  do 5 (destruct a as [|? a]; try discriminate La; try (cbn in La; lia)). do 3 (destruct b as [|? b]; try (cbn in Lb; lia)).
  do 3 (destruct c as [|? c]; try (cbn in Lc; lia)). do 3 (destruct d as [|? d]; try (cbn in Ld; lia)). do 7 (destruct e as [|? e]; try (cbn in Le; lia)).
  reflexivity.
Qed.

Lemma uuid_fields_text a b c d e : is_bytes (a ++ b ++ c ++ d ++ e) -> len a = 4 -> len b = 2 -> len c = 2 -> len d = 2 -> len e = 6 ->
  uuid_text (be_int a) (be_int b) (be_int c) (be_int d) (be_int e) (uuid_str (a ++ b ++ c ++ d ++ e)).
Proof.
  intros H La Lb Lc Ld Le. rewrite uuid_str_fields by assumption. unfold is_bytes in H. rewrite !Forall_app in H. destruct H as (Ha & Hb & Hc & Hd & He).
  assert (F : forall x n, is_bytes x -> len x = n -> 0 < n -> hex_field (2 * n) (be_int x) (bytes_hex x)).
  { intros x n Hx <- Hn. apply bytes_hex_field; [exact Hx|]. intros ->. change (len (@nil Z)) with 0 in Hn. lia. }
  exists (bytes_hex a), (bytes_hex b), (bytes_hex c), (bytes_hex d), (bytes_hex e).
  split; [apply (F a 4); auto; lia|]. split; [apply (F b 2); auto; lia|]. split; [apply (F c 2); auto; lia|]. split; [apply (F d 2); auto; lia|]. split; [apply (F e 6); auto; lia|]. reflexivity.
Qed.

Lemma uuid_be_text u : is_bytes u -> len u = 16 -> uuid_be u (uuid_str u).
Proof. intros H L. destruct (five_fields u L) as (a & b & c & d & e & -> & La & Lb & Lc & Ld & Le). exists a, b, c, d, e. repeat (split; [assumption || reflexivity|]). apply uuid_fields_text; assumption. Qed.

Lemma uuid_le_text u : is_bytes u -> len u = 16 -> uuid_le u (uuid_le_str u).
Proof.
  intros H L. destruct (five_fields u L) as (a & b & c & d & e & -> & La & Lb & Lc & Ld & Le). exists a, b, c, d, e. repeat (split; [assumption || reflexivity|]).
  rewrite uuid_le_str_fields by assumption. rewrite <- (be_int_rev a), <- (be_int_rev b), <- (be_int_rev c).
  apply uuid_fields_text; try (unfold len; rewrite ?rev_length; assumption). unfold is_bytes in *. rewrite !Forall_app in *. destruct H as (Ha & Hb & Hc & Hd & He). repeat (split; [try apply Forall_rev; assumption|]). assumption.
Qed.

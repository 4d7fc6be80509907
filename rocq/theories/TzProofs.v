From Verif Require Import Base BaseFacts CoreModel CoreProofs VarModel VarFacts StructFacts SeqModel SeqFacts TzModel TzSpec.

Lemma Forall2_repeat {A B} (R : A -> B -> Prop) a l n : length l = n -> Forall (R a) l -> Forall2 R (repeat a n) l.
Proof. intros <- H. induction H; cbn [length repeat]; constructor; assumption. Qed.

(** The members of a header. *)
Definition tz_vals (version : Z) (reserved : bytes) (c : list Z) : list fval :=
  [VB (s2z "TZif"); VI version; VB reserved] ++ map VI c.

Definition tz_raw (version : Z) (reserved : bytes) (c : list Z) : bytes :=
  s2z "TZif" ++ [version] ++ reserved ++ concat (map (be_enc 4) c).

Definition counts_ok (c : list Z) : Prop := length c = 6%nat /\ Forall (fun z => 0 <= z < 2 ^ 32) c.

Lemma tz_vals_ok version reserved c : is_byte version -> length reserved = 15%nat -> is_bytes reserved -> counts_ok c ->
  Forall2 fval_ok tz_layout (tz_vals version reserved c) /\ enc_struct tz_layout (tz_vals version reserved c) = tz_raw version reserved c.
Proof.
  intros Hv Hr Hb [Hl Hc]. split.
  - unfold tz_layout, tz_vals. cbn [app]. constructor; [split; [reflexivity|repeat constructor; unfold is_byte; lia]|].
    constructor; [unfold is_byte in Hv; cbn; lia|]. constructor; [split; assumption|].
    apply Forall2_repeat; [rewrite map_length; exact Hl|]. apply Forall_map. eapply Forall_impl; [|exact Hc].
    intros z Hz. cbn [fval_ok]. change (256 ^ Z.of_nat 4) with (2 ^ 32). exact Hz.
  - destruct c as [|a [|b [|c [|d [|e [|f [|]]]]]]]; try discriminate Hl.
    unfold tz_layout, tz_vals, tz_raw. cbn [app repeat map enc_struct enc_field enc_int concat].
    assert (E : be_enc 1 version = [version]).
    { unfold is_byte in Hv. unfold be_enc. cbn [le_enc rev app]. f_equal. apply Z.mod_small. lia. }
    rewrite E. reflexivity.
Qed.

Lemma tz_header_ok version reserved c rest : is_byte version -> length reserved = 15%nat -> is_bytes reserved -> counts_ok c ->
  tz_read_header (tz_raw version reserved c ++ rest) =
  if existsb (Z.eqb version) [0; 50; 51] then
    match c with [u; s; l; t; y; ch] => Ok (mktzh version u s l t y ch, 44) | _ => Err OtherError end
  else Err ParseError.
Proof.
  intros Hv Hr Hb Hc. destruct (tz_vals_ok version reserved c Hv Hr Hb Hc) as [F E]. unfold tz_read_header.
  rewrite <- E. change (enc_struct tz_layout (tz_vals version reserved c) ++ rest)
    with ([] ++ enc_struct tz_layout (tz_vals version reserved c) ++ rest).
  rewrite read_struct_enc by (auto; reflexivity). cbn [bind].
  destruct Hc as [Hl _]. destruct c as [|a [|b [|c [|d [|e [|f [|]]]]]]]; try discriminate Hl.
  unfold tz_vals. cbn [app map]. rewrite list_eqb_refl. cbn [guard bind].
  destruct (existsb (Z.eqb version) [0; 50; 51]); reflexivity.
Qed.

(** The header in closed form. *)
Definition tz_header_of (content : bytes) : tz_header :=
  mktzh (be_int (zfirstn 1 (zskipn 4 content))) (count_at content 20) (count_at content 24) (count_at content 28)
    (count_at content 32) (count_at content 36) (count_at content 40).

Lemma tz_header_closed content : tz_read_header content =
  if (44 <=? len content) && list_eqb (zfirstn 4 content) (s2z "TZif") && existsb (Z.eqb (tz_version (tz_header_of content))) [0; 50; 51]
  then Ok (tz_header_of content, 44) else Err ParseError.
Proof.
  unfold tz_read_header. rewrite read_struct_fields by (cbn; lia).
  change (0 + Z.of_nat (struct_size tz_layout)) with 44. rewrite (zskipn_0 content) by lia.
  destruct (44 <=? len content); [|reflexivity]. cbn [bind andb].
  unfold tz_layout. cbn [app repeat fields map_field fsize endian_int]. rewrite !zskipn_zskipn by lia.
  change (Z.of_nat 4) with 4. change (Z.of_nat 1) with 1. change (Z.of_nat 15) with 15. cbn [Z.add Pos.add Pos.succ].
  destruct (list_eqb (zfirstn 4 content) (s2z "TZif")); [|reflexivity]. cbn [guard bind andb].
  unfold tz_header_of, count_at. cbn [tz_version].
  destruct (existsb (Z.eqb (be_int (zfirstn 1 (zskipn 4 content)))) [0; 50; 51]); reflexivity.
Qed.

Lemma count_at_nonneg content off : is_bytes content -> 0 <= count_at content off.
Proof. intros H. apply (be_int_bounds (zfirstn 4 (zskipn off content))). apply is_bytes_zfirstn, is_bytes_zskipn, H. Qed.

Lemma tz_information_closed w content : is_bytes content -> (w = 4 \/ w = 8)%nat ->
  match tz_read_header content with
  | Err e => tz_read_information w content = Err e
  | Ok (h, _) =>
      if (0 <? count_at content 32) && (tz_size (Z.of_nat w) content <=? len content)
      then exists l, seq_bs (FS BE w) (count_at content 32) (zfirstn (Z.of_nat w * count_at content 32) (zskipn 44 content)) = Ok l /\
        exists i, seq_bs (FU BE 1) (count_at content 32)
             (zfirstn (count_at content 32) (zskipn (44 + Z.of_nat w * count_at content 32) content)) = Ok i /\
        tz_read_information w content = Ok (h, mktzt l i, tz_size (Z.of_nat w) content)
      else tz_read_information w content = Err ParseError
  end.
Proof.
  intros Hb Hw. unfold tz_read_information. rewrite tz_header_closed.
  destruct ((44 <=? len content) && list_eqb (zfirstn 4 content) (s2z "TZif") && existsb (Z.eqb (tz_version (tz_header_of content))) [0; 50; 51]) eqn:E;
    [|reflexivity]. cbn [bind]. assert (L : 44 <= len content) by lia. clear E.
  pose proof (count_at_nonneg content 20 Hb) as N20. pose proof (count_at_nonneg content 24 Hb) as N24.
  pose proof (count_at_nonneg content 28 Hb) as N28. pose proof (count_at_nonneg content 32 Hb) as N32.
  pose proof (count_at_nonneg content 36 Hb) as N36. pose proof (count_at_nonneg content 40 Hb) as N40.
  unfold tz_read_times, tz_read_index, tz_size, tz_header_of. cbn [tz_version tz_utc tz_standard tz_leap tz_times tz_types tz_chars].
  set (c20 := count_at content 20) in *. set (c24 := count_at content 24) in *. set (c28 := count_at content 28) in *.
  set (c32 := count_at content 32) in *. set (c36 := count_at content 36) in *. set (c40 := count_at content 40) in *.
  assert (W : 0 < Z.of_nat w) by lia.
  destruct (Z.ltb_spec 0 c32) as [P|P]; cbn [andb].
  2:{ assert (c32 = 0) as Z0 by lia. rewrite Z0, Z.mul_0_r. rewrite read_next_ok by lia.
      destruct (Z.leb_spec (44 + 0) (len content)); [|reflexivity]. cbn [bind]. rewrite zfirstn_0 by lia. reflexivity. }
  assert (Hm : 0 <= Z.of_nat w * c32) by nia.
  replace ((Z.of_nat w + 1) * c32) with (Z.of_nat w * c32 + c32) by ring.
  destruct (Z.leb_spec (44 + (Z.of_nat w * c32 + c32) + 6 * c36 + c40 + 8 * c28 + c24 + c20) (len content)) as [B|B].
  - rewrite read_next_ok by lia. destruct (Z.leb_spec (44 + Z.of_nat w * c32) (len content)); [|lia]. cbn [bind].
    destruct (seq_bs_size (FS BE w) c32 (zfirstn (Z.of_nat w * c32) (zskipn 44 content))) as (l & El & _); [cbn; lia|lia| |].
    { rewrite len_zfirstn, len_zskipn. cbn [fsize]. lia. }
    rewrite El. cbn [as_parse_error bind]. rewrite !Z.mul_1_l.
    rewrite read_next_ok by lia. destruct (Z.leb_spec (44 + Z.of_nat w * c32 + c32) (len content)); [|lia]. cbn [bind].
    destruct (seq_bs_size (FU BE 1) c32 (zfirstn c32 (zskipn (44 + Z.of_nat w * c32) content))) as (i & Ei & _); [cbn; lia|lia| |].
    { rewrite len_zfirstn, len_zskipn. cbn [fsize]. lia. }
    rewrite Ei. cbn [as_parse_error bind].
    repeat (rewrite read_next_ok by lia; match goal with |- context [?a <=? len content] => destruct (Z.leb_spec a (len content)); [|lia] end; cbn [bind]).
    exists l. split; [reflexivity|]. exists i. split; [reflexivity|].
    match goal with |- Ok (_, _, ?a) = Ok (_, _, ?b) => replace a with b by lia; reflexivity end.
  - rewrite read_next_ok by lia. destruct (Z.leb_spec (44 + Z.of_nat w * c32) (len content)); [|reflexivity]. cbn [bind].
    destruct (seq_bs_size (FS BE w) c32 (zfirstn (Z.of_nat w * c32) (zskipn 44 content))) as (l & El & _); [cbn; lia|lia| |].
    { rewrite len_zfirstn, len_zskipn. cbn [fsize]. lia. }
    rewrite El. cbn [as_parse_error bind]. rewrite !Z.mul_1_l.
    rewrite read_next_ok by lia. destruct (Z.leb_spec (44 + Z.of_nat w * c32 + c32) (len content)); [|reflexivity]. cbn [bind].
    destruct (seq_bs_size (FU BE 1) c32 (zfirstn c32 (zskipn (44 + Z.of_nat w * c32) content))) as (i & Ei & _); [cbn; lia|lia| |].
    { rewrite len_zfirstn, len_zskipn. cbn [fsize]. lia. }
    rewrite Ei. cbn [as_parse_error bind].
    repeat (rewrite read_next_ok by lia; match goal with |- context [?a <=? len content] => destruct (Z.leb_spec a (len content)); [|reflexivity] end; cbn [bind]).
    exfalso. lia.
Qed.

Lemma tz_raw_len version reserved c : length reserved = 15%nat -> length c = 6%nat -> len (tz_raw version reserved c) = 44.
Proof.
  intros Hr Hl. destruct c as [|a [|b [|c [|d [|e [|f [|]]]]]]]; try discriminate Hl. unfold tz_raw.
  rewrite !len_app. unfold len at 3. rewrite Hr. reflexivity.
Qed.

Definition counts (b : tz_block) : list Z :=
  [len (tb_utc b); len (tb_standard b); len (tb_leap b); len (tb_times b); len (tb_types b); len (tb_chars b)].

Lemma counts_of_ok w b : tz_block_ok w b -> counts_ok (counts b).
Proof.
  intros (_ & _ & _ & _ & _ & H1 & H2 & H3 & H4 & H5 & H6). split; [reflexivity|].
  unfold counts. repeat (apply Forall_cons; [split; [apply len_nonneg|assumption]|]). apply Forall_nil.
Qed.

Lemma tz_counts version reserved b rest w : In version [0; 50; 51] -> length reserved = 15%nat -> is_bytes reserved -> tz_block_ok w b ->
  let content := tz_header_bytes version reserved b ++ rest in
  tz_read_header content = Ok (mktzh version (len (tb_utc b)) (len (tb_standard b)) (len (tb_leap b)) (len (tb_times b)) (len (tb_types b)) (len (tb_chars b)), 44) /\
  count_at content 20 = len (tb_utc b) /\ count_at content 24 = len (tb_standard b) /\ count_at content 28 = len (tb_leap b) /\
  count_at content 32 = len (tb_times b) /\ count_at content 36 = len (tb_types b) /\ count_at content 40 = len (tb_chars b) /\
  44 <= len content /\ zskipn 44 content = rest.
Proof.
  intros Hv Hr Hb Hok content.
  assert (E : tz_read_header content = Ok (mktzh version (len (tb_utc b)) (len (tb_standard b)) (len (tb_leap b)) (len (tb_times b)) (len (tb_types b)) (len (tb_chars b)), 44)).
  { unfold content. change (tz_header_bytes version reserved b) with (tz_raw version reserved (counts b)).
    rewrite tz_header_ok; [| |exact Hr|exact Hb|eapply counts_of_ok; exact Hok].
    - replace (existsb (Z.eqb version) [0; 50; 51]) with true; [reflexivity|].
      symmetry. apply existsb_exists. exists version. split; [exact Hv|apply Z.eqb_refl].
    - cbn [In] in Hv. unfold is_byte. lia. }
  split; [exact E|]. pose proof E as E2. rewrite tz_header_closed in E2.
  destruct (_ && _ && _) in E2; [|discriminate E2].
  assert (E3 : tz_header_of content = mktzh version (len (tb_utc b)) (len (tb_standard b)) (len (tb_leap b)) (len (tb_times b)) (len (tb_types b)) (len (tb_chars b)))
    by congruence.
  pose proof (f_equal tz_utc E3) as F1. pose proof (f_equal tz_standard E3) as F2. pose proof (f_equal tz_leap E3) as F3.
  pose proof (f_equal tz_times E3) as F4. pose proof (f_equal tz_types E3) as F5. pose proof (f_equal tz_chars E3) as F6.
  cbn [tz_header_of tz_utc tz_standard tz_leap tz_times tz_types tz_chars] in F1, F2, F3, F4, F5, F6.
  assert (L : len (tz_header_bytes version reserved b) = 44)
    by (apply (tz_raw_len version reserved (counts b)); [exact Hr|reflexivity]).
  split; [exact F1|]. split; [exact F2|]. split; [exact F3|]. split; [exact F4|]. split; [exact F5|]. split; [exact F6|].
  unfold content. split; [rewrite len_app, L; pose proof (len_nonneg rest); lia|]. apply zskipn_app_len. symmetry. exact L.
Qed.

Lemma len_concat_map {A} (f : A -> bytes) n l : (forall x, In x l -> len (f x) = n) -> len (concat (map f l)) = n * len l.
Proof.
  intros H. induction l as [|x l IH]; [cbn; lia|]. cbn [map concat]. rewrite len_app, len_cons, H by (left; reflexivity).
  rewrite IH by (intros y Hy; apply H; right; exact Hy). lia.
Qed.

Lemma len_concat (n : nat) (l : list bytes) : Forall (fun d => length d = n) l -> len (concat l) = Z.of_nat n * len l.
Proof.
  intros H. rewrite <- (map_id l) at 1. apply len_concat_map. intros x Hx. unfold len. rewrite Forall_forall in H. now rewrite (H x Hx).
Qed.

Lemma tz_body_len w b : tz_block_ok w b ->
  len (tz_body w b) = (Z.of_nat w + 1) * len (tb_times b) + 6 * len (tb_types b) + len (tb_chars b) + (Z.of_nat w + 4) * len (tb_leap b) +
    len (tb_standard b) + len (tb_utc b).
Proof.
  intros (_ & _ & Hi & Ht & Hl & _). unfold tz_body. rewrite !len_app.
  rewrite (len_concat_map _ (Z.of_nat w)) by (intros; apply len_be_enc). rewrite (len_concat 6) by exact Ht. rewrite (len_concat (w + 4)) by exact Hl.
  assert (L : len (tb_index b) = len (tb_times b)) by (unfold len; rewrite Hi; reflexivity). rewrite L. lia.
Qed.

Lemma seq_bs_head k n d l : seq_bs k n d = Ok l -> 0 < n -> exists r, l = match map_field k (firstn (fsize k) d) with VI z => z | VB _ => 0 end :: r.
Proof.
  intros H Hn. unfold seq_bs, struct_bs in H. destruct d as [|b d]; [discriminate|].
  destruct (Z.to_nat n) as [|m] eqn:Em; [lia|]. cbn [repeat] in H. remember (b :: d) as bd. cbn [map_struct] in H.
  destruct (Nat.ltb (length bd) (fsize k)); [discriminate|].
  destruct (map_struct (repeat k m) (skipn (fsize k) bd)) as [vs|]; [|discriminate]. cbn [bind] in H.
  exists (ints vs). unfold ints in *. cbn [map] in H. congruence.
Qed.

Lemma be_int_app2 a b : be_int (a ++ b) = be_int a * 256 ^ len b + be_int b.
Proof.
  unfold be_int. rewrite fold_left_app. generalize (fold_left (fun acc x => acc * 256 + x) a 0). intros v.
  revert v. induction b as [|x b IH]; intros v.
  - cbn [fold_left]. rewrite len_nil. lia.
  - cbn [fold_left]. rewrite (IH (v * 256 + x)), (IH (0 * 256 + x)). rewrite len_cons. rewrite Z.pow_add_r by (pose proof (len_nonneg b); lia). ring.
Qed.

Lemma glue t1 t2 : - 2 ^ 31 <= t1 < 2 ^ 31 ->
  to_signed 8 (be_int (be_enc 4 (t1 mod 256 ^ Z.of_nat 4) ++ be_enc 4 (t2 mod 256 ^ Z.of_nat 4))) = t1 * 2 ^ 32 + t2 mod 2 ^ 32.
Proof.
  intros H. rewrite be_int_app2, len_be_enc. change (256 ^ Z.of_nat 4) with 4294967296.
  rewrite !be_int_enc by (change (256 ^ Z.of_nat 4) with 4294967296; apply Z.mod_pos_bound; lia).
  unfold to_signed. change (2 ^ (8 * Z.of_nat 8 - 1)) with 9223372036854775808. change (2 ^ (8 * Z.of_nat 8)) with 18446744073709551616.
  change (2 ^ 32) with 4294967296. change (2 ^ 31) with 2147483648 in H. pose proof (Z.mod_pos_bound t2 4294967296 ltac:(lia)).
  assert (E : t1 mod 4294967296 = if t1 <? 0 then t1 + 4294967296 else t1).
  { destruct (Z.ltb_spec t1 0); lia. }
  rewrite E. generalize dependent (t2 mod 4294967296). intros v Hv. clear E.
  destruct (Z.ltb_spec t1 0); match goal with |- (if ?c then _ else _) = _ => destruct c eqn:C end; lia.
Qed.

From Verif Require Import Base BaseFacts CoreModel SeqSpec SeqFacts StrModel StrFacts BitFacts FmtModel RdModel RdSpec RdFacts CatModel CatSpec CatProofs TextModel UuidModel UuidSpec UuidFacts DecModel DecSpec.
From Coq Require String.
Import String.StringSyntax.

(** ** Tables *)

Lemma name_of_named l n : NoDup (map fst l) -> named l n (known_or l n).
Proof.
  unfold known_or, named. induction l as [|[k s] l IH]; intros N; cbn [name_of].
  - right. split; [intros []|reflexivity].
  - inversion N as [|? ? Hn N']; subst. destruct (Z.eqb_spec k n) as [->|Hk].
    + left. exists s. split; [left; reflexivity|reflexivity].
    + destruct (IH N') as [(t & I & E)|[I E]].
      * left. exists t. split; [right; exact I|exact E].
      * right. split; [|exact E]. intros [H|H]; [exact (Hk H)|exact (I H)].
Qed.

Lemma name_of_code l n : NoDup (map fst l) -> code_text l n (name_or l n "?"%string).
Proof.
  unfold name_or, code_text. induction l as [|[k s] l IH]; intros N; cbn [name_of].
  - right. split; [intros []|reflexivity].
  - inversion N as [|? ? Hn N']; subst. destruct (Z.eqb_spec k n) as [->|Hk].
    + left. exists s. split; [left; reflexivity|reflexivity].
    + destruct (IH N') as [(t & I & E)|[I E]].
      * left. exists t. split; [right; exact I|exact E].
      * right. split; [|exact E]. intros [H|H]; [exact (Hk H)|exact (I H)].
Qed.

Definition nodupb (l : list Z) : bool := (fix go (l : list Z) := match l with [] => true | x :: l => negb (existsb (Z.eqb x) l) && go l end) l.

Lemma nodupb_spec l : nodupb l = true -> NoDup l.
Proof.
  induction l as [|x l IH]; intros H; [constructor|]. change (negb (existsb (Z.eqb x) l) && nodupb l = true) in H.
  apply andb_true_iff in H as [H1 H2]. constructor; [|apply IH; exact H2]. intros I. apply negb_true_iff in H1.
  assert (T : existsb (Z.eqb x) l = true) by (apply existsb_exists; exists x; split; [exact I|apply Z.eqb_refl]). congruence.
Qed.

(** The negative numbers of the table of errors are not reached. *)
Lemma known_skip n l : 0 <= n -> known_or darwin_errors n = known_or l n \/ l <> numbered errno_texts.
Proof.
  intros Hn. destruct (list_eq_dec (fun a b : Z * String.string => ltac:(decide equality; [apply String.string_dec|apply Z.eq_dec])) l (numbered errno_texts)) as [->|H]; [|right; exact H].
  left. change darwin_errors with
    ([((-1), "Restart syscall"%string); ((-2), "Don't modify regs, just return"%string); ((-5), "Restart lookup under heavy vnode pressure/recycling"%string);
      ((-6), "Red drive open"%string); ((-7), "Keep looking"%string); ((-8), "Data less"%string)] ++ numbered errno_texts).
  unfold known_or. cbn [app name_of]. repeat match goal with |- context [?k =? n] => replace (k =? n) with false by (symmetry; apply Z.eqb_neq; lia) end. reflexivity.
Qed.

Lemma errors_named n : 0 <= n -> named (numbered errno_texts) n (known_or darwin_errors n).
Proof.
  intros Hn. destruct (known_skip n (numbered errno_texts) Hn) as [->|H]; [|congruence]. apply name_of_named, nodupb_spec. vm_compute. reflexivity.
Qed.

Ltac table_named := match goal with |- named ?l ?n (known_or ?m ?n) => change m with l; apply name_of_named, nodupb_spec; vm_compute; reflexivity end.

(** ** Sizes *)

Lemma sized_if n d s (P : str -> Prop) : (len d = n -> P s) -> sized n d (Ok (if len d =? n then s else unsupported_value)) P.
Proof.
  intros H. unfold sized. destruct (Z.eqb_spec (len d) n) as [E|E]; [left; split; [exact E|]; exists s; split; [reflexivity|exact (H E)]|right; split; [exact E|reflexivity]].
Qed.

Lemma list4 {A} (d : list A) : len d = 4 -> exists a b c e, d = [a; b; c; e].
Proof. intros H. unfold len in H. do 4 (destruct d as [|? d]; [cbn in H; lia|]). destruct d; [eauto 10|cbn in H; lia]. Qed.

Lemma le_int_zero d : is_bytes d -> (le_int d = 0 <-> Forall (fun b => b = 0) d).
Proof.
  induction 1 as [|b d Hb Hd IH]; cbn [le_int]; [split; [constructor|reflexivity]|]. pose proof (le_int_bounds d Hd). unfold is_byte in Hb. split.
  - intros H0. constructor; [lia|]. apply IH. lia.
  - intros F. apply Forall_cons_iff in F as [-> F]. apply IH in F. lia.
Qed.

Lemma bool_outcome d r no yes : is_bytes d -> r = Ok (if le_int d =? 0 then s2z no else s2z yes) ->
  (Forall (fun b => b = 0) d /\ r = Ok (s2z no)) \/ (Exists (fun b => b <> 0) d /\ r = Ok (s2z yes)).
Proof.
  intros Hb ->. destruct (Z.eqb_spec (le_int d) 0) as [E|E].
  - left. split; [apply le_int_zero; assumption|reflexivity].
  - right. split; [|reflexivity]. rewrite Exists_exists. clear -E Hb. induction Hb as [|b d Hb Hd IH]; cbn [le_int] in E; [lia|].
    destruct (Z.eq_dec b 0) as [->|H]; [|exists b; split; [left; reflexivity|exact H]]. destruct IH as (c & I & N); [lia|]. exists c. split; [right; exact I|exact N].
Qed.

(** ** File modes *)

Lemma land_pow2 n k : 0 <= k -> (Z.land n (2 ^ k) =? 0) = negb (Z.testbit n k).
Proof.
  intros Hk. destruct (Z.testbit n k) eqn:T; cbn [negb].
  - apply Z.eqb_neq. intros E. assert (F : Z.testbit (Z.land n (2 ^ k)) k = true) by (rewrite Z.land_spec, T, Z.pow2_bits_true by lia; reflexivity).
    rewrite E, Z.bits_0 in F. discriminate.
  - apply Z.eqb_eq. apply Z.bits_inj'. intros m Hm. rewrite Z.land_spec, Z.bits_0. destruct (Z.eq_dec m k) as [->|N]; [rewrite T; reflexivity|].
    rewrite Z.pow2_bits_false by lia. apply andb_false_r.
Qed.

Lemma flag_char_bit n k c : 0 <= k -> flag_char n (2 ^ k) c = if Z.testbit n k then c else 45.
Proof. intros Hk. unfold flag_char. rewrite land_pow2 by exact Hk. destruct (Z.testbit n k); reflexivity. Qed.

Lemma land_f000 n : Z.land n 0xf000 = (n / 4096 mod 16) * 4096.
Proof.
  replace 0xf000 with (Z.shiftl 15 12) by reflexivity. change 4096 with (2 ^ 12). rewrite <- Z.shiftr_div_pow2, <- Z.shiftl_mul_pow2 by lia.
  change 16 with (2 ^ 4). rewrite <- Z.land_ones by lia. change (Z.ones 4) with 15. apply Z.bits_inj'. intros m Hm. rewrite Z.land_spec, !Z.shiftl_spec by lia.
  rewrite Z.land_spec. destruct (Z.ltb_spec m 12) as [H|H].
  - rewrite (Z.testbit_neg_r 15) by lia. rewrite !andb_false_r. reflexivity.
  - rewrite Z.shiftr_spec by lia. replace (m - 12 + 12) with m by lia. reflexivity.
Qed.

Lemma type_char_name n : (match name_of file_types (Z.land n 0xf000) with Some s => s | None => [45] end) = [type_char (n / 4096 mod 16)].
Proof.
  rewrite land_f000. pose proof (Z.mod_pos_bound (n / 4096) 16 ltac:(lia)). set (t := n / 4096 mod 16) in *.
  unfold type_char, file_types. cbn [name_of].
  assert (E : forall k, (k * 4096 =? t * 4096) = (t =? k)) by (intros k; destruct (Z.eqb_spec t k) as [->|N]; [apply Z.eqb_refl|apply Z.eqb_neq; lia]).
  change 4096 with (1 * 4096) at 1. change 8192 with (2 * 4096). change 16384 with (4 * 4096). change 24576 with (6 * 4096). change 40960 with (10 * 4096). change 49152 with (12 * 4096).
  rewrite !E. destruct (t =? 1), (t =? 2), (t =? 4), (t =? 6), (t =? 10), (t =? 12); reflexivity.
Qed.

Lemma mode_outcome d o : exists s, dec_mode (Some d) o = Ok s /\ mode_text (le_int d) s.
Proof.
  unfold dec_mode. cbn [need bind]. eexists. split; [reflexivity|]. rewrite type_char_name. set (n := le_int d).
  eexists. split; [reflexivity|]. split; [reflexivity|]. intros i Hi.
  change 0x0100 with (2 ^ 8). change 0x0080 with (2 ^ 7). change 0x0040 with (2 ^ 6). change 0x0020 with (2 ^ 5). change 0x0010 with (2 ^ 4).
  change 0x0008 with (2 ^ 3). change 0x0004 with (2 ^ 2). change 0x0002 with (2 ^ 1). change 0x0001 with (2 ^ 0).
  rewrite !flag_char_bit by lia.
  assert (C : i = 0 \/ i = 1 \/ i = 2 \/ i = 3 \/ i = 4 \/ i = 5 \/ i = 6 \/ i = 7 \/ i = 8) by lia.
  repeat destruct C as [->|C]; try subst i; reflexivity.
Qed.

(** ** Groups of 16 bits *)

Lemma octet_pairs_groups n : forall d, length d = (2 * n)%nat -> is_bytes d -> groups (octet_pairs d) d.
Proof.
  induction n as [|n IH]; intros d L Hb.
  - destruct d; [|discriminate]. split; [constructor|reflexivity].
  - destruct d as [|a [|b d]]; [cbn in L; lia|cbn in L; lia|]. apply Forall_cons_iff in Hb as [Ha Hb]. apply Forall_cons_iff in Hb as [Hb Hd].
    destruct (IH d ltac:(cbn in L; lia) Hd) as [F E]. unfold is_byte in *. cbn [octet_pairs]. rewrite lor_shiftl by (change (2 ^ 8) with 256; lia). change (2 ^ 8) with 256. split.
    + constructor; [lia|exact F].
    + cbn [flat_map app]. rewrite <- E. f_equal; [|f_equal].
      * rewrite Z.div_add_l by lia. rewrite (Z.div_small b) by lia. lia.
      * rewrite Z.add_comm, Z_mod_plus_full, Z.mod_small by lia. reflexivity.
Qed.

Lemma groups_len g d : groups g d -> len d = 2 * len g.
Proof. intros [_ ->]. induction g as [|a g IH]; [reflexivity|]. cbn [flat_map app]. rewrite !len_cons, IH. lia. Qed.

(** ** End-of-string characters *)

Lemma rstrip_trimmed t : trimmed t (rstrip 0 t).
Proof.
  unfold trimmed. induction t as [|c t (k & E & N)]; [exists 0%nat; split; [reflexivity|left; reflexivity]|]. cbn [rstrip]. destruct (rstrip 0 t) as [|y r] eqn:R.
  - destruct (Z.eqb_spec c 0) as [->|H].
    + exists (S k). split; [rewrite E; reflexivity|left; reflexivity].
    + exists k. split; [rewrite E; reflexivity|right; exact H].
  - exists k. split; [rewrite E; reflexivity|]. right. destruct N as [N|N]; [discriminate|]. exact N.
Qed.

Lemma escape_join u : flat_map (fun c => if c =? 47 then [92; 47] else [c]) u = join (s2z "\/"%string) (split_on 47 u).
Proof.
  change (s2z "\/"%string) with [92; 47].
  induction u as [|c u IH]; [reflexivity|]. cbn [flat_map split_on]. rewrite IH. pose proof (split_on_nonempty 47 u) as N.
  destruct (split_on 47 u) as [|h t]; [congruence|]. destruct (Z.eqb_spec c 47) as [->|H].
  - reflexivity.
  - destruct t; reflexivity.
Qed.

(** ** Base64 *)

Lemma b64_char_digit v : 0 <= v < 64 -> b64_char v = b64_digit v.
Proof.
  intros H. assert (A : forallb (fun k => b64_char (Z.of_nat k) =? b64_digit (Z.of_nat k)) (seq 0 64) = true) by (vm_compute; reflexivity).
  rewrite forallb_forall in A. specialize (A (Z.to_nat v)). rewrite Z2Nat.id in A by lia. apply Z.eqb_eq, A. apply in_seq. lia.
Qed.

Lemma b64_first a : is_byte a -> Z.shiftr a 2 = a / 4 /\ 0 <= a / 4 < 64.
Proof. unfold is_byte. intros H. rewrite Z.shiftr_div_pow2 by lia. change (2 ^ 2) with 4. split; [reflexivity|]. split; [apply Z.div_pos; lia|apply Z.div_lt_upper_bound; lia]. Qed.

Lemma b64_second a b : is_byte b -> Z.lor (Z.shiftl (Z.land a 3) 4) (Z.shiftr b 4) = (a mod 4) * 16 + b / 16 /\ 0 <= (a mod 4) * 16 + b / 16 < 64.
Proof.
  unfold is_byte. intros H. assert (0 <= b / 16 < 16) by (split; [apply Z.div_pos; lia|apply Z.div_lt_upper_bound; lia]). pose proof (Z.mod_pos_bound a 4 ltac:(lia)).
  rewrite (land_mask a 2 3) by (try reflexivity; lia). rewrite (Z.shiftr_div_pow2 b 4) by lia. change (2 ^ 4) with 16. rewrite lor_shiftl by (change (2 ^ 4) with 16; lia). change (2 ^ 4) with 16. change (2 ^ 2) with 4. lia.
Qed.

Lemma b64_third b c : is_byte c -> Z.lor (Z.shiftl (Z.land b 15) 2) (Z.shiftr c 6) = (b mod 16) * 4 + c / 64 /\ 0 <= (b mod 16) * 4 + c / 64 < 64.
Proof.
  unfold is_byte. intros H. assert (0 <= c / 64 < 4) by (split; [apply Z.div_pos; lia|apply Z.div_lt_upper_bound; lia]). pose proof (Z.mod_pos_bound b 16 ltac:(lia)).
  rewrite (land_mask b 4 15) by (try reflexivity; lia). rewrite (Z.shiftr_div_pow2 c 6) by lia. change (2 ^ 6) with 64. rewrite lor_shiftl by (change (2 ^ 2) with 4; lia). change (2 ^ 4) with 16. change (2 ^ 2) with 4. lia.
Qed.

Lemma b64_fourth c : Z.land c 63 = c mod 64.
Proof. rewrite (land_mask c 6 63) by (try reflexivity; lia). reflexivity. Qed.

Lemma b64encode_spec d : is_bytes d -> base64 d (b64encode d).
Proof.
  assert (G : forall n d, (length d <= n)%nat -> is_bytes d -> base64 d (b64encode d)).
  2:{ intros H. exact (G (length d) d (le_n _) H). }
  clear d. induction n as [|n IH]; intros d L Hd; [destruct d; [constructor|cbn in L; lia]|].
  destruct d as [|a [|b [|c d]]]; cbn [b64encode].
  - constructor.
  - apply Forall_cons_iff in Hd as [Ha _]. destruct (b64_first a Ha) as [E1 B1]. rewrite E1.
    assert (E2 : Z.shiftl (Z.land a 3) 4 = (a mod 4) * 16) by (rewrite (land_mask a 2 3) by (try reflexivity; lia); rewrite Z.shiftl_mul_pow2 by lia; reflexivity).
    rewrite E2. pose proof (Z.mod_pos_bound a 4 ltac:(lia)). rewrite !b64_char_digit by lia.
    replace (a / 4) with (a * 16 / 64) by (change 64 with (4 * 16); rewrite Z.div_mul_cancel_r by lia; reflexivity).
    replace (a mod 4 * 16) with (a * 16 mod 64) by (change 64 with (4 * 16); rewrite Zmult_mod_distr_r; reflexivity). constructor. reflexivity.
  - apply Forall_cons_iff in Hd as [Ha Hd]. apply Forall_cons_iff in Hd as [Hb _]. destruct (b64_first a Ha) as [E1 B1]. destruct (b64_second a b Hb) as [E2 B2]. rewrite E1, E2.
    assert (E3 : Z.shiftl (Z.land b 15) 2 = (b mod 16) * 4) by (rewrite (land_mask b 4 15) by (try reflexivity; lia); rewrite Z.shiftl_mul_pow2 by lia; reflexivity).
    rewrite E3. pose proof (Z.mod_pos_bound b 16 ltac:(lia)). rewrite !b64_char_digit by lia.
    pose (n' := (a * 256 + b) * 4). unfold is_byte in *.
    replace (a / 4) with (n' / 4096) by (subst n'; clear -Ha Hb; Z.div_mod_to_equations; lia).
    replace (a mod 4 * 16 + b / 16) with (n' / 64 mod 64) by (subst n'; clear -Ha Hb; Z.div_mod_to_equations; lia).
    replace (b mod 16 * 4) with (n' mod 64) by (subst n'; clear -Ha Hb; Z.div_mod_to_equations; lia). constructor. reflexivity.
  - apply Forall_cons_iff in Hd as [Ha Hd]. apply Forall_cons_iff in Hd as [Hb Hd]. apply Forall_cons_iff in Hd as [Hc Hd].
    destruct (b64_first a Ha) as [E1 B1]. destruct (b64_second a b Hb) as [E2 B2]. destruct (b64_third b c Hc) as [E3 B3]. rewrite E1, E2, E3, b64_fourth.
    pose proof (Z.mod_pos_bound c 64 ltac:(lia)). rewrite !b64_char_digit by lia. pose (n' := (a * 256 + b) * 256 + c). unfold is_byte in *.
    replace (a / 4) with (n' / 262144) by (subst n'; clear -Ha Hb Hc; Z.div_mod_to_equations; lia).
    replace (a mod 4 * 16 + b / 16) with (n' / 4096 mod 64) by (subst n'; clear -Ha Hb Hc; Z.div_mod_to_equations; lia).
    replace (b mod 16 * 4 + c / 64) with (n' / 64 mod 64) by (subst n'; clear -Ha Hb Hc; Z.div_mod_to_equations; lia).
    replace (c mod 64) with (n' mod 64) by (subst n'; clear -Ha Hb Hc; Z.div_mod_to_equations; lia).
    apply base64_3; [reflexivity|]. apply IH; [cbn in L; lia|exact Hd].
Qed.

(** ** Structures *)

Lemma firstn_len {A} (d : list A) n : (Z.of_nat n <=? len d) = true -> len (firstn n d) = Z.of_nat n.
Proof. intros H. unfold len in *. rewrite firstn_length. lia. Qed.

Lemma skipn_add {A} (l : list A) n : forall m, skipn n (skipn m l) = skipn (m + n) l.
Proof. intros m. revert l. induction m as [|m IH]; intros l; [reflexivity|]. destruct l; [cbn; apply skipn_nil|apply IH]. Qed.

Fixpoint locate (ms : members) (name : String.string) (off : nat) : option (nat * member_type) :=
  match ms with
  | [] => None
  | (k, t) :: ms => if String.eqb k name then Some (off, t) else locate ms name (off + member_size t)
  end.

Lemma attribute_locate ms name : forall d off e l, d = skipn off e -> map_members ms d = Ok l ->
  attribute l name = match locate ms name off with Some (o, t) => Some (member_of t (firstn (member_size t) (skipn o e))) | None => None end.
Proof.
  induction ms as [|[k t] ms IH]; intros d off e l -> M; cbn [map_members] in M; [injection M as <-; reflexivity|].
  destruct (Z.of_nat (member_size t) <=? len (skipn off e)) eqn:G; cbn [guard bind] in M; [|discriminate].
  destruct (map_members ms _) as [l'|] eqn:M'; cbn [bind] in M; [|discriminate]. injection M as <-. cbn [attribute locate].
  destruct (String.eqb k name); [reflexivity|]. apply (IH _ (off + member_size t)%nat e _) in M'; [exact M'|]. apply skipn_add.
Qed.

Definition members_size (ms : members) : Z := fold_right (fun m n => Z.of_nat (member_size (snd m)) + n) 0 ms.

Lemma map_members_ok ms : forall d, members_size ms <= len d -> exists l, map_members ms d = Ok l.
Proof.
  induction ms as [|[k t] ms IH]; intros d L; cbn [map_members]; [eexists; reflexivity|]. cbn [members_size fold_right snd] in L. fold (members_size ms) in L.
  assert (0 <= members_size ms) by (clear; induction ms as [|m ms IH]; cbn [members_size fold_right]; [lia|]; fold (members_size ms); lia).
  destruct (Z.leb_spec (Z.of_nat (member_size t)) (len d)) as [G|G]; [|lia]. cbn [guard bind].
  destruct (IH (skipn (member_size t) d)) as [l E]; [unfold len in *; rewrite skipn_length; lia|]. rewrite E. cbn [bind]. eexists. reflexivity.
Qed.

Definition derived (ms : members) (mappings : list (String.string * String.string)) : list (String.string * nat * member_type) :=
  flat_map (fun m => match locate ms (snd m) 0 with Some (o, t) => [(fst m, o, t)] | None => [] end) mappings.

Lemma mapped_derived x ms d l : map_members ms d = Ok l -> forall mappings ts,
  Forall2 (fun f t => exists u, DecModel.member_text x (member_of (snd f) (firstn (member_size (snd f)) (skipn (snd (fst f)) d))) = Ok u /\
            t = [34] ++ s2z (fst (fst f)) ++ [34; 58] ++ u) (derived ms mappings) ts ->
  mapped_texts x l mappings = Ok ts.
Proof.
  intros M. induction mappings as [|[name a] mappings IH]; intros ts F; cbn [mapped_texts derived flat_map] in *; [inversion F; reflexivity|].
  rewrite (attribute_locate ms a d 0 d l eq_refl M). cbn [snd fst] in F. destruct (locate ms a 0) as [[o t]|].
  - cbn [app] in F. inversion F as [|? ? ? ts' (u & E & ->) F']; subst. cbn [fst snd] in *. rewrite E. cbn [bind]. rewrite (IH _ F'). reflexivity.
  - apply IH, F.
Qed.

Definition type_of (a : stored_as) : member_type := match a with ABool => MBool 1 | AUnsigned n => MUnsigned n | ASigned n => MSigned n | ADouble => MFloat end.
Definition in_model (f : String.string * Z * stored_as) : String.string * nat * member_type := (fst (fst f), Z.to_nat (snd (fst f)), type_of (snd f)).

Lemma firstn1 (d : bytes) o : le_int (firstn 1 (skipn o d)) = nth o d 0.
Proof.
  revert d. induction o as [|o IH]; intros d.
  - destruct d as [|b d]; [reflexivity|]. cbn. lia.
  - destruct d as [|b d]; [reflexivity|]. apply IH.
Qed.

Lemma manager_outcome x ms d : len d = members_size ms -> (0 < len d) -> plain_floats x ->
  derived ms manager_mappings = map in_model (filter (fun f => snd (fst f) <? members_size ms) manager_layout) ->
  Forall (fun f => snd f = ADouble -> 0 <= snd (fst f) /\ snd (fst f) + 8 <= members_size ms) (filter (fun f => snd (fst f) <? members_size ms) manager_layout) ->
  exists s, (do l <- read_members ms d; format_structure x l manager_mappings) = Ok s /\ manager_text x d s.
Proof.
  intros L P X D B. destruct (map_members_ok ms d ltac:(lia)) as [l M].
  assert (R : read_members ms d = Ok l) by (destruct d; [cbn in P; lia|exact M]). rewrite R. cbn [bind]. unfold format_structure, manager_text. rewrite L.
  set (fs := filter (fun f => snd (fst f) <? members_size ms) manager_layout) in *. clearbody fs.
  assert (T : exists ts, Forall2 (stored_text x d) fs ts).
  { clear D. induction B as [|f fs Hf B IH]; [exists []; constructor|]. destruct IH as [ts F]. destruct f as [[name off] a]. cbn [fst snd] in Hf.
    assert (exists t, stored_text x d (name, off, a) t) as [t Ht].
    { unfold stored_text. destruct a; try (eexists; eexists; split; reflexivity). destruct (X (window d off 8)) as [u U].
      - unfold window, len in *. rewrite firstn_length, skipn_length. specialize (Hf eq_refl). lia.
      - exists (json_member name u), u. split; [reflexivity|exact U]. }
    exists (t :: ts). constructor; assumption. }
  destruct T as [ts F]. exists ([123] ++ join [44] ts ++ [125]). split.
  - rewrite (mapped_derived x ms d l M manager_mappings ts); [reflexivity|]. rewrite D. clear -F. induction F as [|[[name off] a] t fs ts (u & -> & H) F IH]; [constructor|].
    cbn [map in_model fst snd]. constructor; [|exact IH]. cbn [fst snd]. exists u. split; [|reflexivity].
    unfold in_model. destruct a; cbn [fst snd type_of member_size member_of DecModel.member_text].
    + rewrite firstn1, H. destruct (nth _ _ _ =? 0); reflexivity.
    + rewrite H. reflexivity.
    + rewrite H. reflexivity.
    + exact H.
  - exists ts. split; [exact F|reflexivity].
Qed.

Lemma dec_manager_outcome x d o : outcome x KManager d o (dec_manager_state x (Some d) o).
Proof.
  unfold outcome, dec_manager_state. cbn [need bind]. destruct (Z.eqb_spec (len d) 64) as [E|E]; [|destruct (Z.eqb_spec (len d) 72) as [E'|E']].
  - left. split; [left; exact E|]. intros X. apply manager_outcome; [exact E|lia|exact X|vm_compute; reflexivity|].
    apply Forall_forall. intros f Hf. vm_compute in Hf. repeat destruct Hf as [<-|Hf]; try destruct Hf; cbn [fst snd]; try discriminate; intros _; change (members_size manager_state_v1) with 64; lia.
  - left. split; [right; exact E'|]. intros X. apply manager_outcome; [exact E'|lia|exact X|vm_compute; reflexivity|].
    apply Forall_forall. intros f Hf. vm_compute in Hf. repeat destruct Hf as [<-|Hf]; try destruct Hf; cbn [fst snd]; try discriminate; intros _; change (members_size manager_state_v2) with 72; lia.
  - right. split; [exact E|]. split; [exact E'|reflexivity].
Qed.

Lemma split_bytes (d : bytes) a b : is_bytes d -> len d = Z.of_nat a + b -> 0 <= b ->
  exists v r, d = le_enc a v ++ r /\ 0 <= v < 256 ^ Z.of_nat a /\ len r = b /\ is_bytes r /\ firstn a d = le_enc a v /\ skipn a d = r /\ le_int (firstn a d) = v.
Proof.
  intros Hd L Hb. exists (le_int (firstn a d)), (skipn a d). unfold len in *. assert (Lf : length (firstn a d) = a) by (rewrite firstn_length; lia).
  assert (H1 : is_bytes (firstn a d)) by (rewrite <- (firstn_skipn a d) in Hd; apply Forall_app in Hd; apply Hd).
  assert (H2 : is_bytes (skipn a d)) by (rewrite <- (firstn_skipn a d) in Hd; apply Forall_app in Hd; apply Hd).
  assert (Ef : firstn a d = le_enc a (le_int (firstn a d))) by (rewrite <- Lf at 2; symmetry; apply le_enc_int; exact H1).
  split; [rewrite <- Ef; symmetry; apply firstn_skipn|]. split; [pose proof (le_int_bounds _ H1) as B; unfold len in B; rewrite Lf in B; exact B|].
  split; [rewrite skipn_length; lia|]. split; [exact H2|]. split; [exact Ef|]. split; reflexivity.
Qed.

Lemma len_le_of_nat n v r : (Z.of_nat n <=? len (le_enc n v ++ r)) = true.
Proof. apply Z.leb_le. rewrite len_app, len_le_enc. pose proof (len_nonneg r). lia. Qed.

Lemma firstn_le_enc n v (r : bytes) : firstn n (le_enc n v ++ r) = le_enc n v.
Proof. rewrite firstn_app, le_enc_length, Nat.sub_diag, app_nil_r. rewrite <- (le_enc_length n v) at 1. apply firstn_all. Qed.
Lemma skipn_le_enc n v (r : bytes) : skipn n (le_enc n v ++ r) = r.
Proof. rewrite skipn_app, le_enc_length, Nat.sub_diag. rewrite <- (le_enc_length n v) at 1. rewrite skipn_all. reflexivity. Qed.

Lemma map_unsigned name n v ms r : 0 <= v < 256 ^ Z.of_nat n -> map_members ((name, MUnsigned n) :: ms) (le_enc n v ++ r) = do l <- map_members ms r; Ok ((name, VInt v) :: l).
Proof. intros H. cbn [map_members member_size]. rewrite len_le_of_nat. cbn [guard bind]. rewrite firstn_le_enc, skipn_le_enc. cbn [member_of]. rewrite le_int_enc by exact H. reflexivity. Qed.
Lemma map_bool name n v ms r : 0 <= v < 256 ^ Z.of_nat n -> map_members ((name, MBool n) :: ms) (le_enc n v ++ r) = do l <- map_members ms r; Ok ((name, VBool (negb (v =? 0))) :: l).
Proof. intros H. cbn [map_members member_size]. rewrite len_le_of_nat. cbn [guard bind]. rewrite firstn_le_enc, skipn_le_enc. cbn [member_of]. rewrite le_int_enc by exact H. reflexivity. Qed.

Lemma read_members_pos ms d : 0 < len d -> read_members ms d = map_members ms d.
Proof. destruct d; [cbn; lia|reflexivity]. Qed.

Lemma dec_client_outcome x d o : is_bytes d -> outcome x KClient d o (dec_client_state x (Some d) o).
Proof.
  intros Hd. unfold outcome, dec_client_state, sized. cbn [need bind]. destruct (Z.eqb_spec (len d) 8) as [E|E]; [left; split; [exact E|]|right; split; [exact E|reflexivity]].
  rewrite read_members_pos by lia. destruct (split_bytes d 4 4 Hd ltac:(lia) ltac:(lia)) as (status & r & -> & B1 & Lr & Hr & _).
  destruct (split_bytes r 4 0 Hr ltac:(lia) ltac:(lia)) as (restricted & r' & -> & B2 & Lr' & _). apply len_zero in Lr'. subst r'.
  unfold client_state. rewrite map_unsigned, map_bool by assumption. cbn [map_members bind]. eexists. split; [reflexivity|]. exists status, restricted.
  split; [rewrite app_nil_r; reflexivity|]. split; [exact B1|]. split; [exact B2|].
  cbn [client_mappings mapped_texts attribute String.eqb]. destruct (negb (restricted =? 0)); reflexivity.
Qed.

Lemma dec_counts_outcome x d o : is_bytes d -> outcome x KCounts d o (dec_dns_counts (Some d) o).
Proof.
  intros Hd. unfold outcome, dec_dns_counts, sized. cbn [need bind]. destruct (Z.eqb_spec (len d) 8) as [E|E]; [left; split; [exact E|]|right; split; [exact E|reflexivity]].
  rewrite read_members_pos by lia. destruct (split_bytes d 2 6 Hd ltac:(lia) ltac:(lia)) as (v1 & r & -> & B1 & Lr & Hr & _).
  destruct (split_bytes r 2 4 Hr ltac:(lia) ltac:(lia)) as (v2 & r2 & -> & B2 & Lr2 & Hr2 & _).
  destruct (split_bytes r2 2 2 Hr2 ltac:(lia) ltac:(lia)) as (v3 & r3 & -> & B3 & Lr3 & Hr3 & _).
  destruct (split_bytes r3 2 0 Hr3 ltac:(lia) ltac:(lia)) as (v4 & r4 & -> & B4 & Lr4 & _). apply len_zero in Lr4. subst r4.
  rewrite !map_unsigned by assumption. cbn [map_members bind]. change (256 ^ Z.of_nat 2) with 65536 in *. eexists. split; [reflexivity|]. exists v1, v2, v3, v4.
  split; [repeat constructor; lia|]. split; [rewrite app_nil_r; reflexivity|reflexivity].
Qed.

(** ** DNS flags *)

Lemma filter_bits n : filter (fun f : Z * String.string => negb (Z.land n (fst f) =? 0)) dns_flags
  = map (fun b => (2 ^ fst b, snd b)) (filter (fun b => Z.testbit n (fst b)) dns_bits).
Proof.
  change dns_flags with (map (fun b : Z * String.string => (2 ^ fst b, snd b)) dns_bits).
  assert (F : Forall (fun b : Z * String.string => 0 <= fst b) dns_bits) by (repeat constructor; cbn; lia).
  induction F as [|b l Hb F IH]; [reflexivity|]. cbn [map filter fst]. rewrite land_pow2 by exact Hb. rewrite negb_involutive. destruct (Z.testbit n (fst b)); cbn [map]; rewrite IH; reflexivity.
Qed.

Lemma header_text id flags : 0 <= flags < 65536 -> dns_text id flags (format_header id flags).
Proof.
  intros H. unfold dns_text, format_header, format_flags. exists (name_or dns_operations (Z.shiftr (Z.land flags 0x7800) 11) "?"%string), (name_or dns_responses (Z.land flags 0x000f) "?"%string).
  assert (E1 : Z.shiftr (Z.land flags 0x7800) 11 = flags / 2048 mod 16).
  { change 0x7800 with (Z.shiftl 15 11). rewrite Z.shiftr_land, Z.shiftr_shiftl_l by lia. change (Z.shiftl 15 (11 - 11)) with 15. rewrite (land_mask _ 4 15) by (try reflexivity; lia).
    rewrite Z.shiftr_div_pow2 by lia. reflexivity. }
  assert (E2 : Z.land flags 0x000f = flags mod 16) by (rewrite (land_mask _ 4 15) by (try reflexivity; lia); reflexivity).
  rewrite E1, E2. change dns_operations with opcode_texts. change dns_responses with rcode_texts.
  split; [apply name_of_code, nodupb_spec; vm_compute; reflexivity|]. split; [apply name_of_code, nodupb_spec; vm_compute; reflexivity|].
  change 0x8000 with (2 ^ 15). rewrite land_pow2 by lia. rewrite filter_bits, map_map. cbn [snd].
  change (s2z ", "%string) with [44; 32]. unfold upper_x. destruct (Z.testbit flags 15); cbn [negb]; rewrite <- !app_assoc; reflexivity.
Qed.

Lemma dec_idflags_outcome x d o : is_bytes d -> outcome x KIdFlags d o (dec_dns_idflags (Some d) o).
Proof.
  intros Hd. unfold outcome, dec_dns_idflags, sized. cbn [need bind]. destruct (Z.eqb_spec (len d) 8) as [E|E]; [left; split; [exact E|]|right; split; [exact E|reflexivity]].
  rewrite read_members_pos by lia. destruct (split_bytes d 2 6 Hd ltac:(lia) ltac:(lia)) as (v1 & r & -> & B1 & Lr & Hr & _).
  destruct (split_bytes r 2 4 Hr ltac:(lia) ltac:(lia)) as (v2 & r2 & -> & B2 & Lr2 & Hr2 & _).
  destruct (split_bytes r2 4 0 Hr2 ltac:(lia) ltac:(lia)) as (v3 & r3 & -> & B3 & Lr3 & Hr3 & _). apply len_zero in Lr3. subst r3.
  rewrite !map_unsigned by assumption. cbn [map_members bind]. eexists. split; [reflexivity|]. exists v1, v2, (le_enc 4 v3 ++ []).
  change (256 ^ Z.of_nat 2) with 65536 in *. split; [exact B1|]. split; [exact B2|]. split; [reflexivity|]. apply header_text. exact B1.
Qed.

Lemma dec_header_outcome x d o : is_bytes d -> outcome x KDnsHeader d o (dec_dns_header (Some d) o).
Proof.
  intros Hd. unfold outcome, dec_dns_header, sized. cbn [need bind]. destruct (Z.eqb_spec (len d) 12) as [E|E]; [left; split; [exact E|]|right; split; [exact E|reflexivity]].
  pose proof (octet_pairs_groups 6 d ltac:(unfold len in E; lia) Hd) as G. pose proof (groups_len _ _ G) as L.
  destruct (octet_pairs d) as [|id [|flags [|q [|a [|au [|ad [|? ?]]]]]]]; unfold len in *; cbn [length] in L; try lia.
  eexists. split; [reflexivity|]. exists id, flags, q, a, au, ad, (format_header id flags). split; [exact G|]. split; [|reflexivity]. apply header_text.
  destruct G as [F _]. apply Forall_cons_iff in F as [_ F]. apply Forall_cons_iff in F as [F _]. exact F.
Qed.

(** ** Socket addresses *)

Lemma take_bytes (d : bytes) n m : len d = n + m -> 0 <= n -> 0 <= m -> exists a b, d = a ++ b /\ len a = n /\ len b = m.
Proof.
  intros L Hn Hm. exists (firstn (Z.to_nat n) d), (skipn (Z.to_nat n) d). split; [symmetry; apply firstn_skipn|]. unfold len in *. rewrite firstn_length, skipn_length. lia.
Qed.

Lemma join_segments g : length g = 8%nat -> Forall (fun n => 0 <= n < 65536) g ->
  (Forall (fun n => n = 0) g <-> join [58] (map (fun n => if n =? 0 then [] else fmt_x 4 n) g) = s2z ":::::::"%string).
Proof.
  intros L F. do 8 (destruct g as [|? g]; [discriminate|]). destruct g; [|discriminate]. clear L. split.
  - intros H. repeat match goal with H : Forall _ (_ :: _) |- _ => apply Forall_cons_iff in H as [? H] end. subst. reflexivity.
  - intros H. assert (N : forall n, n <> 0 -> 4 <= len (fmt_x 4 n)) by (intros n _; apply fmt_int_width).
    assert (S : len (s2z ":::::::"%string) = 7) by reflexivity. rewrite <- H in S. cbn [map join] in S. rewrite !len_app in S. change (len [58]) with 1 in S.
    repeat match type of S with context [if ?n =? 0 then _ else _] => let e := fresh in destruct (Z.eqb_spec n 0) as [e|e];
      [try (rewrite e in *); change (len (@nil Z)) with 0 in S|exfalso; specialize (N _ e); repeat match type of S with context [len (if ?b then [] else ?s)] => let l := fresh in set (l := len (if b then [] else s)) in S; assert (0 <= l) by (apply len_nonneg); clearbody l end; lia] end.
    repeat constructor.
Qed.

Lemma dec_sock_outcome x d o : is_bytes d -> outcome x KSocket d o (dec_sockaddr (Some d) o).
Proof.
  intros Hd. unfold outcome, dec_sockaddr, socket_text. cbn [need bind]. destruct d as [|size [|family e]].
  - eexists. split; [reflexivity|]. left. split; reflexivity.
  - eexists. split; [reflexivity|]. right; right; right. split; [discriminate|]. split; [cbn; intros [H _]; lia|]. split; [cbn; intros [H _]; lia|reflexivity].
  - set (d := size :: family :: e) in *. assert (N : nth_error d 1 = Some family) by reflexivity. assert (NE : d <> []) by discriminate.
    destruct (Z.eqb_spec family 2) as [->|F2]; [destruct (Z.eqb_spec (len d) 16) as [L|L]|]; cbn [andb].
    + eexists. split; [reflexivity|]. right; left. subst d. rewrite !len_cons in L. destruct (take_bytes e 2 12 ltac:(lia) ltac:(lia) ltac:(lia)) as (port & r & -> & Lp & Lr).
      destruct (take_bytes r 4 8 ltac:(lia) ltac:(lia) ltac:(lia)) as (a & zero & -> & La & Lz). destruct (list4 a La) as (a1 & a2 & a3 & a4 & ->).
      exists size, port, a1, a2, a3, a4, zero. split; [reflexivity|]. split; [exact Lp|]. split; [exact Lz|]. f_equal. f_equal.
      rewrite pyslice_nonneg by lia. change (8 - 4) with 4. change (size :: 2 :: port ++ [a1; a2; a3; a4] ++ zero) with ([size; 2] ++ port ++ [a1; a2; a3; a4] ++ zero).
      rewrite (app_assoc [size; 2]). rewrite zskipn_app_len by (rewrite len_app, Lp; reflexivity). apply zfirstn_app_len. reflexivity.
    + cbn [Z.eqb Pos.eqb andb]. eexists. split; [reflexivity|]. right; right; right. split; [exact NE|]. split; [tauto|]. split; [rewrite N; intros [_ H]; discriminate|reflexivity].
    + destruct (Z.eqb_spec family 30) as [->|F30]; [destruct (Z.eqb_spec (len d) 28) as [L|L]|]; cbn [andb].
      * assert (Hd' := Hd). subst d. rewrite !len_cons in L. destruct (take_bytes e 2 24 ltac:(lia) ltac:(lia) ltac:(lia)) as (port & r & -> & Lp & Lr).
        destruct (take_bytes r 4 20 ltac:(lia) ltac:(lia) ltac:(lia)) as (flow & r2 & -> & Lf & Lr2). destruct (take_bytes r2 16 4 ltac:(lia) ltac:(lia) ltac:(lia)) as (a & scope & -> & La & Ls).
        change (size :: 30 :: port ++ flow ++ a ++ scope) with ([size; 30] ++ port ++ flow ++ a ++ scope) in *.
        rewrite pyslice_nonneg by lia. change (24 - 8) with 16.
        assert (E : zfirstn 16 (zskipn 8 ([size; 30] ++ port ++ flow ++ a ++ scope)) = a).
        { rewrite (app_assoc [size; 30]), (app_assoc ([size; 30] ++ port)). rewrite zskipn_app_len by (rewrite !len_app, Lp, Lf; reflexivity). apply zfirstn_app_len. lia. }
        rewrite E. assert (Ha : is_bytes a) by (rewrite !is_bytes_app in Hd'; tauto).
        pose proof (octet_pairs_groups 8 a ltac:(unfold len in La; lia) Ha) as G. pose proof (groups_len _ _ G) as LG.
        assert (L8 : length (octet_pairs a) = 8%nat) by (unfold len in *; lia). pose proof (join_segments (octet_pairs a) L8 (proj1 G)) as J.
        eexists. split; [reflexivity|]. right; right; left. exists size, port, flow, a, (octet_pairs a), scope. do 5 (split; [assumption || reflexivity|]). split; [exact G|].
        destruct (list_eqb _ _) eqn:Q.
        -- left. apply list_eqb_eq in Q. split; [apply J; exact Q|reflexivity].
        -- right. apply list_eqb_neq in Q. split; [|reflexivity]. apply Exists_Forall_neg; [intros n; destruct (Z.eq_dec n 0); tauto|]. intros F. apply Q, J.
           eapply Forall_impl; [|exact F]. intros n Hn. destruct (Z.eq_dec n 0); [assumption|contradiction].
      * eexists. split; [reflexivity|]. right; right; right. split; [exact NE|]. split; [rewrite N; intros [_ H]; discriminate|]. split; [tauto|reflexivity].
      * eexists. split; [reflexivity|]. right; right; right. split; [exact NE|]. split; [rewrite N; intros [_ H]; congruence|]. split; [rewrite N; intros [_ H]; congruence|reflexivity].
Qed.

(** ** Open Directory *)

Lemma reads_membership x identifier : reads (rd_membership x identifier) (fun p d => exists e1 e2, d = e1 ++ e2 /\ string_bytes (x_utf8 x) (snd p) e2 /\
    if identifier then exists z, - 2 ^ 31 <= z < 2 ^ 31 /\ e1 = le_enc 4 (z mod 2 ^ 32) /\ fst p = fmt_d z else string_bytes (x_utf8 x) (fst p) e1).
Proof.
  eapply reads_iff.
  - unfold rd_membership. eapply reads_bind with (e := fun who d => if identifier then exists z, - 2 ^ 31 <= z < 2 ^ 31 /\ d = le_enc 4 (z mod 2 ^ 32) /\ who = fmt_d z else string_bytes (x_utf8 x) who d).
    + destruct identifier; [|apply reads_cstring]. eapply reads_iff; [eapply reads_bind; [apply reads_int; cbn; lia|intros z; apply reads_ret]|].
      intros who d _. cbv beta. split.
      * intros (z & d1 & d2 & [B ->] & [-> ->] & ->). exists z. rewrite app_nil_r. split; [apply B|]. split; reflexivity.
      * intros (z & B & -> & ->). exists z, (le_enc 4 (z mod 2 ^ 32)), []. rewrite app_nil_r. split; [split; [split; [repeat constructor|exact B]|reflexivity]|]. split; [split; reflexivity|reflexivity].
    + intros who. eapply reads_bind; [apply reads_cstring|]. intros domain. apply reads_ret.
  - intros [who domain] d _. cbv beta. cbn [fst snd]. split.
    + intros (who' & e1 & d2 & H1 & (dom' & e2 & d3 & H2 & [E ->] & ->) & ->). injection E as -> ->. exists e1, e2. rewrite app_nil_r. split; [reflexivity|]. split; assumption.
    + intros (e1 & e2 & -> & H2 & H1). exists who, e1, e2. split; [exact H1|]. split; [|reflexivity]. exists domain, e2, []. split; [exact H2|]. split; [split; reflexivity|rewrite app_nil_r; reflexivity].
Qed.

Lemma find_membership t : (find (fun e => fst e =? t) membership_types = None /\ ~ In t (map (fun m => fst (fst m)) member_types)) \/
  (exists name identifier, find (fun e => fst e =? t) membership_types = Some (t, (name, identifier)) /\ In (t, name, identifier) member_types).
Proof.
  unfold membership_types. cbn [find fst].
  repeat match goal with |- context [?k =? t] => destruct (Z.eqb_spec k t) as [<-|?]; [right; eexists; eexists; split; [reflexivity|cbn [member_types In]; tauto]|] end.
  left. split; [reflexivity|]. cbn [member_types map In fst]. intros H. repeat destruct H as [H|H]; congruence.
Qed.

Lemma dec_member_outcome x d o : is_bytes d -> outcome x KMember d o (dec_membership x (Some d) o).
Proof.
  intros Hd. unfold outcome, dec_membership, DecSpec.member_text. cbn [need bind]. destruct d as [|t e]; [left; split; reflexivity|right].
  apply Forall_cons_iff in Hd as [_ He]. destruct (find_membership t) as [[F N]|(name & identifier & F & I)]; rewrite F.
  - left. exists t, e. split; [reflexivity|]. split; [exact N|reflexivity].
  - right. exists t, name, identifier, e. split; [reflexivity|]. split; [exact I|]. destruct e as [|c e]; [left; split; reflexivity|right]. set (e' := c :: e) in *. assert (NE : e' <> []) by discriminate. clearbody e'.
    destruct (reads_membership x identifier e' 0 He ltac:(pose proof (len_nonneg e'); lia)) as [R1 R2].
    destruct (rd_membership x identifier e' 0) as [[[who domain] p]|err] eqn:R; cbn [bind].
    + left. destruct (proj1 (R1 _ _) eq_refl) as (w & (e1 & e2 & -> & H2 & H1) & S & _). cbn [fst snd] in *. exists who, domain. split; [|reflexivity].
      destruct S as (pre & post & -> & L). apply len_zero in L. subst pre. exists e1, e2, post. rewrite <- app_assoc. split; [reflexivity|]. split; assumption.
    + right. rewrite (R2 err eq_refl). split; [exact NE|]. split; [|reflexivity]. intros who domain (e1 & e2 & rest & -> & H2 & H1).
      assert (X : exists p, @Err (str * str * Z) err = Ok ((who, domain), p)) by (eexists; apply R1; exists (e1 ++ e2); split; [exists e1, e2; split; [reflexivity|]; split; assumption|]; split;
        [exists [], rest; rewrite <- app_assoc; split; reflexivity|reflexivity]). destruct X; discriminate.
Qed.

(** ** Security identifiers *)

Lemma reads_sid : reads rd_sid (fun p d => exists rev n hi lo subs, p = (rev, lo + hi * 2 ^ 32, subs) /\ 0 <= rev < 256 /\ 0 <= n < 256 /\ 0 <= hi < 65536 /\ 0 <= lo < 2 ^ 32 /\
    length subs = Z.to_nat n /\ Forall (fun n => 0 <= n < 2 ^ 32) subs /\ d = [rev; n] ++ be_enc 2 hi ++ be_enc 4 lo ++ flat_map (le_enc 4) subs).
Proof.
  eapply reads_iff.
  - unfold rd_sid. eapply reads_bind; [apply reads_int; cbn; lia|intros rev]. eapply reads_bind; [apply reads_int; cbn; lia|intros n].
    eapply reads_bind; [apply reads_int; cbn; lia|intros hi]. eapply reads_bind; [apply reads_int; cbn; lia|intros lo].
    eapply reads_bind; [apply reads_ints; cbn; lia|intros subs]. apply reads_ret.
  - intros p d _. cbv beta. cbn [fval_ok enc_field enc_int].
    assert (LO : forall hi lo, 0 <= lo < 2 ^ 32 -> Z.lor lo (Z.shiftl hi 32) = lo + hi * 2 ^ 32) by (intros hi lo H; rewrite Z.lor_comm, lor_shiftl by lia; lia).
    assert (B1 : forall v, 0 <= v < 256 -> le_enc 1 v = [v]) by (intros v H; cbn; rewrite Z.mod_small by lia; reflexivity).
    assert (ES : forall l, enc_ints (FU LE 4) l = flat_map (le_enc 4) l) by (intros l; unfold enc_ints; rewrite flat_map_concat_map; reflexivity).
    split.
    + intros (rev & ? & ? & [Hr ->] & (n & ? & ? & [Hn ->] & (hi & ? & ? & [Hh ->] & (lo & ? & ? & [Hl ->] & (subs & ? & ? & (Ls & Fs & ->) & [-> ->] & ->) & ->) & ->) & ->) & ->).
      exists rev, n, hi, lo, subs. change (256 ^ Z.of_nat 1) with 256 in *. change (256 ^ Z.of_nat 2) with 65536 in *. change (256 ^ Z.of_nat 4) with (2 ^ 32) in *.
      rewrite LO by exact Hl. rewrite !B1 by assumption. rewrite ES, app_nil_r. repeat (split; [first [assumption|reflexivity]|]). reflexivity.
    + intros (rev & n & hi & lo & subs & -> & Hr & Hn & Hh & Hl & Ls & Fs & ->). exists rev, [rev], ([n] ++ be_enc 2 hi ++ be_enc 4 lo ++ flat_map (le_enc 4) subs).
      split; [split; [exact Hr|symmetry; apply B1, Hr]|]. split; [|reflexivity]. exists n, [n], (be_enc 2 hi ++ be_enc 4 lo ++ flat_map (le_enc 4) subs).
      split; [split; [exact Hn|symmetry; apply B1, Hn]|]. split; [|reflexivity]. exists hi, (be_enc 2 hi), (be_enc 4 lo ++ flat_map (le_enc 4) subs). split; [split; [exact Hh|reflexivity]|]. split; [|reflexivity].
      exists lo, (be_enc 4 lo), (flat_map (le_enc 4) subs). split; [split; [exact Hl|reflexivity]|]. split; [|reflexivity].
      exists subs, (flat_map (le_enc 4) subs), []. split; [split; [exact Ls|]; split; [exact Fs|symmetry; apply ES]|]. split; [split; [rewrite LO by exact Hl; reflexivity|reflexivity]|rewrite app_nil_r; reflexivity].
Qed.

Lemma be_int_app2 a : forall b, be_int (a ++ b) = be_int a * 256 ^ len b + be_int b.
Proof.
  intros b. induction b as [|c b IH] using rev_ind; [rewrite app_nil_r; change (len (@nil Z)) with 0; change (256 ^ 0) with 1; change (be_int []) with 0; lia|].
  rewrite app_assoc, !be_int_app, IH, len_app. change (len [c]) with 1. rewrite Z.pow_add_r by (try lia; apply len_nonneg). change (256 ^ 1) with 256. lia.
Qed.

Lemma le_enc_flat_len subs : len (flat_map (le_enc 4) subs) = 4 * len subs.
Proof. induction subs as [|s subs IH]; [reflexivity|]. cbn [flat_map]. rewrite len_app, IH, len_le_enc, len_cons. lia. Qed.

Lemma words_of n : forall d, is_bytes d -> len d = 4 * Z.of_nat n -> exists subs, length subs = n /\ Forall (fun n => 0 <= n < 2 ^ 32) subs /\ d = flat_map (le_enc 4) subs.
Proof.
  induction n as [|n IH]; intros d Hd L; [exists []; apply len_zero in L; subst; repeat split; constructor|].
  destruct (split_bytes d 4 (4 * Z.of_nat n) Hd ltac:(lia) ltac:(lia)) as (v & r & -> & B & Lr & Hr & _). destruct (IH r Hr Lr) as (subs & L' & F & ->).
  exists (v :: subs). split; [cbn; lia|]. split; [constructor; [exact B|exact F]|reflexivity].
Qed.

Lemma dec_sid_outcome x d o : is_bytes d -> outcome x KSid d o (dec_sid (Some d) o).
Proof.
  intros Hd. unfold outcome, dec_sid, sid_text. cbn [need bind]. destruct (Z.ltb_spec (len d) 8) as [L|L]; [left; split; [exact L|reflexivity]|right].
  destruct (reads_sid d 0 Hd ltac:(lia)) as [R1 R2]. destruct (rd_sid d 0) as [[[[rev auth] subs] p]|err] eqn:R; cbn [bind].
  - left. destruct (proj1 (R1 _ _) eq_refl) as (w & (rev' & n & hi & lo & subs' & E & Hr & Hn & Hh & Hl & Ls & Fs & ->) & S & _). injection E as -> -> ->.
    destruct S as (pre & post & -> & Lp). apply len_zero in Lp. subst pre. exists rev', (lo + hi * 2 ^ 32), subs'. split; [|reflexivity].
    exists (be_enc 2 hi ++ be_enc 4 lo), (flat_map (le_enc 4) subs'), post. assert (En : n = len subs') by (unfold len; lia). subst n. cbn [app]. rewrite <- !app_assoc. split; [reflexivity|].
    split; [rewrite len_app, !len_be_enc; reflexivity|]. split; [|split; [exact Fs|reflexivity]]. rewrite be_int_app2, len_be_enc, !be_int_enc by (cbn; lia). cbn. lia.
  - right. rewrite (R2 err eq_refl). split; [exact L|]. split; [|reflexivity]. apply Z.nle_gt. intros G.
    destruct d as [|rev [|n r]]; [cbn in L; lia|cbn in L; lia|]. cbn [nth] in G. rewrite !len_cons in L, G.
    apply Forall_cons_iff in Hd as [Hr Hd]. apply Forall_cons_iff in Hd as [Hn Hd]. unfold is_byte in Hr, Hn.
    destruct (take_bytes r 2 (len r - 2) ltac:(lia) ltac:(lia) ltac:(lia)) as (hi & r1 & -> & Lh & Lr1). rewrite !len_app in *.
    destruct (take_bytes r1 4 (len r1 - 4) ltac:(lia) ltac:(lia) ltac:(lia)) as (lo & r2 & -> & Ll & Lr2). rewrite !len_app in *.
    destruct (take_bytes r2 (4 * n) (len r2 - 4 * n) ltac:(lia) ltac:(lia) ltac:(lia)) as (sb & r3 & -> & Lsb & Lr3). rewrite !is_bytes_app in Hd. destruct Hd as (Hhi & Hlo & Hsb & _).
    destruct (words_of (Z.to_nat n) sb Hsb ltac:(lia)) as (subs & Ls & Fs & ->).
    pose proof (be_enc_int hi Hhi) as Eh. pose proof (be_enc_int lo Hlo) as El. unfold len in Lh, Ll. replace (length hi) with 2%nat in Eh by lia. replace (length lo) with 4%nat in El by lia.
    pose proof (be_int_bounds hi Hhi) as Bh. pose proof (be_int_bounds lo Hlo) as Bl. unfold len in Bh, Bl. rewrite Lh in Bh. rewrite Ll in Bl.
    assert (X : exists p, @Err (Z * Z * list Z * Z) err = Ok ((rev, be_int lo + be_int hi * 2 ^ 32, subs), p)).
    { eexists. apply R1. exists ([rev; n] ++ be_enc 2 (be_int hi) ++ be_enc 4 (be_int lo) ++ flat_map (le_enc 4) subs). split.
      - exists rev, n, (be_int hi), (be_int lo), subs. repeat (split; [first [reflexivity|assumption|lia]|]). reflexivity.
      - split; [|reflexivity]. exists [], r3. rewrite Eh, El. cbn [app]. rewrite <- !app_assoc. split; reflexivity. }
    destruct X; discriminate.
Qed.

(** ** Signposts *)

Lemma one_of_in c s : one_of_chars c s = true <-> In c (s2z s).
Proof. unfold one_of_chars. rewrite existsb_exists. split; [intros (y & I & E); apply Z.eqb_eq in E; congruence|intros I; exists c; split; [exact I|apply Z.eqb_refl]]. Qed.

Lemma integer_sizes d : existsb (Z.eqb (len d)) [1; 2; 4; 8] = true <-> integer_size d.
Proof. unfold integer_size. rewrite existsb_exists. split; [intros (y & I & E); apply Z.eqb_eq in E; congruence|intros I; exists (len d); split; [exact I|apply Z.eqb_refl]]. Qed.

Lemma integer_sizes_false d : existsb (Z.eqb (len d)) [1; 2; 4; 8] = false -> ~ integer_size d.
Proof. intros E H. apply integer_sizes in H. congruence. Qed.

Lemma signpost_ok x d o : signpost x d o (signpost_value x d o).
Proof.
  unfold signpost_value. set (sp := match o with Some o => op_specifier o | None => 115 end).
  assert (C : forall l, conversion o l <-> In sp (s2z l)) by reflexivity. clearbody sp.
  destruct d as [|b d0]; [constructor|]. set (d := b :: d0) in *. assert (NE : d <> []) by discriminate. clearbody d.
  destruct (one_of_chars sp "aAeEfFgG") eqn:E1.
  { apply one_of_in in E1. destruct (Z.eqb_spec (len d) 4) as [L4|L4]; [cbn [orb]; apply sp_float; [exact NE|apply C, E1|left; exact L4]|].
    destruct (Z.eqb_spec (len d) 8) as [L8|L8]; cbn [orb]; [apply sp_float; [exact NE|apply C, E1|right; exact L8]|].
    apply sp_unsupported; [exact NE|split; assumption|intros Q|intros Q]; apply C in Q; clear -E1 Q; exfalso; cbn in E1, Q; intuition congruence. }
  destruct (one_of_chars sp "cCoOpuUxX") eqn:E2.
  { apply one_of_in in E2. destruct (existsb (Z.eqb (len d)) [1; 2; 4; 8]) eqn:I.
    - apply integer_sizes in I. exact (sp_unsigned x d o I (proj2 (C _) E2)).
    - apply sp_unsupported; [exact NE| |intros _; apply integer_sizes_false, I|]; intros Q; apply C in Q; clear -E2 Q; exfalso; cbn in E2, Q; intuition congruence. }
  destruct (one_of_chars sp "dDim") eqn:E3.
  { apply one_of_in in E3. destruct (existsb (Z.eqb (len d)) [1; 2; 4; 8]) eqn:I.
    - apply integer_sizes in I. exact (sp_signed x d o I (proj2 (C _) E3)).
    - apply sp_unsupported; [exact NE| |intros _; apply integer_sizes_false, I|]; intros Q; apply C in Q; clear -E3 Q; exfalso; cbn in E3, Q; intuition congruence. }
  assert (F : forall l s, one_of_chars sp s = false -> conversion o l -> (forall c, In c (s2z l) -> In c (s2z s)) -> False).
  { intros l s H1 H2 H3. apply C, H3, one_of_in in H2. congruence. }
  assert (N1 : conversion o "aAeEfFgG" -> len d <> 4 /\ len d <> 8) by (intros Q; exfalso; eapply F; [exact E1|exact Q|tauto]).
  assert (N2 : conversion o "cCoOpuUxXdDim" -> ~ integer_size d).
  { intros Q. exfalso. apply C in Q. change (s2z "cCoOpuUxXdDim"%string) with (s2z "cCoOpuUxX"%string ++ s2z "dDim"%string) in Q. apply in_app_or in Q as [Q|Q]; apply one_of_in in Q; congruence. }
  destruct (one_of_chars sp "@sS") eqn:E4.
  - apply one_of_in in E4. unfold with_text. destruct (x_utf8 x d) as [t|] eqn:U.
    + exact (sp_text x d o t (rstrip 0 t) NE (proj2 (C _) E4) U (rstrip_trimmed t)).
    + apply sp_unsupported; [exact NE|exact N1|exact N2|intros _; exact U].
  - apply sp_unsupported; [exact NE|exact N1|exact N2|]. intros Q. exfalso. eapply F; [exact E4|exact Q|tauto].
Qed.

(** ** All kinds *)

Lemma numbered_nodup : NoDup (map fst (numbered errno_texts)).
Proof. apply nodupb_spec. vm_compute. reflexivity. Qed.

Lemma join4 a b c e : join [46] (map fmt_d [a; b; c; e]) = fmt_d a ++ [46] ++ fmt_d b ++ [46] ++ fmt_d c ++ [46] ++ fmt_d e.
Proof. reflexivity. Qed.

Lemma names_outcome x l m d o : (0 <= le_int d -> named l (le_int d) (known_or m (le_int d))) -> is_bytes d -> outcome x (KNames l) d o (dec_names m (Some d) o).
Proof. intros H Hd. cbn [outcome]. unfold dec_names. cbn [need bind]. apply sized_if. intros _. apply H. apply le_int_bounds, Hd. Qed.

Definition agrees (x : external) (k : kind) (f : decoder) : Prop :=
  forall o, f None o = missing k /\ forall d, is_bytes d -> outcome x k d o (f (Some d) o).

Lemma names_agrees x l : NoDup (map fst l) -> agrees x (KNames l) (dec_names l).
Proof. intros N o. split; [reflexivity|]. intros d Hd. apply names_outcome; [|exact Hd]. intros _. apply name_of_named, N. Qed.

Lemma bool_agrees x no yes : agrees x (KBool no yes) (dec_bool no yes).
Proof. intros o. split; [reflexivity|]. intros d Hd. cbn [outcome]. apply bool_outcome; [exact Hd|reflexivity]. Qed.

Lemma errno_agrees x : agrees x KErrno dec_errno.
Proof.
  intros o. split; [reflexivity|]. intros d Hd. cbn [outcome]. unfold dec_errno. cbn [need bind]. apply sized_if. intros _. eexists. split; [apply errors_named, le_int_bounds, Hd|reflexivity].
Qed.

Lemma error_agrees x : agrees x (KNames (numbered errno_texts)) dec_error.
Proof. intros o. split; [reflexivity|]. intros d Hd. unfold dec_error. apply names_outcome; [|exact Hd]. apply errors_named. Qed.

Lemma ipv4_agrees x : agrees x KIpv4 dec_ipv4.
Proof.
  intros o. split; [reflexivity|]. intros d Hd. cbn [outcome]. unfold dec_ipv4. cbn [need bind]. apply sized_if. intros L. destruct (list4 d L) as (a & b & c & e & ->).
  exists a, b, c, e. split; [reflexivity|apply join4].
Qed.

Lemma ipv6_agrees x : agrees x KIpv6 dec_ipv6.
Proof.
  intros o. split; [reflexivity|]. intros d Hd. cbn [outcome]. unfold dec_ipv6. cbn [need bind]. apply sized_if. intros L. exists (octet_pairs d). split; [|reflexivity].
  apply (octet_pairs_groups 8); [unfold len in L; lia|exact Hd].
Qed.

Lemma float_agrees x : agrees x KFloat (dec_float x).
Proof.
  intros o. split; [reflexivity|]. intros d Hd. cbn [outcome]. unfold dec_float. cbn [need bind].
  destruct (Z.eqb_spec (len d) 4); [left; split; [left; assumption|destruct o; reflexivity]|]. destruct (Z.eqb_spec (len d) 8); cbn [orb]; [left; split; [right; assumption|destruct o; reflexivity]|].
  right. repeat split; assumption.
Qed.

Lemma escape_agrees x : agrees x KEscape (dec_escape x).
Proof.
  intros o. split; [reflexivity|]. intros d Hd. cbn [outcome]. unfold dec_escape, with_text. destruct (x_utf8 x d) as [t|] eqn:U; [right|left; split; reflexivity].
  exists t, (rstrip 0 t). split; [reflexivity|]. split; [apply rstrip_trimmed|]. rewrite escape_join. reflexivity.
Qed.

Lemma string_agrees x what n : s2z what = s2z "telemetry#____#string"%string ++ fmt_d n -> agrees x (KString what) (dec_sp_string x n).
Proof.
  intros E o. split; [reflexivity|]. intros d Hd. cbn [outcome]. unfold dec_sp_string, with_text. destruct (x_utf8 x d) as [t|] eqn:U; [right|left; split; reflexivity].
  exists t, (rstrip 0 t). split; [reflexivity|]. split; [apply rstrip_trimmed|]. unfold marked, signpost_text. rewrite E. reflexivity.
Qed.

Lemma mask_agrees x : agrees x KMask dec_mask.
Proof.
  intros o. split; [reflexivity|]. intros d Hd. cbn [outcome]. unfold dec_mask. destruct d as [|b d]; [left; split; reflexivity|right]. split; [discriminate|].
  exists (b64encode (b :: d)). split; [apply b64encode_spec, Hd|]. f_equal. cbn [app]. rewrite <- app_assoc. reflexivity.
Qed.

Lemma uuid_agrees x : agrees x KUuid dec_uuid.
Proof.
  intros o. split; [reflexivity|]. intros d Hd. cbn [outcome]. unfold dec_uuid. cbn [need bind]. destruct (Z.eqb_spec (len d) 16) as [L|L]; cbn [guard bind]; [left|right; split; [exact L|reflexivity]].
  split; [exact L|]. exists (uuid_str d). split; [apply uuid_be_text; assumption|reflexivity].
Qed.

Lemma status_agrees x : agrees x KStatus dec_authorization.
Proof. intros o. split; [reflexivity|]. intros d Hd. cbn [outcome]. unfold dec_authorization, quoted. cbn [need bind]. eexists. split; [|reflexivity]. table_named. Qed.

Lemma sqlite_agrees x : agrees x (KQuoted sqlite_texts) dec_sqlite.
Proof. intros o. split; [reflexivity|]. intros d Hd. cbn [outcome]. unfold dec_sqlite, quoted. cbn [need bind]. apply sized_if. intros _. eexists. split; [|reflexivity]. table_named. Qed.

Lemma moment_agrees x what time : s2z what = s2z "description#____#"%string ++ s2z time ++ s2z "_time"%string -> agrees x (KMoment what) (dec_sp_time time).
Proof. intros E o. split; [reflexivity|]. intros d Hd. cbn [outcome]. unfold dec_sp_time. cbn [need bind]. apply sized_if. intros _. unfold marked, signpost_text. rewrite E. reflexivity. Qed.

Lemma attribute_agrees x : agrees x (KAttribute "description#____#attribute") (dec_attribute x).
Proof. intros o. split; [reflexivity|]. intros d Hd. cbn [outcome]. exists (signpost_value x d o). split; [apply signpost_ok|reflexivity]. Qed.

Lemma number_agrees x what n : s2z what = s2z "telemetry#____#number"%string ++ fmt_d n -> agrees x (KAttribute what) (dec_sp_number x n).
Proof.
  intros E o. split; [reflexivity|]. intros d Hd. cbn [outcome]. exists (signpost_value x d o). split; [apply signpost_ok|]. unfold dec_sp_number, marked, signpost_text. cbn [need bind]. rewrite E. reflexivity.
Qed.

Lemma signed_agrees x : agrees x KSigned dec_signed.
Proof. intros o. split; [reflexivity|]. intros d Hd. reflexivity. Qed.
Lemma unsigned_agrees x : agrees x KUnsigned dec_unsigned.
Proof. intros o. split; [reflexivity|]. intros d Hd. reflexivity. Qed.
Lemma text_agrees x : agrees x KText (dec_string x).
Proof. intros o. split; [reflexivity|]. intros d Hd. reflexivity. Qed.
Lemma time_agrees x : agrees x KTime (dec_time x).
Proof. intros o. split; [reflexivity|]. intros d Hd. reflexivity. Qed.
Lemma mode_agrees x : agrees x KMode dec_mode.
Proof. intros o. split; [reflexivity|]. intros d Hd. apply mode_outcome. Qed.
Lemma sock_agrees x : agrees x KSocket dec_sockaddr.
Proof. intros o. split; [reflexivity|]. intros d Hd. apply dec_sock_outcome, Hd. Qed.
Lemma client_agrees x : agrees x KClient (dec_client_state x).
Proof. intros o. split; [reflexivity|]. intros d Hd. apply dec_client_outcome, Hd. Qed.
Lemma manager_agrees x : agrees x KManager (dec_manager_state x).
Proof. intros o. split; [reflexivity|]. intros d Hd. apply dec_manager_outcome. Qed.
Lemma counts_agrees x : agrees x KCounts dec_dns_counts.
Proof. intros o. split; [reflexivity|]. intros d Hd. apply dec_counts_outcome, Hd. Qed.
Lemma idflags_agrees x : agrees x KIdFlags dec_dns_idflags.
Proof. intros o. split; [reflexivity|]. intros d Hd. apply dec_idflags_outcome, Hd. Qed.
Lemma header_agrees x : agrees x KDnsHeader dec_dns_header.
Proof. intros o. split; [reflexivity|]. intros d Hd. apply dec_header_outcome, Hd. Qed.
Lemma member_agrees x : agrees x KMember (dec_membership x).
Proof. intros o. split; [reflexivity|]. intros d Hd. apply dec_member_outcome, Hd. Qed.
Lemma sid_agrees x : agrees x KSid dec_sid.
Proof. intros o. split; [reflexivity|]. intros d Hd. apply dec_sid_outcome, Hd. Qed.

Lemma documented_decoders x name k : In (name, k) documented -> exists f, decoders x (s2z name) = Some f /\ agrees x k f.
Proof.
  intros I. cbn [documented In] in I.
  repeat match type of I with _ \/ _ => destruct I as [E|I]; [injection E as <- <-; eexists; split; [reflexivity|] | ] end; [..|destruct I];
  match goal with
  | |- agrees _ (KBool _ _) _ => exact (bool_agrees _ _ _)
  | |- agrees _ KErrno _ => exact (errno_agrees _)
  | |- agrees _ (KNames (numbered errno_texts)) _ => exact (error_agrees _)
  | |- agrees _ KIpv4 _ => exact (ipv4_agrees _)
  | |- agrees _ KIpv6 _ => exact (ipv6_agrees _)
  | |- agrees _ KFloat _ => exact (float_agrees _)
  | |- agrees _ KSigned _ => exact (signed_agrees _)
  | |- agrees _ KUnsigned _ => exact (unsigned_agrees _)
  | |- agrees _ KText _ => exact (text_agrees _)
  | |- agrees _ KTime _ => exact (time_agrees _)
  | |- agrees _ KMode _ => exact (mode_agrees _)
  | |- agrees _ KSocket _ => exact (sock_agrees _)
  | |- agrees _ KClient _ => exact (client_agrees _)
  | |- agrees _ KManager _ => exact (manager_agrees _)
  | |- agrees _ KEscape _ => exact (escape_agrees _)
  | |- agrees _ KMask _ => exact (mask_agrees _)
  | |- agrees _ KUuid _ => exact (uuid_agrees _)
  | |- agrees _ KStatus _ => exact (status_agrees _)
  | |- agrees _ (KQuoted _) _ => exact (sqlite_agrees _)
  | |- agrees _ KCounts _ => exact (counts_agrees _)
  | |- agrees _ KIdFlags _ => exact (idflags_agrees _)
  | |- agrees _ KDnsHeader _ => exact (header_agrees _)
  | |- agrees _ KMember _ => exact (member_agrees _)
  | |- agrees _ KSid _ => exact (sid_agrees _)
  | |- agrees _ (KAttribute _) (dec_sp_number _ _) => apply number_agrees; reflexivity
  | |- agrees _ (KAttribute _) _ => exact (attribute_agrees _)
  | |- agrees _ (KMoment _) _ => apply moment_agrees; reflexivity
  | |- agrees _ (KString _) _ => apply string_agrees; reflexivity
  | |- agrees _ (KNames ?l) (dec_names ?m) => change m with l; apply names_agrees, nodupb_spec; vm_compute; reflexivity
  end.
Qed.

Lemma lookup_in l name f : lookup l name = Some f -> exists n, In n (map fst l) /\ s2z n = name.
Proof.
  induction l as [|[k d] l IH]; cbn [lookup]; [discriminate|]. destruct (list_eqb (s2z k) name) eqn:E.
  - intros _. apply list_eqb_eq in E. exists k. split; [left; reflexivity|exact E].
  - intros H. destruct (IH H) as (n & I & En). exists n. split; [right; exact I|exact En].
Qed.

Lemma documented_only x name f : decoders x name = Some f -> exists n k, In (n, k) documented /\ s2z n = name.
Proof.
  intros H. apply lookup_in in H as (n & I & E).
  assert (J : In n (map fst documented)).
  { assert (F : forallb (fun n => existsb (String.eqb n) (map fst documented)) (map fst (decoder_table x)) = true) by (cbn [decoder_table map fst]; vm_compute; reflexivity).
    rewrite forallb_forall in F. specialize (F n I). apply existsb_exists in F as (m & J & Em). apply String.eqb_eq in Em. subst. exact J. }
  apply in_map_iff in J as ((n' & k) & <- & J). exists n', k. split; [exact J|exact E].
Qed.

(** ** Texts from which the value can be told *)

Lemma joined_inj base w c l l' : 2 <= base <= 16 -> ~ is_digit_char c -> l <> [] -> l' <> [] -> Forall (fun n => 0 <= n) l -> Forall (fun n => 0 <= n) l' ->
  join [c] (map (fmt_int base w) l) = join [c] (map (fmt_int base w) l') -> l = l'.
Proof.
  intros Hb Hc N N' F F' E. apply (f_equal (fun s => map (parse_nat base) (split_on c s))) in E. rewrite !parse_join_fmt in E by assumption.
  clear -E. revert l' E. induction l as [|a l IH]; intros [|b l'] E; try discriminate; [reflexivity|]. injection E as -> E. f_equal. apply IH, E.
Qed.

Lemma is_bytes_nonneg d : is_bytes d -> Forall (fun n => 0 <= n) d.
Proof. intros H. eapply Forall_impl; [|exact H]. unfold is_byte. cbn. lia. Qed.

Lemma sep46 : ~ is_digit_char 46. Proof. unfold is_digit_char. lia. Qed.
Lemma sep58 : ~ is_digit_char 58. Proof. unfold is_digit_char. lia. Qed.
Lemma sep45 : ~ is_digit_char 45. Proof. unfold is_digit_char. lia. Qed.

Lemma ipv4_inj d d' o o' s : is_bytes d -> is_bytes d' -> len d = 4 -> len d' = 4 -> dec_ipv4 (Some d) o = Ok s -> dec_ipv4 (Some d') o' = Ok s -> d = d'.
Proof.
  intros Hd Hd' L L' E E'. unfold dec_ipv4 in E, E'. cbn [need bind] in E, E'. rewrite L in E. rewrite L' in E'. change (4 =? 4) with true in E, E'. cbv iota in E, E'.
  apply (joined_inj 10 0 46); [lia|exact sep46|destruct d; [discriminate L|discriminate]|destruct d'; [discriminate L'|discriminate]|apply is_bytes_nonneg; assumption|apply is_bytes_nonneg; assumption|].
  injection E as E. injection E' as E'. exact (eq_trans E (eq_sym E')).
Qed.

Lemma ipv6_inj d d' o o' s : is_bytes d -> is_bytes d' -> len d = 16 -> len d' = 16 -> dec_ipv6 (Some d) o = Ok s -> dec_ipv6 (Some d') o' = Ok s -> d = d'.
Proof.
  intros Hd Hd' L L' E E'. unfold dec_ipv6 in E, E'. cbn [need bind] in E, E'. rewrite L in E. rewrite L' in E'. change (16 =? 16) with true in E, E'. cbv iota in E, E'.
  destruct (octet_pairs_groups 8 d ltac:(unfold len in L; lia) Hd) as [F Q]. destruct (octet_pairs_groups 8 d' ltac:(unfold len in L'; lia) Hd') as [F' Q'].
  assert (X : octet_pairs d = octet_pairs d'); [|rewrite Q, Q', X; reflexivity].
  apply (joined_inj 16 4 58); [lia|exact sep58|intros Z0; rewrite Z0 in Q; rewrite Q in L; discriminate L|intros Z0; rewrite Z0 in Q'; rewrite Q' in L'; discriminate L'| | |].
  - eapply Forall_impl; [|exact F]. cbn. lia.
  - eapply Forall_impl; [|exact F']. cbn. lia.
  - injection E as E. injection E' as E'. exact (eq_trans E (eq_sym E')).
Qed.

Lemma b64_digit_inj a b : 0 <= a < 64 -> 0 <= b < 64 -> b64_digit a = b64_digit b -> a = b.
Proof.
  intros A B. unfold b64_digit.
  repeat match goal with |- context [if ?c then _ else _] => destruct c eqn:?H end; rewrite ?Z.ltb_lt, ?Z.ltb_ge, ?Z.eqb_eq, ?Z.eqb_neq in *; lia.
Qed.

Lemma b64_not_pad a : 0 <= a < 64 -> b64_digit a <> 61.
Proof. intros A. unfold b64_digit. repeat match goal with |- context [if ?c then _ else _] => destruct c eqn:?H end; rewrite ?Z.ltb_lt, ?Z.ltb_ge, ?Z.eqb_eq, ?Z.eqb_neq in *; lia. Qed.

Lemma base64_inj d s : base64 d s -> forall d', is_bytes d -> is_bytes d' -> base64 d' s -> d = d'.
Proof.
  induction 1 as [|a n E|a b n E|a b c n d s E H IH]; intros d' Hd Hd' H'; inversion H' as [|a' n' E' Q|a' b' n' E' Q|a' b' c' n' e' s' E' H2 Q]; subst; try reflexivity;
    repeat match goal with K : is_bytes (_ :: _) |- _ => apply Forall_cons_iff in K as [? K] | K : Forall is_byte (_ :: _) |- _ => apply Forall_cons_iff in K as [? K] end; unfold is_byte in *;
    repeat match goal with K : b64_digit _ = b64_digit _ |- _ => apply b64_digit_inj in K; [|Z.to_euclidean_division_equations; lia|Z.to_euclidean_division_equations; lia] end;
    try (exfalso; match goal with K : 61 = b64_digit _ |- _ => symmetry in K; revert K | K : b64_digit _ = 61 |- _ => revert K end; apply b64_not_pad; Z.to_euclidean_division_equations; lia).
  - f_equal. Z.to_euclidean_division_equations; lia.
  - assert (a = a' /\ b = b') as [-> ->] by (Z.to_euclidean_division_equations; lia). reflexivity.
  - assert (a = a' /\ b = b' /\ c = c') as (-> & -> & ->) by (Z.to_euclidean_division_equations; lia). f_equal. f_equal. f_equal. apply IH; assumption.
Qed.

Lemma hex_upper_inj d : is_bytes d -> forall d', is_bytes d' -> map upper_digit (bytes_hex d) = map upper_digit (bytes_hex d') -> d = d'.
Proof.
  assert (U : forall a b, 0 <= a < 16 -> 0 <= b < 16 -> upper_digit (digit_char a) = upper_digit (digit_char b) -> a = b).
  { intros a b A B. unfold upper_digit, digit_char. repeat match goal with |- context [if ?c then _ else _] => destruct c eqn:?H end;
      rewrite ?andb_true_iff, ?andb_false_iff, ?Z.ltb_lt, ?Z.ltb_ge, ?Z.leb_le, ?Z.leb_gt in *; lia. }
  induction 1 as [|b d B F IH]; intros d' Hd' E; destruct Hd' as [|b' d' B' F']; try discriminate; [reflexivity|].
  change (bytes_hex (b :: d)) with (digit_char (b / 16) :: digit_char (b mod 16) :: bytes_hex d) in E.
  change (bytes_hex (b' :: d')) with (digit_char (b' / 16) :: digit_char (b' mod 16) :: bytes_hex d') in E. cbn [map] in E. injection E as E1 E2 E3.
  unfold is_byte in B, B'. apply U in E1; [|Z.to_euclidean_division_equations; lia..]. apply U in E2; [|Z.to_euclidean_division_equations; lia..].
  f_equal; [Z.to_euclidean_division_equations; lia|apply IH; assumption].
Qed.

Lemma hex_no_dash d : is_bytes d -> filter (fun c => negb (c =? 45)) (map upper_digit (bytes_hex d)) = map upper_digit (bytes_hex d).
Proof.
  assert (U : forall a, 0 <= a < 16 -> (upper_digit (digit_char a) =? 45) = false).
  { intros a A. apply Z.eqb_neq. unfold upper_digit, digit_char. repeat match goal with |- context [if ?c then _ else _] => destruct c eqn:?H end;
      rewrite ?andb_true_iff, ?andb_false_iff, ?Z.ltb_lt, ?Z.ltb_ge, ?Z.leb_le, ?Z.leb_gt in *; lia. }
  induction 1 as [|b d B F IH]; [reflexivity|]. change (bytes_hex (b :: d)) with (digit_char (b / 16) :: digit_char (b mod 16) :: bytes_hex d). cbn [map filter]. unfold is_byte in B.
  rewrite !U by (Z.to_euclidean_division_equations; lia). cbn [negb]. rewrite IH. reflexivity.
Qed.

Lemma uuid_upper_hex u : is_bytes u -> len u = 16 -> filter (fun c => negb (c =? 45)) (map upper_digit (uuid_str u)) = map upper_digit (bytes_hex u).
Proof.
  intros H L. destruct (five_fields u L) as (a & b & c & d & e & -> & La & Lb & Lc & Ld & Le). rewrite uuid_str_fields by assumption. unfold is_bytes in H. rewrite !Forall_app in H.
  destruct H as (Ha & Hb & Hc & Hd & He). cbn [join]. rewrite !map_app, !filter_app, !hex_no_dash by assumption. cbn [map]. change (upper_digit 45) with 45. cbn [filter Z.eqb negb].
  unfold bytes_hex. rewrite !map_app, !concat_app, !map_app. reflexivity.
Qed.

Lemma uuid_inj d d' o o' s : is_bytes d -> is_bytes d' -> dec_uuid (Some d) o = Ok s -> dec_uuid (Some d') o' = Ok s -> d = d'.
Proof.
  intros Hd Hd' E E'. unfold dec_uuid in E, E'. cbn [need bind] in E, E'. destruct (Z.eqb_spec (len d) 16) as [L|]; [|discriminate E]. destruct (Z.eqb_spec (len d') 16) as [L'|]; [|discriminate E'].
  cbn [guard bind] in E, E'. apply hex_upper_inj; [assumption..|]. rewrite <- !uuid_upper_hex by assumption. congruence.
Qed.

Lemma mask_inj d d' o o' s : is_bytes d -> is_bytes d' -> dec_mask (Some d) o = Ok s -> dec_mask (Some d') o' = Ok s -> d = d'.
Proof.
  intros Hd Hd' E E'. destruct (proj2 (mask_agrees (mkx (fun _ => None) (fun _ _ => Ok []) (fun _ => Ok [])) o) d Hd) as [[-> R]|(N & b & B & R)];
    destruct (proj2 (mask_agrees (mkx (fun _ => None) (fun _ _ => Ok []) (fun _ => Ok [])) o') d' Hd') as [[-> R']|(N' & b' & B' & R')]; rewrite E in R; rewrite E' in R'.
  - reflexivity.
  - rewrite R in R'. discriminate R'.
  - rewrite R in R'. discriminate R'.
  - rewrite R in R'. injection R' as R'. apply app_inv_tail in R'. subst b'. eapply base64_inj; eassumption.
Qed.

Lemma fmt_d_no_dash n : 0 <= n -> ~ In 45 (fmt_d n).
Proof. intros H I. pose proof (fmt_int_nonneg_chars 10 0 n ltac:(lia) H) as F. rewrite Forall_forall in F. apply sep45, F, I. Qed.

Definition sid_line (r a : Z) (subs : list Z) : str := s2z "S-"%string ++ fmt_d r ++ s2z "-"%string ++ fmt_d a ++ s2z "-"%string ++ join (s2z "-"%string) (map fmt_d subs).

Lemma sid_line_split r a subs : 0 <= r -> 0 <= a -> Forall (fun n => 0 <= n) subs ->
  split_on 45 (sid_line r a subs) = [83] :: fmt_d r :: fmt_d a :: match subs with [] => [[]] | _ => map fmt_d subs end.
Proof.
  intros R A F. unfold sid_line. change (s2z "S-"%string ++ fmt_d r ++ s2z "-"%string ++ fmt_d a ++ s2z "-"%string ++ join (s2z "-"%string) (map fmt_d subs))
    with ([83] ++ 45 :: (fmt_d r ++ 45 :: (fmt_d a ++ 45 :: join [45] (map fmt_d subs)))).
  rewrite split_on_app by (cbn; lia). rewrite !split_on_app by (apply fmt_d_no_dash; assumption). do 3 f_equal. destruct subs as [|n subs]; [reflexivity|].
  apply split_join; [discriminate|]. apply Forall_map. eapply Forall_impl; [|exact F]. intros m Hm. apply fmt_d_no_dash, Hm.
Qed.

Lemma sid_line_inj r a l r' a' l' : 0 <= r -> 0 <= a -> Forall (fun n => 0 <= n) l -> 0 <= r' -> 0 <= a' -> Forall (fun n => 0 <= n) l' ->
  sid_line r a l = sid_line r' a' l' -> r = r' /\ a = a' /\ l = l'.
Proof.
  intros R A F R' A' F' E. apply (f_equal (split_on 45)) in E. rewrite !sid_line_split in E by assumption. injection E as E1 E2 E3.
  apply fmt_int_inj in E1; [|lia]. apply fmt_int_inj in E2; [|lia]. split; [exact E1|]. split; [exact E2|]. clear -E3.
  assert (NE : forall n, fmt_d n <> []) by (intros n; apply fmt_int_nonempty; lia).
  destruct l as [|n l], l' as [|n' l']; [reflexivity| | |].
  - cbn [map] in E3. injection E3 as E3 _. symmetry in E3. destruct (NE _ E3).
  - cbn [map] in E3. injection E3 as E3 _. destruct (NE _ E3).
  - set (u := n :: l) in *. set (w := n' :: l') in *. clearbody u w. revert w E3. induction u as [|x u IH]; intros [|y w] E3; try discriminate; [reflexivity|].
    cbn [map] in E3. injection E3 as E4 E5. f_equal; [apply fmt_int_inj in E4; [exact E4|lia]|apply IH, E5].
Qed.

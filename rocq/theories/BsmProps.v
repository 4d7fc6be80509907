(** Properties of the Basic Security Module (BSM) event auditing file reader. *)

From Verif Require Import Base BaseFacts CoreModel CoreProofs VarModel VarFacts SeqModel SeqSpec SeqFacts DictModel MemModel MemSpec MemFacts BsmModel BsmSpec BsmProofs.

(** *** C62: BSM event records *)

(** A token is read exactly if it is stored at the offset; the file position is then behind it. *)
Theorem C62_token : forall content off k p, is_bytes content -> 0 <= off ->
  (read_token content off = Ok (k, p) <-> exists d, token_enc k d /\ stored_at content off d /\ p = off + len d).
Proof. exact token_iff. Qed.
Print Assumptions C62_token.

(** Tokens without sized data have the documented sizes. *)
Theorem C62_token_size : forall k d n, token_enc k d -> documented_size (fst k) = Some n -> len d = n.
Proof.
  intros [t vs] d n T H. apply token_mem_in in T as (ms & data & M & E & ->). cbn [fst snd] in *. rewrite len_cons.
  unfold documented_size in H. destruct t as [|p|p]; try discriminate H; do 8 (try destruct p as [p|p|]; try discriminate H);
    injection H as <-; cbn [bsm_members] in M; injection M as <-; unfold bsm_header, bsm_subject in E; cbn [app repeat] in E;
    repeat match goal with
    | E : mems_enc _ (_ :: _) _ _ |- _ => inversion E; clear E; subst
    | E : mems_enc _ [] _ _ |- _ => inversion E; clear E; subst
    | E : mem_enc _ (MInt _) _ _ |- _ => inversion E; clear E; subst
    | E : mem_enc _ (MConst _ _) _ _ |- _ => inversion E; clear E; subst
    | E : mem_enc _ (fixed _) _ _ |- _ => unfold fixed in E; inversion E; clear E; subst
    end; rewrite ?len_app, ?len_enc_int by assumption;
    repeat match goal with H : len ?d = ?n |- context [len ?d] => rewrite H end; reflexivity.
Qed.
Print Assumptions C62_token_size.

(** Every file of event records, made of a header, tokens and a trailer, is read into exactly the
    tokens of the records, in their order. *)
Theorem C62_file : forall rs content, is_bytes content -> bsm_file rs content ->
  read_bsm (S (length content)) content 0 = Done (Ok rs).
Proof.
  intros rs content Hb H. eapply (file_ok content rs content Hb H); try lia; [|unfold len; lia].
  exists [], []. rewrite app_nil_r. split; reflexivity.
Qed.
Print Assumptions C62_file.

(** A record is read up to its own end, whatever is behind it. *)
Theorem C62_record : forall content off l d fuel, is_bytes content -> 0 <= off -> bsm_record l d -> stored_at content off d -> (length l <= fuel)%nat ->
  read_bsm_record fuel content off = Done (Ok (l, off + len d)).
Proof. exact record_ok. Qed.
Print Assumptions C62_record.

(** A trailer with another record size than the header is a ParseError. *)
Theorem C62_size_mismatch : forall content off h dh body db t dt size size' fuel, is_bytes content -> 0 <= off ->
  header_of size h -> token_enc h dh -> tokens_enc body db -> Forall (fun k => fst k <> 19) body -> trailer_of size' t -> token_enc t dt ->
  stored_at content off (dh ++ db ++ dt) -> len dh + len db < size -> size' <> size -> (S (length body) < fuel)%nat ->
  read_bsm_record fuel content off = Done (Err ParseError).
Proof.
  intros content off h dh body db t dt size size' fuel Hb Ho (Hh & vs & Eh) Th Tb F -> Tt S Hs Hn Hf.
  assert (S' := S). apply stored_at_app in S' as [S1 _]. unfold read_bsm_record.
  assert (E : read_token content off = Ok (h, off + len dh)) by (apply (token_iff _ _ _ _ Hb Ho); exists dh; auto).
  rewrite E. rewrite (proj2 (is_header_iff _) Hh). cbn [negb]. rewrite Eh. change (mint 1 (MI size :: MI 11 :: vs)) with 11. cbn [Z.eqb Pos.eqb negb].
  change (mint 0 (MI size :: MI 11 :: vs)) with size.
  rewrite (tokens_complete content (h :: body) (dh ++ db) (19, [MI 45317; MI size']) dt (off + size) Hb).
  - cbn [rbind]. rewrite last_snoc. unfold record_size. cbn [fst is_header existsb Z.eqb Pos.eqb orb snd].
    change (mint 1 [MI 45317; MI size']) with size'. destruct (Z.eqb_spec size' size); [contradiction|]. reflexivity.
  - constructor; assumption.
  - constructor; [|exact F]. intros E19. rewrite E19 in Hh. cbn [In] in Hh. lia.
  - reflexivity.
  - exact Tt.
  - exact Ho.
  - rewrite <- app_assoc. exact S.
  - rewrite len_app. lia.
  - cbn [length]. exact Hf.
Qed.
Print Assumptions C62_size_mismatch.

(** What is read are tokens that are stored one after the other, from a header of format version
    11; the last token has the record size of the header. Without tokens the record size is 0. *)
Theorem C62_sound : forall fuel content off l p, is_bytes content -> 0 <= off ->
  read_bsm_record fuel content off = Done (Ok (l, p)) ->
  exists h dh size, token_enc h dh /\ stored_at content off dh /\ header_of size h /\
    ((l = [] /\ size = 0 /\ p = off + len dh) \/
     (exists d body, l = h :: body /\ tokens_enc l d /\ stored_at content off d /\ p = off + len d /\
        (trailer_of size (last l h) \/ (exists v, In (fst (last l h)) [20; 21; 116; 121] /\ snd (last l h) = MI size :: v)))).
Proof.
  intros fuel content off l p Hb Ho. unfold read_bsm_record. destruct (read_token content off) as [[h p1]|] eqn:E; [|discriminate].
  assert (E0 := E). apply (token_iff _ _ _ _ Hb Ho) in E as (dh & Th & Sh & ->). destruct (is_header (fst h)) eqn:Hh; cbn [negb]; [|discriminate].
  destruct (header_values _ _ Th Hh) as (size & b & vs & Eh & Hsize). rewrite Eh. change (mint 1 (MI size :: MI b :: vs)) with b.
  change (mint 0 (MI size :: MI b :: vs)) with size. destruct (Z.eqb_spec b 11) as [->|]; cbn [negb]; [|discriminate].
  destruct (record_tokens fuel content off (off + size) (off + len dh)) as [[[l' p']|]|] eqn:R; [|discriminate|discriminate]. cbn [rbind].
  destruct (record_size (last l' h)) as [size'|] eqn:RS; [|discriminate]. destruct (Z.eqb_spec size' size) as [->|]; [|discriminate].
  intros H. assert (l' = l) by congruence. assert (p' = p) by congruence. subst l' p'. clear H.
  exists h, dh, size. split; [exact Th|]. split; [exact Sh|]. split; [split; [apply is_header_iff, Hh|eauto]|].
  pose proof (tokens_sound content fuel Hb off (off + size) (off + len dh) l p Ho R) as (d & T & N1 & N2).
  destruct l as [|k l].
  - left. destruct (N2 eq_refl) as [-> He]. split; [reflexivity|]. split; [lia|reflexivity].
  - right. destruct (N1 ltac:(discriminate)) as [S ->]. exists d, l. assert (k = h).
    { inversion T as [|? ? dk dl K T']. subst. apply stored_at_app in S as [S _].
      assert (Ek : read_token content off = Ok (k, off + len dk)) by (apply (token_iff _ _ _ _ Hb Ho); exists dk; auto). congruence. }
    subst k. split; [reflexivity|]. split; [exact T|]. split; [exact S|]. split; [reflexivity|].
    assert (exists dl, token_enc (last (h :: l) h) dl) as [dl Tl].
    { clear - T. assert (G : forall l d x, l <> [] -> tokens_enc l d -> exists dl, token_enc (last l x) dl).
      { clear. intros l d x. revert d. induction l as [|k l IH]; intros d Hn T; [congruence|]. inversion T as [|? ? dk dl K T']. subst. destruct l as [|k' l]; [exists dk; exact K|].
        apply (IH dl); [discriminate|exact T']. }
      eapply G; [discriminate|exact T]. }
    unfold record_size in RS. destruct (is_header (fst (last (h :: l) h))) eqn:Hl.
    + right. destruct (header_values _ _ Tl Hl) as (a & b & v & El & _). rewrite El in RS. injection RS as RS. rewrite El. 
      exists (MI b :: v). split; [apply is_header_iff, Hl|]. f_equal. f_equal. exact RS.
    + destruct (Z.eqb_spec (fst (last (h :: l) h)) 19) as [E19|]; [|discriminate]. left. destruct (trailer_values _ _ Tl E19) as (a & El & _).
      rewrite El in RS |- *. assert (a = size) by (change (Ok a = Ok size) in RS; congruence). subst a. reflexivity.
Qed.
Print Assumptions C62_sound.

(** Reading any file ends. *)
Theorem C62_ends : forall content, is_bytes content -> exists r, read_bsm (S (length content)) content 0 = Done r.
Proof.
  intros content Hb.
  assert (G : forall fuel off, 0 <= off <= len content -> len content - off < Z.of_nat fuel -> read_bsm fuel content off <> OutOfFuel).
  { induction fuel as [|fuel IH]; intros off Ho Hf; [lia|]. cbn [read_bsm]. destruct (off <? len content); [|discriminate].
    destruct (read_bsm_record (S fuel) content off) as [[[l p]|]|] eqn:R; cbn [rbind]; [|discriminate|].
    - apply C62_sound in R as (h & dh & size & Th & Sh & _ & [(-> & _ & ->)|(d & body & -> & T & S & -> & _)]); [| |exact Hb|lia].
      + pose proof (token_len _ _ Th). apply stored_at_inside in Sh. specialize (IH (off + len dh) ltac:(lia) ltac:(lia)).
        destruct (read_bsm fuel content (off + len dh)) as [[]|]; [discriminate|discriminate|contradiction].
      + apply tokens_length in T. cbn [length] in T. apply stored_at_inside in S. specialize (IH (off + len d) ltac:(lia) ltac:(lia)).
        destruct (read_bsm fuel content (off + len d)) as [[]|]; [discriminate|discriminate|contradiction].
    - exfalso. unfold read_bsm_record in R. destruct (read_token content off) as [[h p]|]; [|discriminate].
      destruct (negb _); [discriminate|]. destruct (negb _); [discriminate|].
      pose proof (tokens_ends content Hb (S fuel) off (off + mint 0 (snd h)) p ltac:(lia) ltac:(lia)) as T.
      destruct (record_tokens _ _ _ _ _) as [[[l p']|]|]; cbn [rbind] in R; [|discriminate|contradiction].
      destruct (record_size _); [|discriminate]. destruct (_ =? _); discriminate. }
  specialize (G (S (length content)) 0 ltac:(pose proof (len_nonneg content); lia) ltac:(unfold len; lia)).
  destruct (read_bsm _ _ _) as [r|]; [eauto|contradiction].
Qed.
Print Assumptions C62_ends.

(** A failed read raises ParseError or AttributeError. *)
Theorem C62_errors : forall fuel content e, is_bytes content -> read_bsm fuel content 0 = Done (Err e) -> e = ParseError \/ e = AttributeError.
Proof.
  intros fuel content e Hb.
  assert (G : forall fuel off, 0 <= off -> read_bsm fuel content off = Done (Err e) -> e = ParseError \/ e = AttributeError).
  { clear fuel. induction fuel as [|fuel IH]; intros off Ho; cbn [read_bsm]; destruct (off <? len content); try discriminate.
    destruct (read_bsm_record (S fuel) content off) as [[[l p]|x]|] eqn:R; cbn [rbind]; [| |discriminate].
    - assert (0 <= p).
      { apply C62_sound in R as (h & dh & size & Th & Sh & _ & [(-> & _ & ->)|(d & body & -> & T & S & -> & _)]); [| |exact Hb|exact Ho];
          [pose proof (len_nonneg dh)|pose proof (len_nonneg d)]; lia. }
      destruct (read_bsm fuel content p) as [[rs|y]|] eqn:E; cbn [rbind]; [discriminate| |discriminate]. intros H'.
      apply (IH p); [assumption|]. congruence.
    - intros H'. assert (x = e) by congruence. subst x. unfold read_bsm_record in R. destruct (read_token content off) as [[h p]|y] eqn:T.
      + destruct (negb _); [left; congruence|]. destruct (negb _); [left; congruence|].
        destruct (record_tokens _ _ _ _ _) as [[[l p']|y]|] eqn:RT; cbn [rbind] in R; [| |discriminate].
        * unfold record_size in R. destruct (is_header _); [destruct (_ =? _); [discriminate|left; congruence]|].
          destruct (fst (last l h) =? 19); [destruct (_ =? _); [discriminate|left; congruence]|right; congruence].
        * left. apply tokens_err in RT; [congruence|exact Hb|exact Ho].
      + left. apply token_err in T; [congruence|exact Hb|exact Ho]. }
  exact (G fuel 0 ltac:(lia)).
Qed.
Print Assumptions C62_errors.

(** A record of 56 bytes: header, a path, two arguments of a program, a return value, trailer. *)
Definition bsm_header_of size := [20; 0; 0; 0; size; 11; 175; 158; 0; 0; 80; 0; 0; 1; 0; 0; 0; 2].
Definition bsm_trailer_of size := [19; 177; 5; 0; 0; 0; size].
Definition bsm_body := [35; 0; 3; 47; 97; 0] ++ [60; 0; 0; 0; 2; 108; 115; 0; 45; 108; 0] ++ [39; 0; 0; 0; 0; 7] ++ [52; 0; 0; 0; 0; 44; 1; 187].

Example C62_case : read_bsm 200 (bsm_header_of 56 ++ bsm_body ++ bsm_trailer_of 56 ++ bsm_header_of 25 ++ bsm_trailer_of 25) 0 =
  Done (Ok [[(20, [MI 56; MI 11; MI 44958; MI 0; MI 1342177281; MI 2]); (35, [MI 3; MB [47; 97; 0]]); (60, [MI 2; MS [[108; 115]; [45; 108]]]);
             (39, [MI 0; MI 7]); (52, [MI 0; ML []]); (44, [MI 443]); (19, [MI 45317; MI 56])];
            [(20, [MI 25; MI 11; MI 44958; MI 0; MI 1342177281; MI 2]); (19, [MI 45317; MI 25])]]).
Proof. vm_compute. reflexivity. Qed.

Example C62_mismatch_case : read_bsm 200 (bsm_header_of 56 ++ bsm_body ++ bsm_trailer_of 55) 0 = Done (Err ParseError).
Proof. vm_compute. reflexivity. Qed.

(** The elements of data tokens are taken to be one byte in size: a data token with elements of
    two bytes is followed by the rest of its data, which is read as further tokens. *)
Theorem C62_data_refuted : exists content vs p, is_bytes content /\ 
  content = [33; 3; 1; 2; 0; 1; 0; 2] /\ read_token content 0 = Ok ((33, vs), p) /\
  vs = [MI 3; MI 1; MI 2; MB [0; 1]] /\ p <> 4 + 2 * element_size 1.
Proof.
  exists [33; 3; 1; 2; 0; 1; 0; 2], [MI 3; MI 1; MI 2; MB [0; 1]], 6. split; [repeat constructor; unfold is_byte; lia|].
  split; [reflexivity|]. split; [vm_compute; reflexivity|]. split; [reflexivity|]. cbn. lia.
Qed.
Print Assumptions C62_data_refuted.

(** A record without a trailer is accepted if the record size is at most the size of the header. *)
Theorem C62_no_trailer_refuted : forall size, 0 <= size <= 18 ->
  exists l, read_bsm 30 (bsm_header_of size) 0 = Done (Ok [l]) /\ Forall (fun k => fst k <> 19) l.
Proof.
  intros size Hs. destruct (Z.eqb_spec size 0) as [->|N0].
  - eexists. split; [vm_compute; reflexivity|constructor].
  - assert (exists n, size = Z.of_nat n /\ (n < 19)%nat) as (n & -> & Hn) by (exists (Z.to_nat size); lia). clear N0 Hs.
    do 19 (destruct n as [|n]; [eexists; split; [vm_compute; reflexivity|repeat constructor; cbn; lia]|]). lia.
Qed.
Print Assumptions C62_no_trailer_refuted.

(** A record whose tokens reach its end before a trailer raises AttributeError. *)
Theorem C62_attribute_refuted : exists content, is_bytes content /\ read_bsm 30 content 0 = Done (Err AttributeError).
Proof. exists (bsm_header_of 21 ++ [44; 1; 187]). split; [repeat constructor; unfold is_byte; lia|]. vm_compute. reflexivity. Qed.
Print Assumptions C62_attribute_refuted.

(** That the trailer is at the end of the record is not checked: what is between the trailer and
    the end of the record is read as the next record. *)
Theorem C62_end_refuted : exists content l1 l2, is_bytes content /\ read_bsm 90 content 0 = Done (Ok [l1; l2]) /\ len content = 50 /\
  nth_error l1 0 = Some (20, [MI 50; MI 11; MI 44958; MI 0; MI 1342177281; MI 2]).
Proof.
  exists (bsm_header_of 50 ++ bsm_trailer_of 50 ++ bsm_header_of 25 ++ bsm_trailer_of 25). do 2 eexists. split; [repeat constructor; unfold is_byte; lia|].
  split; [vm_compute; reflexivity|]. split; reflexivity.
Qed.
Print Assumptions C62_end_refuted.

(** Return values are documented to be signed; negative ones are read as unsigned integers. *)
Theorem C62_return_refuted : forall status z, 0 <= status < 256 -> - 2 ^ 31 <= z < 0 ->
  read_token (39 :: be_enc 1 status ++ be_enc 4 (z mod 2 ^ 32)) 0 = Ok ((39, [MI status; MI (z + 2 ^ 32)]), 6).
Proof.
  intros status z Hs Hz. assert (E : z mod 2 ^ 32 = z + 2 ^ 32) by (rewrite <- (Z.mod_small (z + 2 ^ 32) (2 ^ 32)) by lia; rewrite <- (Z_mod_plus_full z 1 (2 ^ 32)); reflexivity).
  rewrite E. apply token_iff; [constructor; [unfold is_byte; lia|]; apply is_bytes_app; split; apply be_enc_bytes|lia|].
  exists (39 :: be_enc 1 status ++ be_enc 4 (z + 2 ^ 32)). split.
  - eapply token_eq; [eapply (tk_ints 39 [1; 4]%nat [status; z + 2 ^ 32])| reflexivity|].
    + right. right. left. reflexivity.
    + constructor; [exact Hs|]. constructor; [change (256 ^ Z.of_nat 4) with (2 ^ 32); lia|constructor].
    + rewrite app_nil_r. reflexivity.
  - split; [exists [], []; rewrite app_nil_r; split; reflexivity|]. rewrite len_cons, len_app, !len_be_enc. reflexivity.
Qed.
Print Assumptions C62_return_refuted.

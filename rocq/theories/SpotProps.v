(** Properties of the Apple Spotlight store reader. *)

From Verif Require Import Base BaseFacts CoreModel DictModel SpotModel SpotSpec SpotProofs SpotRecProofs SpotTabProofs
  SpotAttrProofs SpotStoreProofs.

(** *** C45: variable size integers *)

(** The bytes of an integer are read as its value, whatever follows them. *)
Theorem C45_decode : forall x rest, vi_ok x -> read_vint (vi_bytes x ++ rest) = Ok (vi_v x, len (vi_bytes x)).
Proof. exact read_vint_ok. Qed.
Print Assumptions C45_decode.

(** Every unsigned 64-bit value can be stored. *)
Theorem C45_complete : forall v, 0 <= v < 2 ^ 64 -> exists x, vi_ok x /\ vi_v x = v.
Proof. exact vi_exists. Qed.
Print Assumptions C45_complete.

(** Whatever the data is, either it is too short or between 1 and 9 bytes are taken, they
    alone determine the value, and the value has 64 bits. *)
Theorem C45_total : forall d, is_bytes d ->
  read_vint d = Err IndexError /\ len d < 9 \/
  exists v n, read_vint d = Ok (v, n) /\ 1 <= n <= 9 /\ n <= len d /\ 0 <= v < 2 ^ 64 /\
    forall rest, is_bytes rest -> read_vint (zfirstn n d ++ rest) = Ok (v, n).
Proof.
  intros d Hd. rewrite read_vint_shape by exact Hd. destruct d as [|b r]; [left; split; [reflexivity|cbn; lia]|].
  inversion Hd as [|? ? Hb Hr]; subst.
  assert (B : (fst (lead_spec b) <= 8)%nat /\ 0 <= snd (lead_spec b) /\ snd (lead_spec b) < 256 /\
     ((fst (lead_spec b) > 4)%nat -> snd (lead_spec b) = 0) /\ ((fst (lead_spec b) <= 4)%nat -> snd (lead_spec b) < 128)).
  { unfold is_byte in Hb. unfold lead_spec. repeat match goal with |- context[?a <? ?b] => destruct (Z.ltb_spec a b) end; cbn [fst snd]; lia. }
  destruct (lead_spec b) as [n v] eqn:El. cbn [fst snd] in B. destruct B as (B1 & B2 & B3 & B4 & B5).
  destruct (Z.leb_spec (Z.of_nat n) (len r)) as [H|H]; [right|left; split; [reflexivity|rewrite len_cons; lia]].
  exists (v * 256 ^ Z.of_nat n + be_int (zfirstn (Z.of_nat n) r)), (1 + Z.of_nat n).
  assert (L : len (zfirstn (Z.of_nat n) r) = Z.of_nat n) by (rewrite len_zfirstn; lia).
  pose proof (be_int_bounds (zfirstn (Z.of_nat n) r) (is_bytes_zfirstn _ _ Hr)) as U. rewrite L in U.
  split; [reflexivity|]. split; [lia|]. split; [rewrite len_cons; lia|]. split.
  - assert (P : 0 < 256 ^ Z.of_nat n) by (apply Z.pow_pos_nonneg; lia).
    assert (M : 256 ^ Z.of_nat n <= 256 ^ 8) by (apply Z.pow_le_mono_r; lia). change (256 ^ 8) with (2 ^ 64) in M.
    destruct (Nat.le_gt_cases n 4) as [C|C].
    + specialize (B5 C). assert (M4 : 256 ^ Z.of_nat n <= 256 ^ 4) by (apply Z.pow_le_mono_r; lia).
      change (256 ^ 4) with 4294967296 in M4. change (2 ^ 64) with 18446744073709551616. nia.
    + rewrite (B4 C). lia.
  - intros rest Hrest.
    assert (Z1 : zfirstn (1 + Z.of_nat n) (b :: r) = b :: zfirstn (Z.of_nat n) r).
    { rewrite !zfirstn_firstn. replace (Z.to_nat (1 + Z.of_nat n)) with (S (Z.to_nat (Z.of_nat n))) by lia. reflexivity. }
    rewrite Z1. cbn [app]. rewrite read_vint_shape.
    2:{ constructor; [exact Hb|]. apply is_bytes_app. split; [apply is_bytes_zfirstn; exact Hr|exact Hrest]. }
    rewrite El. rewrite len_app, L. pose proof (len_nonneg rest). destruct (Z.leb_spec (Z.of_nat n) (Z.of_nat n + len rest)); [|lia].
    rewrite zfirstn_app_len by (symmetry; exact L). reflexivity.
Qed.
Print Assumptions C45_total.

(** Different sequences of bytes of the same length have the same value: from 5 additional bytes on
    the low bits of the first byte are dropped, although a format with 5 or 6 additional bytes has 2
    or 1 of them. *)
Theorem C45_collision_refuted : forall rest, is_bytes rest ->
  (5 <= len rest -> forall a, 0 <= a < 4 -> read_vint (248 + a :: rest) = read_vint (248 :: rest)) /\
  (6 <= len rest -> forall a, 0 <= a < 2 -> read_vint (252 + a :: rest) = read_vint (252 :: rest)).
Proof.
  intros rest Hr. split; intros Hl a Ha.
  - assert (C : a = 0 \/ a = 1 \/ a = 2 \/ a = 3) by lia.
    rewrite !read_vint_shape by (constructor; [unfold is_byte; lia|exact Hr]).
    destruct C as [->|[->|[->| ->]]]; reflexivity.
  - assert (C : a = 0 \/ a = 1) by lia.
    rewrite !read_vint_shape by (constructor; [unfold is_byte; lia|exact Hr]).
    destruct C as [->| ->]; reflexivity.
Qed.
Print Assumptions C45_collision_refuted.

Example C45_case :
  vi_bytes (mkvi 1 300) = [129; 44] /\ vi_bytes (mkvi 4 (2 ^ 34)) = [244; 0; 0; 0; 0] /\
  read_vint [129; 44; 7] = Ok (300, 2) /\ read_vint [244; 0; 0; 0; 0] = Ok (2 ^ 34, 5) /\
  read_vint [129] = Err IndexError /\ read_vint [249; 1; 2; 3; 4; 5] = Ok (4328719365, 6) /\
  read_vint (255 :: repeat 255 8) = Ok (2 ^ 64 - 1, 9).
Proof. vm_compute. repeat split. Qed.

(** *** C46: streams maps *)

(** Every offset starts a range that ends at the next offset, the last one at the end of the
    data, unless the last offset is 0. *)
Theorem C46_ranges : forall data_size offsets i o, last offsets 0 <> 0 -> nth_error offsets i = Some o ->
  nth_error (offset_ranges data_size offsets) i =
  Some (o, match nth_error offsets (S i) with Some n => n - o | None => data_size - o end).
Proof. exact offset_ranges_nth. Qed.
Print Assumptions C46_ranges.

(** There is a range for every offset, except that the last one is missing if it is 0. *)
Theorem C46_number_of_ranges : forall data_size offsets,
  length (offset_ranges data_size offsets) =
  if last offsets 0 =? 0 then (length offsets - 1)%nat else length offsets.
Proof. exact offset_ranges_length. Qed.
Print Assumptions C46_number_of_ranges.

(** The streams that are stored, with any unused data behind, are the streams that are read,
    if some stream before the last one is not empty. *)
Theorem C46_streams : forall (l : list bytes) unk t1 t2 t3, length unk = 10%nat -> Forall (u 4) unk ->
  concat (removelast l) <> [] -> u 4 (len (concat l)) -> u 4 (len l) ->
  read_streams_map (Some (streams_of l unk t1 t2 t3)) = Ok l.
Proof. exact read_streams_map_ok. Qed.
Print Assumptions C46_streams.

(** A map with one stream has no stream. *)
Theorem C46_single_refuted : forall d unk t1 t2 t3, length unk = 10%nat -> Forall (u 4) unk -> u 4 (len d) ->
  read_streams_map (Some (streams_of [d] unk t1 t2 t3)) = Ok [].
Proof.
  intros d unk t1 t2 t3 H1 H2 H3. rewrite read_streams_map_single by assumption. reflexivity.
Qed.
Print Assumptions C46_single_refuted.

Example C46_case :
  offset_ranges 20 [0; 4; 9] = [(0, 4); (4, 5); (9, 11)] /\ offset_ranges 20 [0] = [] /\
  read_streams_map (Some (streams_of [[1; 2]; []; [3]; [4; 5; 6]] (repeat 7 10) [9] [9; 9] [8; 8])) =
    Ok [[1; 2]; []; [3]; [4; 5; 6]].
Proof. vm_compute. repeat split. Qed.

(** *** C47: LZ4 pages *)

(** The blocks up to the end marker give the content of the page: a compressed block is
    decompressed with the content of the block before it. *)
Theorem C47_page : forall lz4 bs cs pad fuel, lz4_contents lz4 None bs cs -> Forall lz4_stored_ok bs -> (length bs < fuel)%nat ->
  lz4_page fuel lz4 (concat (map lz4_stored_bytes bs) ++ s2z "bv4$" ++ pad) = Done (Ok (concat cs)).
Proof.
  intros lz4 bs cs pad fuel H1 H2 H3. pose proof (lz4_page_blocks lz4 pad bs cs None [] fuel None [] H1 H2 H3) as P.
  cbn [app] in P. exact P.
Qed.
Print Assumptions C47_page.

(** Conversely, a page that can be read consists of complete blocks and an end marker. *)
Theorem C47_sound : forall lz4 data fuel r, is_bytes data -> lz4_page fuel lz4 data = Done (Ok r) ->
  exists bs cs pad, data = concat (map lz4_stored_bytes bs) ++ s2z "bv4$" ++ pad /\
    Forall lz4_stored_ok bs /\ lz4_contents lz4 None bs cs /\ r = concat cs.
Proof.
  intros lz4 data fuel r Hd H. apply (lz4_page_sound lz4 data r Hd) in H; [|lia|discriminate].
  destruct H as (bs & cs & pad & E & O & C & ->). rewrite zskipn_0 in E by lia. exists bs, cs, pad. tauto.
Qed.
Print Assumptions C47_sound.

(** Every block takes at least 8 bytes, so the page is read in a bounded number of steps. *)
Theorem C47_terminates : forall lz4 data fuel, is_bytes data -> len data + 8 <= 8 * Z.of_nat fuel ->
  lz4_page fuel lz4 data <> OutOfFuel.
Proof.
  intros lz4 data fuel Hd H. apply lz4_page_total; [exact Hd|lia|]. pose proof (len_nonneg data). lia.
Qed.
Print Assumptions C47_terminates.

(** Data behind the blocks without a marker, and no data at all. *)
Example C47_case :
  let lz4 := fun (p : option bytes) (n : Z) (d : bytes) => Ok (match p with Some q => q ++ d | None => d end) in
  lz4_page 9 lz4 (concat (map lz4_stored_bytes [LCompressed 2 [1; 2]; LStored [3]; LCompressed 2 [4]]) ++ s2z "bv4$" ++ [0; 0]) =
    Done (Ok [1; 2; 3; 3; 4]) /\
  lz4_page 9 lz4 (concat (map lz4_stored_bytes [LCompressed 2 [1; 2]])) = Done (Err ParseError) /\
  lz4_page 9 lz4 [] = Done (Err UnboundLocalError).
Proof. vm_compute. repeat split. Qed.

(** *** C48: record pages *)

(** The content of a page of records is read from plain pages, zlib pages and LZ4 pages. *)
Theorem C48_page : forall lz4 zlib content off data page fuel,
  record_page lz4 zlib data page -> located content off page -> (length content < fuel)%nat ->
  read_record_page fuel lz4 zlib content off = Done (Ok data).
Proof. intros lz4 zlib content off data page fuel. exact (record_page_ok fuel lz4 zlib content off data page). Qed.
Print Assumptions C48_page.

(** All records are found, where they are stored; a later record replaces an earlier one with
    the same identifier. *)
Theorem C48_records : forall page (l : list srec) fuel t, Forall sr_ok l -> (length l < fuel)%nat ->
  read_records fuel (concat (map sr_bytes l)) page 0 t = Done (Ok (dict_of (descs_of page 0 l) t)).
Proof. exact read_records_done. Qed.
Print Assumptions C48_records.

(** Any data is read in a bounded number of steps. *)
Theorem C48_terminates : forall page d fuel t, is_bytes d -> len d < Z.of_nat fuel ->
  read_records fuel d page 0 t <> OutOfFuel.
Proof.
  intros page d fuel t Hd Hf. apply read_records_total; [exact Hd|lia|]. pose proof (len_nonneg d). lia.
Qed.
Print Assumptions C48_terminates.

(** The used size of a page is not taken into account: a plain page with unused space cannot be
    read. *)
Theorem C48_unused_space_refuted : forall lz4 zlib content off type (l : list srec) k fuel t,
  In type [9; 4105; 16393; 20489] -> Forall sr_ok l -> (1 <= k)%nat ->
  u 4 (20 + len (concat (map sr_bytes l) ++ repeat 0 k)) ->
  located content off (page_of type (20 + len (concat (map sr_bytes l) ++ repeat 0 k)) (20 + len (concat (map sr_bytes l))) 0
    (concat (map sr_bytes l) ++ repeat 0 k)) ->
  (length content + length l + k < fuel)%nat ->
  exists data e, read_record_page fuel lz4 zlib content off = Done (Ok data) /\ In e [ParseError; IndexError] /\
    read_records fuel data off 0 t = Done (Err e).
Proof.
  intros lz4 zlib content off type l k fuel t Ht Hl Hk Hu L Hf. exists (concat (map sr_bytes l) ++ repeat 0 k).
  destruct (read_records_unused off l k fuel t Hl Hk ltac:(lia)) as (e & He & E). exists e. split; [|split; assumption].
  eapply record_page_ok; [|exact L|lia]. apply rp_plain; [exact Ht|exact Hu| |reflexivity].
  unfold u in *. pose proof (len_nonneg (concat (map sr_bytes l))). rewrite len_app in Hu. pose proof (len_nonneg (repeat 0 k)). lia.
Qed.
Print Assumptions C48_unused_space_refuted.

Definition ex_rec (id parent : Z) (attrs : bytes) : srec :=
  mksr (mkvi 1 id) 5 (mkvi 0 9) (mkvi 1 parent) (mkvi 4 1000000) attrs.

Example C48_case :
  let l := [ex_rec 300 2 [1; 2]; ex_rec 301 300 []; ex_rec 300 7 [3]] in
  let content := [1; 2; 3] ++ page_of 9 (20 + len (concat (map sr_bytes l))) 77 0 (concat (map sr_bytes l)) ++ [4] in
  read_record_page 9 (fun _ _ _ => Err OtherError) (fun _ => Err OtherError) content 3 = Done (Ok (concat (map sr_bytes l))) /\
  read_records 9 (concat (map sr_bytes l)) 4096 0 [] =
    Done (Ok [(300, mkrd 4096 52 300 9 7 1000000); (301, mkrd 4096 37 301 9 300 1000000)]).
Proof. vm_compute. repeat split. Qed.

(** *** C49: multi-valued variable size integers *)

(** What is read for integers [l] with the size [x] before them: the integers are read from the
    size on, so the size comes first and as many bytes are missing at the end. *)
Theorem C49_multi_valued : forall pt x (l : list vi) l1 l2 rest, multi pt = true -> vi_ok x -> Forall vi_ok l ->
  vi_v x = len (concat (map vi_bytes l)) -> x :: l = l1 ++ l2 ->
  len (concat (map vi_bytes l2)) = len (vi_bytes x) ->
  read_int_value pt (vi_bytes x ++ concat (map vi_bytes l) ++ rest) =
  Ok (AInts (map vi_v l1), len (vi_bytes x) + vi_v x).
Proof. exact read_int_multi. Qed.
Print Assumptions C49_multi_valued.

(** In all other cases nothing is read. *)
Theorem C49_multi_valued_error : forall pt x (l : list vi) rest, multi pt = true -> vi_ok x -> Forall vi_ok l ->
  vi_v x = len (concat (map vi_bytes l)) ->
  (forall l1 l2, x :: l = l1 ++ l2 -> len (concat (map vi_bytes l2)) <> len (vi_bytes x)) ->
  read_int_value pt (vi_bytes x ++ concat (map vi_bytes l) ++ rest) = Err IndexError.
Proof.
  intros pt x l rest M Hx Hl E N.
  destruct (cut_cases (x :: l) (vi_v x)) as [(l1 & l2 & S & L)|(l1 & y & l2 & S & L)].
  - constructor; assumption.
  - cbn [map concat]. rewrite len_app. pose proof (vi_bytes_pos x Hx). pose proof (len_nonneg (concat (map vi_bytes l))). lia.
  - exfalso. apply (N l1 l2 S). 
    assert (A : len (concat (map vi_bytes (x :: l))) = len (concat (map vi_bytes l1)) + len (concat (map vi_bytes l2))).
    { rewrite S, map_app, concat_app, len_app. reflexivity. }
    cbn [map concat] in A. rewrite len_app in A. lia.
  - apply (read_int_multi_cut pt x l l1 y l2 rest); assumption.
Qed.
Print Assumptions C49_multi_valued_error.

(** Single values are right. *)
Theorem C49_single : forall pt x rest, multi pt = false -> vi_ok x ->
  read_int_value pt (vi_bytes x ++ rest) = Ok (AInt (vi_v x), len (vi_bytes x)).
Proof.
  intros pt x rest M Hx. unfold read_int_value. rewrite read_vint_ok by exact Hx. cbn [bind]. rewrite land2, M. reflexivity.
Qed.
Print Assumptions C49_single.

(** The values that are stored are not the values that are read. *)
Theorem C49_values_refuted : exists pt x (l : list vi), multi pt = true /\ vi_ok x /\ Forall vi_ok l /\
  vi_v x = len (concat (map vi_bytes l)) /\ map vi_v l = [5; 6; 7] /\
  read_int_value pt (vi_bytes x ++ concat (map vi_bytes l)) = Ok (AInts [3; 5; 6], 4).
Proof.
  exists 2, (mkvi 0 3), [mkvi 0 5; mkvi 0 6; mkvi 0 7]. split; [reflexivity|]. split; [|split; [|repeat split]].
  - repeat split; cbn [vi_w vi_v]; lia.
  - repeat constructor; cbn [vi_w vi_v]; lia.
Qed.
Print Assumptions C49_values_refuted.

Example C49_case :
  read_int_value 2 [3; 5; 129; 44] = Err IndexError /\ read_int_value 2 [3; 129; 44; 5] = Ok (AInts [3; 300], 4) /\
  read_int_value 0 [129; 44; 9] = Ok (AInt 300, 2).
Proof. vm_compute. repeat split. Qed.

(** *** C50: chains of pages *)

(** The pages of a chain are read in order; a property is the last one that is stored for its
    index. Nothing behind the used part of a page matters. *)
Theorem C50_chain : forall utf8 values content types block kvs n, prop_chain utf8 values content types block kvs n ->
  incl types [17; 33; 129] -> forall fuel own t, own = false \/ ~ In 129 types -> (n < fuel)%nat ->
  read_property_pages fuel utf8 own values content block t = Done (Ok (dict_of kvs t)).
Proof. exact read_property_pages_ok. Qed.
Print Assumptions C50_chain.

(** A page that is followed by itself is read forever. *)
Theorem C50_cycle_refuted : forall utf8 own values content type unc block unk pad, 0 < block -> In type [17; 33; 65; 129] ->
  located content (block * 4096) (prop_page type unc block unk [] pad) -> prop_page_ok type unc block unk [] pad ->
  forall fuel t, read_property_pages fuel utf8 own values content block t = OutOfFuel.
Proof. exact property_cycle. Qed.
Print Assumptions C50_cycle_refuted.

(** The block numbers of map pages that follow each other. *)
Theorem C50_map_pages : forall d blocks n pre post fuel, map_stored d blocks n -> (n < fuel)%nat ->
  read_map_pages fuel (pre ++ d ++ post) (len pre) (len pre + len d) [] = Done (Ok blocks).
Proof. intros d blocks n pre post fuel H Hf. exact (read_map_pages_ok d blocks n H pre post fuel [] Hf). Qed.
Print Assumptions C50_map_pages.

(** A map page with page size 0 is read forever. *)
Theorem C50_map_page_size_refuted : forall pre post size unk1 unk2, 0 < size -> u 4 unk1 -> u 4 unk2 ->
  forall fuel, read_map_pages fuel (pre ++ (s2z "1mbd" ++ le_enc 4 0 ++ le_enc 4 0 ++ le_enc 4 unk1 ++ le_enc 4 unk2) ++ post)
    (len pre) (len pre + size) [] = OutOfFuel.
Proof.
  intros pre post size unk1 unk2 Hs H1 H2 fuel. apply (map_page_zero _ _ _ []); [lia|]. apply map_page_size0; assumption.
Qed.
Print Assumptions C50_map_page_size_refuted.

Definition ex_utf8 (d : bytes) : option str := Some d.
Definition ex_pad (n : nat) (d : bytes) : bytes := d ++ repeat 0 (n - length d).
Definition ex_type (i vt pt : Z) (key : str) : bytes := le_enc 4 i ++ [vt; pt] ++ key ++ [0].
Definition ex_value (i : Z) (name : str) : bytes := le_enc 4 i ++ name ++ [0].

Example C50_case :
  let content := repeat 1 4096 ++
    ex_pad 4096 (prop_page 17 0 3 9 (ex_type 5 7 0 (s2z "a") ++ ex_type 6 11 2 (s2z "bc")) [1; 2; 3]) ++ repeat 2 4096 ++
    prop_page 17 0 0 9 (ex_type 5 8 0 (s2z "d")) [] in
  read_property_pages 9 ex_utf8 false [] content 1 [] = Done (Ok [(5, PType 8 0 (s2z "d")); (6, PType 11 2 (s2z "bc"))]) /\
  read_map_pages 9 ([7; 7] ++ map_page (s2z "1mbd") 1 2 [(8, 3, 1); (9, 4, 1)] [0; 0] ++ map_page (s2z "2mbd") 1 2 [(8, 6, 1)] []) 2
    (2 + len (map_page (s2z "1mbd") 1 2 [(8, 3, 1); (9, 4, 1)] [0; 0] ++ map_page (s2z "2mbd") 1 2 [(8, 6, 1)] [])) [] = Done (Ok [3; 4; 6]).
Proof. vm_compute. repeat split. Qed.

(** *** C79: the attributes of a record *)

(** Attributes are read with their values, up to the ones in the last 4 bytes of the record;
    the loop starts to count at the size of the record, the size does not. *)
Theorem C79_attributes : forall utf8 tb pre post r l1 l2 fuel, sr_ok r -> sr_attrs r = attrs_bytes (l1 ++ l2) ->
  attrs_stored utf8 tb 0 (l1 ++ l2) -> reads l1 l2 -> (length l1 < fuel)%nat ->
  read_record fuel utf8 tb (pre ++ sr_bytes r ++ post) (len pre + 20) = Done (Ok (item_of r l1)).
Proof. exact read_record_ok. Qed.
Print Assumptions C79_attributes.

(** If the last attribute has more than 4 bytes, all attributes are read. *)
Theorem C79_all_attributes : forall utf8 tb pre post r l a fuel, sr_ok r -> sr_attrs r = attrs_bytes (l ++ [a]) ->
  attrs_stored utf8 tb 0 (l ++ [a]) -> 4 < len (snd a) -> (S (length l) < fuel)%nat ->
  read_record fuel utf8 tb (pre ++ sr_bytes r ++ post) (len pre + 20) = Done (Ok (item_of r (l ++ [a]))).
Proof.
  intros utf8 tb pre post r l a fuel Hr E H L Hf. apply (read_record_ok utf8 tb pre post r (l ++ [a]) []).
  - exact Hr.
  - rewrite app_nil_r. exact E.
  - rewrite app_nil_r. exact H.
  - split; [cbn; lia|]. intros l' a' Ea. apply app_inj_tail in Ea. destruct Ea as [_ <-]. change (len (attrs_bytes [])) with 0. lia.
  - rewrite app_length. cbn [length]. lia.
Qed.
Print Assumptions C79_all_attributes.

(** A last attribute of at most 4 bytes, an integer for instance, is lost. *)
Theorem C79_last_attribute_refuted : forall utf8 tb pre post r l a fuel, sr_ok r -> sr_attrs r = attrs_bytes (l ++ [a]) ->
  attrs_stored utf8 tb 0 (l ++ [a]) -> len (snd a) <= 4 -> (forall l' b, l = l' ++ [b] -> 4 < len (snd b) + len (snd a)) ->
  (length l < fuel)%nat ->
  read_record fuel utf8 tb (pre ++ sr_bytes r ++ post) (len pre + 20) = Done (Ok (item_of r l)).
Proof.
  intros utf8 tb pre post r l a fuel Hr E H L Hb Hf. apply (read_record_ok utf8 tb pre post r l [a]); try assumption.
  unfold reads, attrs_bytes. cbn [map concat]. rewrite app_nil_r. split; assumption.
Qed.
Print Assumptions C79_last_attribute_refuted.

(** The attribute of accumulated sizes takes bytes of what follows the record. *)
Theorem C79_accumulated_sizes_refuted : forall utf8 tb pre post r x vt pt d fuel, sr_ok r -> sr_attrs r = vi_bytes x ++ d -> vi_ok x ->
  dict_get (vi_v x) (tb_types tb) = Some (PType vt pt accumulated) -> 4 < len (vi_bytes x ++ d) -> (1 < fuel)%nat ->
  read_record fuel utf8 tb (pre ++ sr_bytes r ++ post) (len pre + 20) =
  Done (Ok (item_of r [(mkattr accumulated pt vt (AData (d ++ zfirstn (len (sr_head r)) post)), [])])).
Proof. exact read_accumulated. Qed.
Print Assumptions C79_accumulated_sizes_refuted.

(** An attribute whose type is not known is an AttributeError. *)
Theorem C79_unknown_type : forall utf8 tb pre post r x d fuel, sr_ok r -> sr_attrs r = vi_bytes x ++ d -> vi_ok x ->
  (forall vt pt key, dict_get (vi_v x) (tb_types tb) <> Some (PType vt pt key)) -> 4 < len (vi_bytes x ++ d) -> (0 < fuel)%nat ->
  read_record fuel utf8 tb (pre ++ sr_bytes r ++ post) (len pre + 20) = Done (Err AttributeError).
Proof. exact read_unknown_type. Qed.
Print Assumptions C79_unknown_type.

Definition ex_tables : tables :=
  mktab [(1, PType 7 0 (s2z "n")); (3, PType 11 3 (s2z "s")); (4, PType 15 2 (s2z "r"))] [] [(8, PList [s2z "x"; s2z "y"])] [].

Example C79_case :
  let attrs := vi_bytes (mkvi 0 1) ++ vi_bytes (mkvi 4 77) ++ vi_bytes (mkvi 0 2) ++ [5] ++ s2z "ab" ++ [22; 2] ++ [0] ++
    vi_bytes (mkvi 0 1) ++ vi_bytes (mkvi 3 8) in
  let r := ex_rec 300 2 attrs in
  read_record 9 ex_utf8 ex_tables ([9] ++ sr_bytes r ++ [1; 2; 3]) 21 =
    Done (Ok (mkitem 300 9 2 1000000 [(s2z "n", mkattr (s2z "n") 0 7 (AInt 77)); (s2z "s", mkattr (s2z "s") 3 11 (AString (s2z "ab")));
      (s2z "r", mkattr (s2z "r") 2 15 (AStrings [s2z "x"; s2z "y"]))])) /\
  read_record 9 ex_utf8 ex_tables (sr_bytes (ex_rec 300 2 [1; 77])) 20 = Done (Ok (mkitem 300 9 2 1000000 [])).
Proof. vm_compute. repeat split. Qed.

(** *** C80: tables in streams maps *)

(** The types and values of streams are numbered from the second stream on; a stream whose
    size is not the stored one is skipped. *)
Theorem C80_streams : forall utf8 number (l : list (option prop)) first streams,
  number = 1 \/ number = 2 -> Forall2 (stream_stored utf8 number) l streams ->
  attribute_streams utf8 number 0 (first :: streams) [] = Ok (dict_of (numbered 1 l) []).
Proof. exact attribute_streams_ok. Qed.
Print Assumptions C80_streams.

(** The lists of streams: the names of the values with the stored indexes. *)
Theorem C80_lists : forall values (l : list prop) first streams, Forall2 (list_stored values) l streams ->
  index_streams values 0 (first :: streams) [] = Ok (dict_of (numbered 1 (map Some l)) []).
Proof. exact index_streams_ok. Qed.
Print Assumptions C80_lists.

(** The values of attributes are read as they are stored, whatever follows them. *)
Theorem C80_values : forall utf8 tb vt pt key v d rest, key <> accumulated -> stored utf8 tb vt pt v d ->
  read_attribute utf8 tb vt pt key (d ++ rest) = Ok (mkattr key pt vt v, len d).
Proof. exact read_attribute_ok. Qed.
Print Assumptions C80_values.

Example C80_case :
  attribute_streams ex_utf8 1 0 [[9]; [4; 7; 0] ++ s2z "a" ++ [0]; [9; 1]; [4; 11; 3] ++ s2z "b" ++ [0]] [] =
    Ok [(1, PType 7 0 (s2z "a")); (3, PType 11 3 (s2z "b"))] /\
  attribute_streams ex_utf8 2 0 [[9]; [2] ++ s2z "a" ++ [0]] [] = Ok [(1, PValue (s2z "a"))] /\
  index_streams [(1, PValue (s2z "a"))] 0 [[9]; [9; 9; 0; 1; 0; 0; 0; 7; 0; 0; 0]] [] = Ok [(1, PList [s2z "a"; []])].
Proof. vm_compute. repeat split. Qed.

(** *** C81: store files *)

(** A store file is read into the tables, descriptors and pages of what it stores. *)
Theorem C81_read : forall utf8 lz4 zlib streams content s, store_file utf8 lz4 zlib streams content s ->
  exists n, forall fuel, (n <= fuel)%nat -> read_store fuel utf8 lz4 zlib streams content = Done (Ok (store_of s)).
Proof. exact read_store_ok. Qed.
Print Assumptions C81_read.

(** The item of an identifier is the one of the last record with the identifier, and asking
    for it changes nothing. *)
Theorem C81_item : forall utf8 lz4 zlib streams content s rs1 l1 r l2 rs2 a1 a2 fuel,
  store_file utf8 lz4 zlib streams content s ->
  fl_records s = rs1 ++ (l1 ++ r :: l2) :: rs2 -> ~ In (rid r) (map rid (l2 ++ concat rs2)) ->
  sr_attrs r = attrs_bytes (a1 ++ a2) -> attrs_stored utf8 (file_tables s) 0 (a1 ++ a2) -> reads a1 a2 -> (length a1 < fuel)%nat ->
  get_item fuel utf8 lz4 zlib content (store_of s) (rid r) = Done (Ok (Some (item_of r a1), store_of s)).
Proof.
  intros utf8 lz4 zlib streams content s rs1 l1 r l2 rs2 a1 a2 fuel H. apply get_item_ok. apply H.
Qed.
Print Assumptions C81_item.

(** There is no item for any other identifier. *)
Theorem C81_none : forall utf8 lz4 zlib streams content s id fuel,
  store_file utf8 lz4 zlib streams content s -> ~ In id (map rid (file_records s)) ->
  get_item fuel utf8 lz4 zlib content (store_of s) id = Done (Ok (None, store_of s)).
Proof.
  intros utf8 lz4 zlib streams content s id fuel H. apply get_item_none. eapply pages_stored_length. apply H.
Qed.
Print Assumptions C81_none.

(** The number of items is the number of different identifiers. *)
Theorem C81_count : forall utf8 lz4 zlib streams content s,
  store_file utf8 lz4 zlib streams content s ->
  number_of_items (store_of s) = Z.of_nat (length (nodup Z.eq_dec (map rid (file_records s)))).
Proof.
  intros utf8 lz4 zlib streams content s H. apply number_of_items_ok. eapply pages_stored_length. apply H.
Qed.
Print Assumptions C81_count.

Definition ex_attrs : bytes := vi_bytes (mkvi 0 5) ++ vi_bytes (mkvi 4 77).
Definition ex_recs : list srec := [ex_rec 300 2 ex_attrs; ex_rec 301 300 (ex_attrs ++ vi_bytes (mkvi 0 1) ++ vi_bytes (mkvi 3 1))].
Definition ex_store : bytes :=
  let map1 := map_page (s2z "2mbd") 0 0 [(1, 6, 1)] [] in
  ex_pad 4096 (store_head_bytes (mkhd (repeat 0 8) 580 (len map1) 0 1 2 3 4 5 (repeat 0 256) (ex_pad 256 (s2z "/a"))) ++ map1) ++
  ex_pad 4096 (prop_page 17 0 0 0 (ex_type 5 7 0 (s2z "n") ++ ex_type 6 15 0 (s2z "r")) []) ++
  ex_pad 4096 (prop_page 33 0 0 0 (ex_value 1 (s2z "v")) []) ++
  ex_pad 4096 (prop_page 65 0 0 0 [1; 2; 3] []) ++
  ex_pad 4096 (prop_page 129 0 0 0 [] []) ++
  ex_pad 4096 (prop_page 129 0 0 0 [] []) ++
  page_of 9 (20 + len (concat (map sr_bytes ex_recs))) (20 + len (concat (map sr_bytes ex_recs))) 0 (concat (map sr_bytes ex_recs)).

Lemma located_check content off d :
  firstn (Z.to_nat off) content ++ d ++ skipn (Z.to_nat off + length d) content = content ->
  length (firstn (Z.to_nat off) content) = Z.to_nat off -> 0 <= off -> located content off d.
Proof.
  intros E L H. exists (firstn (Z.to_nat off) content), (skipn (Z.to_nat off + length d) content).
  split; [symmetry; exact E|]. unfold len. rewrite L. lia.
Qed.

Ltac ex_u := unfold u; vm_compute; split; [intros H; discriminate H|reflexivity].
Ltac ex_located := apply located_check; [vm_compute; reflexivity|vm_compute; reflexivity|vm_compute; intros H; discriminate H].
Ltac ex_vi := unfold vi_ok; cbn [ex_rec sr_id sr_item sr_parent sr_time vi_w vi_v]; split; [lia|]; split; [lia|]; split; intros; cbn; lia.

(** The file of the example is a store file in the sense of the theorems. *)
Example C81_stored : let lz4 := fun _ _ _ => Err OtherError in let zlib := fun _ => Err OtherError in
  store_file ex_utf8 lz4 zlib (fun _ => None) ex_store
    (mkfile (mkhd (repeat 0 8) 580 36 0 1 2 3 4 5 (repeat 0 256) (ex_pad 256 (s2z "/a")))
       [(5, PType 7 0 (s2z "n")); (6, PType 15 0 (s2z "r"))] [(1, PValue (s2z "v"))] [] [] [] [6] [ex_recs]).
Proof.
  intros lz4 zlib. unfold store_file. cbn [fl_head fl_types fl_values fl_unknown fl_lists fl_localized fl_blocks fl_records
    hd_map_offset hd_map_size hd_types hd_values hd_unknown41 hd_lists hd_localized].
  split; [|split; [|split; [|split; [|split; [|split; [|split; [|split]]]]]]].
  - unfold store_head_ok. cbn [hd_unknown hd_map_offset hd_map_size hd_unknown2 hd_types hd_values hd_unknown41 hd_lists hd_localized hd_unknown3 hd_path].
    split; [reflexivity|]. split; [cbn [repeat app]; repeat (apply Forall_cons; [ex_u|]); apply Forall_nil|]. split; [reflexivity|].
    split; [apply Forall_forall; intros x Hx; apply repeat_spec in Hx; subst; split; lia|]. split; [reflexivity|]. split.
    + unfold ex_pad. apply is_bytes_app. split; [repeat (apply Forall_cons; [vm_compute; intuition discriminate|]); apply Forall_nil|].
      apply Forall_forall; intros x Hx; apply repeat_spec in Hx; subst; split; lia.
    + exists (s2z "/a"), (repeat 0 253), (s2z "/a"). split; [reflexivity|]. split; [vm_compute; intuition discriminate|reflexivity].
  - ex_located.
  - exists (map_page (s2z "2mbd") 0 0 [(1, 6, 1)] [] ++ []), 1%nat. split; [|split; [ex_located|reflexivity]].
    apply (ms_page (s2z "2mbd") 0 0 [(1, 6, 1)] [] [] [] 0); [|constructor].
    split; [right; reflexivity|]. split; [ex_u|]. split; [ex_u|]. split; [ex_u|]. constructor; [|constructor]. split; [ex_u|]. split; ex_u.
  - eexists. apply at_pages; [lia|].
    apply (pc_page _ _ _ _ 1 17 0 0 0 (ex_type 5 7 0 (s2z "n") ++ ex_type 6 15 0 (s2z "r")) []
      [(5, PType 7 0 (s2z "n")); (6, PType 15 0 (s2z "r"))] [ex_type 5 7 0 (s2z "n"); ex_type 6 15 0 (s2z "r")] []); [lia|ex_located| | |constructor].
    + split; [ex_u|]. split; [ex_u|]. split; ex_u.
    + right. split; [|split; [reflexivity|left; reflexivity]].
      constructor; [|constructor; [|constructor]].
      * apply (ps_type ex_utf8 [] 5 7 0 (s2z "n")); [ex_u|ex_u|ex_u|vm_compute; intuition discriminate|reflexivity].
      * apply (ps_type ex_utf8 [] 6 15 0 (s2z "r")); [ex_u|ex_u|ex_u|vm_compute; intuition discriminate|reflexivity].
  - eexists. apply at_pages; [lia|].
    apply (pc_page _ _ _ _ 2 33 0 0 0 (ex_value 1 (s2z "v")) [] [(1, PValue (s2z "v"))] [ex_value 1 (s2z "v")] []); [lia|ex_located| | |constructor].
    + split; [ex_u|]. split; [ex_u|]. split; ex_u.
    + right. split; [|split; [reflexivity|left; reflexivity]].
      constructor; [|constructor]. apply (ps_value ex_utf8 [] 1 (s2z "v")); [ex_u|vm_compute; intuition discriminate|reflexivity].
  - eexists. apply lt_pages; [lia|].
    apply (pc_page _ _ _ _ 3 65 0 0 0 [1; 2; 3] [] [] [] []); [lia|ex_located| |left; split; reflexivity|constructor].
    split; [ex_u|]. split; [ex_u|]. split; ex_u.
  - eexists. apply lt_pages; [lia|].
    apply (pc_page _ _ _ _ 4 129 0 0 0 [] [] [] [] []); [lia|ex_located| |right; split; [constructor|split; [reflexivity|left; reflexivity]]|constructor].
    split; [ex_u|]. split; [ex_u|]. split; ex_u.
  - eexists. apply lt_pages; [lia|].
    apply (pc_page _ _ _ _ 5 129 0 0 0 [] [] [] [] []); [lia|ex_located| |right; split; [constructor|split; [reflexivity|left; reflexivity]]|constructor].
    split; [ex_u|]. split; [ex_u|]. split; ex_u.
  - eapply pgs_cons; [lia| |apply (rp_plain lz4 zlib _ 9 (20 + len (concat (map sr_bytes ex_recs))) (concat (map sr_bytes ex_recs)));
      [left; reflexivity|ex_u|ex_u|reflexivity]|ex_located|constructor].
    apply Forall_cons; [|apply Forall_cons; [|apply Forall_nil]]; (split; [ex_vi|]; split; [ex_vi|]; split; [ex_vi|]; split; [ex_vi|ex_u]).
Qed.

Example C81_case :
  let lz4 := fun _ _ _ => Err OtherError in let zlib := fun _ => Err OtherError in
  match read_store 20 ex_utf8 lz4 zlib (fun _ => None) ex_store with
  | Done (Ok st) =>
      number_of_items st = 2 /\
      get_item 20 ex_utf8 lz4 zlib ex_store st 301 =
        Done (Ok (Some (mkitem 301 9 300 1000000 [(s2z "n", mkattr (s2z "n") 0 7 (AInt 77)); (s2z "r", mkattr (s2z "r") 0 15 (AString (s2z "v")))]), st)) /\
      get_item 20 ex_utf8 lz4 zlib ex_store st 302 = Done (Ok (None, st))
  | _ => False
  end.
Proof. vm_compute. repeat split. Qed.

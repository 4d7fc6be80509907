(** Properties of how the format string and the image of a firehose tracepoint are looked up: C93. *)

From Verif Require Import Base BaseFacts CoreModel StrModel UuidModel DictModel AulModel CatModel FhModel ImModel ImSpec ImProofs.
From Coq Require String.
Import String.StringSyntax.

(** *** C93: format strings and images of tracepoints *)

(** The format string reference: 31 bits that are stored and the large shared cache data or, without, the
    large offset data above them. *)
Theorem C93_reference loc r upper : 0 <= r < 2 ^ 32 -> first_set [lo_shared loc; lo_large loc] upper ->
  reference r upper (fst (format_reference loc r)) (snd (format_reference loc r)).
Proof. apply format_reference_ok. Qed.
Print Assumptions C93_reference.

(** The name string reference of a signpost; without one it is 0. *)
Theorem C93_name lower upper r u : 0 <= r < 2 ^ 32 -> first_set [lower] r -> first_set [upper] u ->
  reference r u (fst (name_reference lower upper)) (snd (name_reference lower upper)).
Proof. apply name_reference_ok. Qed.
Print Assumptions C93_name.

(** The program counter is the load address less the text offset of the image. *)
Theorem C93_address loc text a : stored_location loc -> 0 <= a -> (load_address loc a <-> program_counter loc text = a - text).
Proof. apply program_counter_ok. Qed.
Print Assumptions C93_address.

(** Every stored location has one load address. *)
Theorem C93_address_total loc : stored_location loc -> exists a, load_address loc a /\ forall a', 0 <= a' -> load_address loc a' -> a' = a.
Proof.
  intros S. assert (P : 0 <= program_counter loc 0).
  { unfold program_counter. rewrite base_address by exact S. destruct S as (Hl & Hg & Hu & Hs). pose proof (opt_or0 16 _ ltac:(lia) Hg) as G. pose proof (opt_or0 16 _ ltac:(lia) Hu) as U. pose proof (opt_or0 16 _ ltac:(lia) Hs) as Sh.
    rewrite Z.sub_0_r. assert (forall v s, 0 <= v -> 0 <= Z.lor (lo_lower loc + 2 ^ 32 * or0 (lo_upper loc)) (Z.shiftl v s)) as N.
    { intros v s Hv. apply Z.lor_nonneg. split; [lia|]. apply Z.shiftl_nonneg. exact Hv. }
    destruct (truthy (lo_shared loc)); [destruct (truthy (lo_large loc) && negb (or0 (lo_large loc) =? Z.shiftr (or0 (lo_shared loc)) 1))|destruct (truthy (lo_large loc))]; try (apply N; lia); lia. }
  exists (program_counter loc 0). split; [apply (program_counter_ok loc 0); [exact S|exact P|lia]|]. intros a' Pa H. apply (program_counter_ok loc 0) in H; [lia|exact S|exact Pa].
Qed.
Print Assumptions C93_address_total.

(** If the string is not in the uuidtext file the program counter is the lower part of the load address,
    provided that the large offset data was stored as documented, that is its bits do not overlap those
    of the lower part. *)
Theorem C93_bounds loc v : stored_location loc -> not_set (lo_shared loc) -> not_set (lo_upper loc) -> first_set [lo_large loc] v ->
  lo_lower loc < 2 ^ 31 \/ Z.even v = true -> program_counter loc (2 ^ 31 * v) = lo_lower loc.
Proof.
  intros S Ns Nu V O. destruct (C93_address_total loc S) as (a & A & _). apply first_one in V. pose proof S as (Hl & Hg & _ & _). pose proof (opt_or0 16 _ ltac:(lia) Hg) as G.
  unfold program_counter. rewrite base_address by exact S.
  assert (T : truthy (lo_shared loc) = false) by (destruct Ns as [-> | ->]; reflexivity). rewrite T.
  assert (U : or0 (lo_upper loc) = 0) by (destruct Nu as [-> | ->]; reflexivity). rewrite U, Z.mul_0_r, Z.add_0_r.
  destruct (truthy (lo_large loc)) eqn:TL.
  - subst v. destruct O as [O|O].
    + rewrite LdbProofs.lor_add_shift by lia. lia.
    + apply Z.even_spec in O as [w E]. rewrite E. replace (Z.shiftl (2 * w) 31) with (Z.shiftl w 32) by (rewrite !Z.shiftl_mul_pow2 by lia; lia). rewrite LdbProofs.lor_add_shift by lia. lia.
  - apply truthy_false in TL as [E|E]; rewrite E in V; cbn [or0] in V; subst v; lia.
Qed.
Print Assumptions C93_bounds.

(** Otherwise bit 31 is lost: with lower part 0x80000010 and large offset data 1 the load address is
    0x80000010 and the program counter 0x10. *)
Theorem C93_bounds_refuted : let loc := mkloc 0x80000010 (Some 1) None None None in
  stored_location loc /\ load_address loc 0x80000010 /\ program_counter loc (2 ^ 31 * 1) = 0x10.
Proof.
  assert (S : stored_location (mkloc 0x80000010 (Some 1) None None None)) by (repeat split; cbn; lia).
  cbv zeta. split; [exact S|]. split; [apply (program_counter_ok _ 0); [exact S|lia|reflexivity]|reflexivity].
Qed.
Print Assumptions C93_bounds_refuted.

(** The documentation has the dynamic flag only for references up to 0xffffffff. The flag is used for
    larger ones too. *)
Theorem C93_dynamic_refuted : forall r v, 2 ^ 31 <= r < 2 ^ 32 -> 2 <= v < 2 ^ 16 ->
  let x := format_reference (mkloc 0 (Some v) None None None) r in 0xffffffff < fst x /\ snd x = true.
Proof.
  intros r v Hr Hv. cbv zeta. destruct (C93_reference (mkloc 0 (Some v) None None None) r v) as [E D]; [lia|cbn; constructor; [left; reflexivity|constructor; lia]|].
  rewrite E. pose proof (Z.mod_pos_bound r (2 ^ 31) ltac:(lia)). split; [lia|apply D; lia].
Qed.
Print Assumptions C93_dynamic_refuted.

(** The strings file of a tracepoint is that of the main image, of the shared cache, of the first image
    that has the address, or the one named by the tracepoint. *)
Theorem C93_strings q o : stored_request q ->
  (strings_file (rq_flags q) (rq_process q) (rq_uuids q) (rq_loc q) = Ok o <-> strings_of q o).
Proof. intros S. apply strings_file_iff, stored_request_entries, S. Qed.
Print Assumptions C93_strings.

(** The address directly behind an image is taken as in it: the first address of the second of two
    adjacent images is in the second and is given as the first. *)
Theorem C93_entry_refuted : let e := mkue 0x1000 0 0x4000 1 in let e' := mkue 0x1000 1 0x5000 1 in
  entry_has 1 0x5000 e' /\ ~ entry_has 1 0x5000 e /\
  strings_file 8 (Some (mkkn (mkpr 0 0 0 0 0 0 [e; e'] []) None None)) [repeat 1 16; repeat 2 16] (mkloc 0x5000 None (Some 1) None None) = Ok (Some (repeat 1 16, 0x100004000)).
Proof. cbv zeta. split; [split; cbn; lia|]. split; [|vm_compute; reflexivity]. intros [_ H]. cbn in H. lia. Qed.
Print Assumptions C93_entry_refuted.

(** A process without catalog entry, or one without UUID of the kind that the flags ask for, is
    AttributeError, not ParseError. *)
Theorem C93_process_refuted utf8 fs uuids flags loc r dynamic st : type_bits flags true false false \/ by_dsc flags \/ type_bits flags false false true ->
  get_image utf8 fs uuids None flags loc r dynamic st = Err AttributeError.
Proof.
  intros H. unfold get_image, strings_file. rewrite type_value. destruct H as [(-> & -> & ->)|[(b & -> & -> & ->)|(-> & -> & ->)]]; try reflexivity. destruct b; reflexivity.
Qed.
Print Assumptions C93_process_refuted.

(** The images given to tracepoints that are read one after the other, starting with empty caches: each is
    the image of this or of an earlier tracepoint with the same identifier and the same reference. The
    caches of files make no difference, and no cache gets larger than its maximum. *)
Theorem C93_history utf8 fs l is st : Forall stored_request l -> requests utf8 fs l (mkca [] [] []) = Ok (is, st) ->
  length is = length l /\
  (forall n q o, nth_error l n = Some q -> nth_error is n = Some o -> gives utf8 fs (fun q' => In q' (firstn (S n) l)) q o) /\
  len (cc_texts st) <= 64 /\ len (cc_dscs st) <= 64 /\ len (cc_images st) <= 8192.
Proof.
  intros S E. pose proof (requests_ok utf8 fs l _ _ S (inv_start utf8 fs)) as R. rewrite E in R. destruct R as (((_ & L1 & _ & L2) & L3 & _) & L & N). split; [exact L|]. split; [|auto].
  intros n q o H1 H2. specialize (N n q o H1 H2). unfold gives in *. destruct o as [i|]; [|exact N]. destruct N as (u & text & q' & t' & G1 & [[]|G2] & G3). exists u, text, q', t'. auto.
Qed.
Print Assumptions C93_history.

(** If tracepoints with the same identifier and reference are alike, every one gets its own image. *)
Theorem C93_independent utf8 fs l is st : Forall stored_request l -> requests utf8 fs l (mkca [] [] []) = Ok (is, st) ->
  (forall q q' u text text', In q l -> In q' l -> strings_of q (Some (u, text)) -> strings_of q' (Some (u, text')) -> rq_ref q = rq_ref q' -> alike q q' text text') ->
  forall n q o, nth_error l n = Some q -> nth_error is n = Some o ->
  match o with None => strings_of q None | Some i => exists u text, strings_of q (Some (u, text)) /\ image_for utf8 fs q u text i end.
Proof.
  intros S E A n q o H1 H2. destruct (C93_history utf8 fs l is st S E) as (_ & N & _). specialize (N n q o H1 H2). destruct o as [i|]; [|exact N].
  destruct N as (u & text & q' & text' & G1 & G2 & G3 & R & I). exists u, text. split; [exact G1|]. apply image_for_alike with (q' := q') (text' := text'); [|exact R|exact I].
  apply (A q q' u text text'); [eapply nth_error_In; exact H1| |exact G1|exact G3|auto]. rewrite <- (firstn_skipn (Datatypes.S n) l). apply in_or_app. left. exact G2.
Qed.
Print Assumptions C93_independent.

(** Reading ends early only if a tracepoint has no image of its own: all succeed if each would. *)
Theorem C93_total utf8 fs l : Forall stored_request l ->
  (forall q, In q l -> strings_of q None \/ exists u text i, strings_of q (Some (u, text)) /\ image_for utf8 fs q u text i) ->
  exists is st, requests utf8 fs l (mkca [] [] []) = Ok (is, st).
Proof.
  intros S A. pose proof (requests_ok utf8 fs l _ _ S (inv_start utf8 fs)) as R. destruct (requests utf8 fs l (mkca [] [] [])) as [[is st]|e]; [eauto|].
  exfalso. destruct R as (q & I & N & H). destruct (A q I) as [X|(u & text & i & X & Y)]; [exact (N X)|exact (H u text X i Y)].
Qed.
Print Assumptions C93_total.

(** A single lookup fails exactly if the tracepoint has no image, and then the caches do not help unless
    the image values of another one are found. *)
Theorem C93_alone utf8 fs q o : stored_request q ->
  ((exists st, requests utf8 fs [q] (mkca [] [] []) = Ok ([o], st)) <->
   match o with None => strings_of q None | Some i => exists u text, strings_of q (Some (u, text)) /\ image_for utf8 fs q u text i end).
Proof.
  intros S. assert (F : Forall stored_request [q]) by (constructor; [exact S|constructor]). split.
  - intros (st & E). destruct (C93_history utf8 fs [q] [o] st F E) as (_ & N & _). specialize (N 0%nat q o eq_refl eq_refl). destruct o as [i|]; [|exact N].
    destruct N as (u & text & q' & text' & G1 & [<-|[]] & G3 & R & I). pose proof (strings_of_fun q _ _ S G1 G3) as X. assert (text' = text) as -> by congruence. exists u, text. auto.
  - intros H. destruct (C93_total utf8 fs [q] F) as (is & st & E).
    { intros q' [<-|[]]. destruct o as [i|]; [|left; exact H]. destruct H as (u & text & H1 & H2). right. exists u, text, i. auto. }
    destruct (C93_history utf8 fs [q] is st F E) as (L & N & _). destruct is as [|o' [|? ?]]; try discriminate L. specialize (N 0%nat q o' eq_refl eq_refl). exists st. rewrite E. do 2 f_equal. f_equal.
    destruct o' as [i'|].
    + destruct N as (u & text & q' & text' & G1 & [<-|[]] & G3 & R & I). pose proof (strings_of_fun q _ _ S G1 G3) as X. assert (text' = text) as -> by congruence.
      destruct o as [i|]; [|pose proof (strings_of_fun q _ _ S G1 H) as Y; discriminate Y]. destruct H as (w & t & H1 & H2). pose proof (strings_of_fun q _ _ S G1 H1) as Y. assert (w = u /\ t = text) as [-> ->] by (split; congruence).
      pose proof (strings_of_uuid q u text S G1) as [Ub Ul]. pose proof (strings_of_type q u text G1) as T. apply fresh_iff in I; [|exact Ub|lia|exact T]. apply fresh_iff in H2; [|exact Ub|lia|exact T]. congruence.
    + destruct o as [i|]; [|reflexivity]. destruct H as (w & t & H1 & H2). pose proof (strings_of_fun q _ _ S N H1) as Y. discriminate Y.
Qed.
Print Assumptions C93_alone.

(** A uuidtext file with the strings "%d items" and "%s failed" from 0x10 on, for the UUID of bytes 0xa1. *)
Definition case_text : bytes := [0x99; 0x88; 0x77; 0x66; 2; 0; 0; 0; 1; 0; 0; 0; 1; 0; 0; 0; 0x10; 0; 0; 0; 19; 0; 0; 0] ++
  s2z "%d items"%string ++ [0] ++ s2z "%s failed"%string ++ [0] ++ s2z "/bin/ls"%string ++ [0].
Definition case_fs (p : list str) : option bytes :=
  if list_eqb (concat p) (concat [s2z "A1"%string; s2z "A1A1A1A1A1A1A1A1A1A1A1A1A1A1A1"%string]) then Some case_text else None.
Definition case_known : option known := Some (mkkn (mkpr 0 0 0 0 0 0 [] []) (Some (repeat 0xa1 16)) None).

(** The key of the cache has no dynamic flag: a tracepoint with the dynamic reference 0x80000010 makes that
    of a later one with the reference 0x10 "%s", where alone it is the string of the file. *)
Theorem C93_cache_refuted :
  let loc := mkloc 0x2000 None None None None in
  let first := mkrq [] 2 case_known loc (fst (format_reference loc 0x80000010)) (snd (format_reference loc 0x80000010)) in
  let second := mkrq [] 2 case_known loc (fst (format_reference loc 0x10)) (snd (format_reference loc 0x10)) in
  let gives l := match requests Some case_fs l (mkca [] [] []) with Ok (is, _) => map (fun o => match o with Some i => im_string i | None => None end) is | Err _ => [] end in
  gives [first; second] = [Some (s2z "%s"%string); Some (s2z "%s"%string)] /\
  gives [second; first] = [Some (s2z "%d items"%string); Some (s2z "%d items"%string)].
Proof. vm_compute. split; reflexivity. Qed.
Print Assumptions C93_cache_refuted.

(** The examples of the documentation, and a lookup. *)
Example C93_case :
  format_reference (mkloc 0 None None None (Some 2)) 0x117a0720 = (0x1117a0720, false) /\
  program_counter (mkloc 0xecf707e9 (Some 0x8008) None None (Some 2)) 0 = 0x8008ecf707e9 /\
  format_reference (mkloc 0 (Some 0xff97) None None None) 0x777bca21 = (0x7fcbf77bca21, false) /\
  name_reference (Some 0x80000123) (Some 1) = (0x80000123, true) /\
  (let loc := mkloc 0x2010 None None None None in
   match requests Some case_fs [mkrq [] 2 case_known loc 0x19 false; mkrq [] 2 case_known loc 0x80 false] (mkca [] [] []) with
   | Ok (is, st) => is = [Some (mkim (repeat 0xa1 16) (Some (s2z "/bin/ls"%string)) (Some (s2z "%s failed"%string)) 0); Some (mkim (repeat 0xa1 16) (Some (s2z "/bin/ls"%string)) None 0)] /\
       len (cc_texts st) = 1 /\ len (cc_images st) = 2
   | Err _ => False
   end).
Proof. vm_compute. repeat split. Qed.

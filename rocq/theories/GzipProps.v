(** Properties C21, C22 and C71: GZip files. *)

From Verif Require Import Base BaseFacts CoreModel CoreProofs GzipModel GzipSpec GzipProofs.

(** C21: position of every header, of the compressed data and of the footer, the
    decompressed data and the footer values of every member; reading ends at the end of
    the file. *)
Theorem C21_members_walked : forall d buf ms fuel,
  0 < buf -> Forall (readable d buf) ms ->
  (length (concat (map gz_member ms)) + 3 <= fuel)%nat ->
  gzip_read fuel buf d (concat (map gz_member ms)) 0 [] =
  Done (Ok (expected 0 ms, len (concat (map gz_member ms)))).
Proof.
  intros d buf ms fuel Hb Hr Hf.
  exact (gzip_read_members d buf Hb ms [] [] fuel Hr Hf).
Qed.
Print Assumptions C21_members_walked.

(** A member whose compressed data fits the buffer and whose payload is not empty is
    readable. *)
Theorem C21_members_that_fit_the_buffer : forall d buf ms fuel,
  Forall (fun m => gz_ok m /\ z_payload m <> [] /\ len (z_compressed m) <= buf /\
                   exists out, inflates d (z_compressed m) (z_payload m) out) ms ->
  0 < buf -> (length (concat (map gz_member ms)) + 3 <= fuel)%nat ->
  gzip_read fuel buf d (concat (map gz_member ms)) 0 [] =
  Done (Ok (expected 0 ms, len (concat (map gz_member ms)))).
Proof.
  intros d buf ms fuel H Hb Hf. apply C21_members_walked; [exact Hb| |exact Hf].
  clear Hf. eapply Forall_impl; [|exact H]. intros m (Hok & Hp & Hl & out & Hi).
  split; [exact Hok|]. exists out. split; [exact Hi|].
  intros i H0 Hlt. assert (i = 0) by nia. subst i. rewrite Z.mul_0_l, zfirstn_0 by lia.
  replace ((0 + 1) * buf) with buf by lia. rewrite zfirstn_all by lia.
  rewrite (inf_start _ _ _ _ Hi), (inf_end _ _ _ _ Hi). congruence.
Qed.
Print Assumptions C21_members_that_fit_the_buffer.

(** The header in front of the compressed data: every combination of flags. *)
Theorem C21_header_end : forall pre m post,
  gz_ok m -> read_member_header (pre ++ gz_header m ++ post) (len pre) = Ok (len pre + len (gz_header m)).
Proof. exact read_member_header_ok. Qed.
Print Assumptions C21_header_end.

Definition C21_a := mkgz 1 0 3 false (Some [1; 2; 3]) (Some (s2z "n")) None (Some [9; 9])
                      [7; 8; 0] [7; 8] 77.
Definition C21_b := mkgz 4294967295 2 255 true None None (Some (s2z "c")) None
                      [1; 2; 3; 4; 5; 0] [1; 2; 3; 4; 5] 78.

(** Two members, with a buffer of 16 MiB and with a buffer of 2 bytes (which splits the
    compressed data). *)
Example C21_case :
  readable toy 2 C21_b /\ readable toy gz_buffer_size C21_a /\
  gzip_read 80 gz_buffer_size toy (gz_member C21_a ++ gz_member C21_b) 0 [] =
  Done (Ok ([mkgm 0 19 22 [7; 8] 77 2; mkgm 30 42 48 [1; 2; 3; 4; 5] 78 5], 56)).
Proof.
  split; [|split].
  - split; [repeat split; vm_compute; intuition congruence|]. exists toy_out.
    split; [apply (toy_inflates [1; 2; 3; 4; 5]); vm_compute; intuition congruence|].
    intros i H0 H1. change (len (z_compressed C21_b)) with 6 in H1.
    assert (i = 0 \/ i = 1 \/ i = 2) as [-> |[-> | ->]] by lia; vm_compute; discriminate.
  - split; [repeat split; vm_compute; intuition congruence|]. exists toy_out.
    split; [apply (toy_inflates [7; 8]); vm_compute; intuition congruence|].
    intros i H0 H1. change (len (z_compressed C21_a)) with 3 in H1. unfold gz_buffer_size in *.
    assert (i = 0) as -> by lia; vm_compute; discriminate.
  - reflexivity.
Qed.

(** A header with another signature or compression method is refused. *)
Theorem C21_other_header_refused : forall pre a b c d post,
  is_byte a -> is_byte b -> is_byte c -> len d = 7 -> [a; b; c] <> [31; 139; 8] ->
  read_member_header (pre ++ ([a; b; c] ++ d) ++ post) (len pre) = Err ParseError.
Proof.
  intros pre a b c d post Ha Hb Hc Hd Hn. unfold is_byte in *.
  unfold len in Hd. assert (Ld : length d = 7%nat) by lia. clear Hd.
  destruct d as [|d0 [|d1 [|d2 [|d3 [|d4 [|d5 [|d6 [|]]]]]]]]; try discriminate Ld.
  unfold read_member_header.
  erewrite read_struct_map; [|reflexivity|reflexivity|reflexivity].
  cbn [bind firstn skipn map_field endian_int le_int fsize app].
  destruct (Z.eqb_spec (a + 256 * (b + 256 * 0)) 35615) as [E|E]; [|reflexivity].
  cbn [guard bind].
  destruct (Z.eqb_spec (to_signed 1 (c + 256 * 0)) 8) as [E2|E2]; [|reflexivity].
  exfalso. apply Hn. unfold to_signed in E2. change (2 ^ (8 * Z.of_nat 1 - 1)) with 128 in E2.
  change (2 ^ (8 * Z.of_nat 1)) with 256 in E2. destruct (_ <? 128); repeat f_equal; lia.
Qed.
Print Assumptions C21_other_header_refused.

(** A name that is not terminated before the end of the file is refused. *)
Theorem C21_unterminated_name : forall pre fl d tail,
  Z.land fl 4 = 0 -> Z.land fl 8 <> 0 -> len d = 6 -> ~ In 0 tail ->
  read_member_header (pre ++ ([31; 139; 8; fl] ++ d) ++ tail) (len pre) = Err ParseError.
Proof.
  intros pre fl d tail H4 H8 Hd Hn. unfold len in Hd. assert (Ld : length d = 6%nat) by lia. clear Hd.
  destruct d as [|d0 [|d1 [|d2 [|d3 [|d4 [|d5 [|]]]]]]]; try discriminate Ld.
  unfold read_member_header.
  erewrite read_struct_map; [|reflexivity|reflexivity|reflexivity].
  cbn [bind firstn skipn map_field endian_int le_int fsize app].
  change (31 + 256 * (139 + 256 * 0) =? 35615) with true. cbn [guard bind].
  change (to_signed 1 (8 + 256 * 0) =? 8) with true. cbn [guard bind].
  replace (fl + 256 * 0) with fl by lia. rewrite H4. cbn [Z.eqb negb bind].
  destruct (Z.eqb_spec (Z.land fl 8) 0) as [E|_]; [congruence|]. cbn [negb].
  unfold read_cstring. pose proof (len_nonneg pre). destruct (Z.ltb_spec (len pre + 10) 0); [lia|].
  match goal with |- context [zskipn _ (pre ++ ?x)] =>
    replace (pre ++ x) with ((pre ++ [31; 139; 8; fl; d0; d1; d2; d3; d4; d5]) ++ tail)
      by (rewrite <- app_assoc; reflexivity) end.
  rewrite zskipn_app_len by (rewrite len_app; reflexivity).
  apply cstring_end_none in Hn. rewrite Hn. reflexivity.
Qed.
Print Assumptions C21_unterminated_name.

Example C21_refused_case :
  read_member_header ([31; 139; 8; 8; 0; 0; 0; 0; 0; 0] ++ [97; 98]) 0 = Err ParseError /\
  read_member_header ([31; 139; 8; 8; 0; 0; 0; 0; 0; 0] ++ [97; 98; 0]) 0 = Ok 13 /\
  read_member_header [31; 139; 7; 0; 0; 0; 0; 0; 0; 0] 0 = Err ParseError.
Proof. repeat split. Qed.

(** C22: a member with an empty payload: for every decompressor that satisfies the contract
    the position behind the compressed data is taken to be its start. *)
Theorem C22_empty_payload_position : forall d buf pre m post out fuel,
  inflates d (z_compressed m) (z_payload m) out -> z_payload m = [] ->
  len (z_compressed m) <= buf -> (1 <= fuel)%nat ->
  read_member_data fuel buf d ((pre ++ gz_header m) ++ z_compressed m ++ post) []
    (len (pre ++ gz_header m)) [] =
  Done (Ok (len (pre ++ gz_header m), [])).
Proof.
  intros d buf pre m post out fuel Hi Hp Hl Hf. destruct fuel as [|k]; [lia|].
  cbn [read_member_data]. rewrite zskipn_app_len by reflexivity.
  set (c := z_compressed m) in *. set (p := pre ++ gz_header m).
  rewrite zfirstn_app_ge by lia. set (u := zfirstn (buf - len c) post).
  destruct (inf_last _ _ _ _ Hi [] c (c ++ u) u eq_refl (inf_nonempty _ _ _ _ Hi) eq_refl)
    as (r & Er & Es & _).
  rewrite (inf_end _ _ _ _ Hi), Hp in Er. cbn [concat] in Er. rewrite (inf_start _ _ _ _ Hi) in Er.
  cbn [app] in Er. subst r.
  pose proof (inf_nonempty _ _ _ _ Hi) as Hne. clearbody c. destruct c as [|c0 c]; [congruence|].
  change ((c0 :: c) ++ u) with (c0 :: (c ++ u)) in *.
  rewrite read_compressed_cons. unfold bytes in *. rewrite Es. pose proof (len_nonneg p).
  replace (len p + len (c0 :: c ++ u) - len (c0 :: c ++ u)) with (len p) by lia.
  destruct (Z.ltb_spec (len p) 0); [lia|]. reflexivity.
Qed.
Print Assumptions C22_empty_payload_position.

(** C22: the gzip file of an empty file (RFC 1952, compressed data 03 00) is rejected, with
    every header and whatever correct decompressor is used. *)
Theorem C22_empty_file_rejected : forall d buf m out fuel,
  gz_ok m -> z_compressed m = [3; 0] -> z_payload m = [] -> z_crc m = 0 ->
  inflates d [3; 0] [] out -> 2 <= buf -> (2 <= fuel)%nat ->
  gzip_read fuel buf d (gz_member m) 0 [] = Done (Err ParseError).
Proof.
  intros d buf m out fuel Hok Hc Hp Hcrc Hi Hb Hf.
  destruct fuel as [|[|k]]; [lia|lia|]. cbn [gzip_read].
  assert (E : gz_member m = gz_header m ++ [3; 0] ++ gz_footer m) by (unfold gz_member; rewrite Hc; reflexivity).
  assert (Ef : gz_footer m = repeat 0 8) by (unfold gz_footer; rewrite Hcrc, Hp; reflexivity).
  rewrite E, Ef. pose proof (len_nonneg (gz_header m)).
  destruct (Z.ltb_spec 0 (len (gz_header m ++ [3; 0] ++ repeat 0 8))) as [_|Hx];
    [|rewrite len_app in Hx; change (len ([3; 0] ++ repeat 0 8)) with 10 in Hx; lia].
  pose proof (read_member_header_ok [] m ([3; 0] ++ repeat 0 8) Hok) as Eh.
  cbn [app] in Eh. change (len (@nil Z)) with 0 in Eh. rewrite Z.add_0_l in Eh.
  cbn [app]. rewrite Eh.
  rewrite <- Hc, <- Hp in Hi.
  pose proof (C22_empty_payload_position d buf [] m (repeat 0 8) out (S (S k)) Hi Hp) as D.
  rewrite Hc in D. cbn [app] in D. unfold bytes in *. rewrite D; [|change (len [3; 0]) with 2; lia|lia].
  unfold read_member_footer.
  pose proof (read_struct_map (gz_header m) gz_footer_layout [3; 0; 0; 0; 0; 0; 0; 0] [0; 0] [VI 3; VI 0] _
                eq_refl eq_refl eq_refl) as R.
  cbn [app] in R. cbn [repeat]. unfold bytes in *. rewrite R. cbn [bind].
  match goal with |- context [?a <? ?b] => destruct (Z.ltb_spec a b) as [_|Hx] end;
    [|rewrite len_app in Hx; change (len [3; 0; 0; 0; 0; 0; 0; 0; 0; 0]) with 10 in Hx; lia].
  unfold read_member_header.
  match goal with |- context [read_struct ?c ?ks ?o] => destruct (read_struct c ks o) as [vs|e] eqn:Er end.
  - apply read_struct_inside in Er; [|cbn; lia]. exfalso.
    rewrite len_app in Er. change (len [3; 0; 0; 0; 0; 0; 0; 0; 0; 0]) with 10 in Er.
    change (Z.of_nat (struct_size gz_header_layout)) with 10 in Er. lia.
  - apply read_struct_errors in Er. destruct Er as [[_ Hneg] | [-> _]]; [lia|reflexivity].
Qed.
Print Assumptions C22_empty_file_rejected.

(** A decompressor that inflates 03 00 to nothing exists. *)
Definition C22_toy : decomp :=
  mkdecomp (fun _ _ => Ok []) (fun calls => zskipn 2 (concat calls)).
Definition C22_member := mkgz 0 0 3 false None None None None [3; 0] [] 0.

Example C22_case : inflates C22_toy [3; 0] [] (fun _ => []) /\ gz_ok C22_member /\
  gzip_read 30 gz_buffer_size C22_toy (gz_member C22_member) 0 [] = Done (Err ParseError).
Proof.
  split; [|split].
  - split; try discriminate; try reflexivity.
    + intros calls y q E. exists []. repeat split. cbn [C22_toy d_unused].
      rewrite concat_app. cbn [concat]. rewrite app_nil_r. apply zskipn_all.
      rewrite app_assoc in E. assert (L : len [3; 0] = len (concat calls ++ y) + len q) by (rewrite <- len_app, <- E; reflexivity).
      change (len [3; 0]) with 2 in L. pose proof (len_nonneg q). lia.
    + intros calls x y u E _ ->. exists []. repeat split. cbn [C22_toy d_unused].
      rewrite concat_app. cbn [concat]. rewrite app_nil_r, app_assoc, <- E. apply zskipn_app_len. reflexivity.
  - repeat split; vm_compute; intuition congruence.
  - reflexivity.
Qed.

(** C71: reading stops for every file, with every decompressor that leaves over fewer bytes
    than it was given whenever it outputs something. *)
Theorem C71_gzip_terminates : forall d buf content fuel,
  consumes d -> 0 < buf -> is_bytes content -> (length content + 2 <= fuel)%nat ->
  gzip_read fuel buf d content 0 [] <> OutOfFuel.
Proof.
  intros d buf content fuel Hd Hb Hc Hf. apply gzip_read_terminates; auto; unfold len; lia.
Qed.
Print Assumptions C71_gzip_terminates.

Lemma toy_consumes : consumes toy.
Proof.
  intros calls y r. cbn [toy d_step d_unused]. destruct (cstring_end (concat calls)) eqn:E.
  - injection 1 as <-. congruence.
  - intros _ _ Hy. rewrite concat_app. cbn [concat]. rewrite app_nil_r.
    apply cstring_end_none in E.
    assert (0 < len y) by (destruct y; [congruence|rewrite len_cons; pose proof (len_nonneg y); lia]).
    destruct (cstring_end (concat calls ++ y)) as [s|] eqn:E2; [|rewrite len_nil; lia].
    apply cstring_end_spec in E2. destruct E2 as (rest & E2 & Hn).
    rewrite len_zskipn, len_app.
    assert (len (concat calls) <= len s); [|lia].
    destruct (Z.leb_spec (len (concat calls)) (len s)) as [|Hlt]; [assumption|]. exfalso. apply E.
    assert (In 0 (zfirstn (len (concat calls)) (s ++ 0 :: rest))).
    { rewrite zfirstn_app_ge by lia. apply in_or_app. right.
      cbn [zfirstn]. destruct (Z.leb_spec (len (concat calls) - len s) 0); [lia|now left]. }
    rewrite <- E2, zfirstn_app_len in H0 by reflexivity. exact H0.
Qed.

(** A file of garbage behind a member. *)
Example C71_case :
  consumes toy /\
  gzip_read 60 4 toy (gz_member C21_a ++ [31; 139; 8; 4; 0; 0; 0; 0; 0; 0; 255; 255; 1]) 0 [] =
  Done (Err ParseError).
Proof. split; [exact toy_consumes|reflexivity]. Qed.

(** Properties C31 to C33: Prefetch hashes and SuperFastHash. *)

From Verif Require Import Base BaseFacts CoreModel HashModel HashSpec HashProofs.

(** C31: for every path and every upper case mapping both functions have the same outcome. *)
Theorem C31_hash_2008_is_vista : forall upper path, exists fuel0, forall fuel, (fuel0 <= fuel)%nat ->
  prefetch_2008 fuel upper path = Done (prefetch_vista upper path).
Proof.
  intros upper path. unfold prefetch_2008, prefetch_vista.
  destruct (utf16le_encode (upper path)) as [d|e]; [|exists 0%nat; reflexivity].
  exists (length d). intros fuel Hf. cbn [bind]. apply prefetch_2008_is_vista. exact Hf.
Qed.
Print Assumptions C31_hash_2008_is_vista.

(** On byte strings of any length. *)
Theorem C31_hash_2008_is_vista_bytes : forall d fuel, (length d <= fuel)%nat ->
  prefetch_2008_bytes fuel d = Done (Ok (prefetch_vista_bytes d)).
Proof. exact prefetch_2008_is_vista. Qed.
Print Assumptions C31_hash_2008_is_vista_bytes.

(** Both are the polynomial hash with base 37 and start value 314159. *)
Theorem C31_closed_form : forall d, prefetch_vista_bytes d = (314159 * 37 ^ len d + poly37 d) mod 2 ^ 32.
Proof.
  intros d. unfold prefetch_vista_bytes. rewrite hash_fold_poly. destruct d; [reflexivity|]. reflexivity.
Qed.
Print Assumptions C31_closed_form.

Example C31_case :
  let path := s2z "\DEVICE\HARDDISKVOLUME1\WINDOWS\SYSTEM32\CMD.EXE" in
  prefetch_2008 200 (fun s => s) path = Done (prefetch_vista (fun s => s) path) /\
  prefetch_vista (fun s => s) path = Ok 2301648199.
Proof. vm_compute. split; reflexivity. Qed.

(** C32: ranges, for every path that has an encoding. *)
Theorem C32_ranges : forall upper path d, utf16le_encode (upper path) = Ok d ->
  (exists h, prefetch_xp upper path = Ok h /\ 0 <= h < 1000000007) /\
  (exists h, prefetch_vista upper path = Ok h /\ 0 <= h < 2 ^ 32).
Proof.
  intros upper path d E. unfold prefetch_xp, prefetch_vista. rewrite E. cbn [bind]. split.
  - eexists. split; [reflexivity|]. rewrite prefetch_xp_closed. apply Z.mod_pos_bound. lia.
  - eexists. split; [reflexivity|]. apply fold_hash_bounds. lia.
Qed.
Print Assumptions C32_ranges.

(** Every string without surrogate code points has an encoding. *)
Theorem C32_encodable : forall s, Forall scalar s -> exists d, utf16le_encode s = Ok d.
Proof. intros s H. destruct (utf16le_encode_ok s H) as (d & E & _). eauto. Qed.
Print Assumptions C32_encodable.

(** The XP hash: absolute value of the signed 32-bit hash modulo 1000000007. *)
Theorem C32_xp_closed_form : forall d,
  prefetch_xp_bytes d = Z.abs (s32 (poly37 d * 314159269 mod 2 ^ 32)) mod 1000000007.
Proof. exact prefetch_xp_closed. Qed.
Print Assumptions C32_xp_closed_form.

Example C32_case :
  prefetch_xp (fun s => s) (s2z "\DEVICE\HARDDISKVOLUME1\WINDOWS\SYSTEM32\CMD.EXE") = Ok 142295041 /\
  utf16le_encode [66; 128512] = Ok [66; 0; 61; 216; 0; 222] /\ utf16le_encode [55296] = Err ValueError.
Proof. vm_compute. repeat split. Qed.

(** C33: total, in range, and equal to the reference on 32-bit words that reads all bytes as
    unsigned. *)
Theorem C33_reference : forall key, super_fast_hash key = Ok (sfh_ref (fun b => b) key).
Proof. exact super_fast_hash_ref. Qed.
Print Assumptions C33_reference.

Theorem C33_range : forall key, exists h, super_fast_hash key = Ok h /\ 0 <= h < 2 ^ 32.
Proof. intros key. rewrite super_fast_hash_ref. eexists. split; [reflexivity|]. apply sfh_ref_bounds. Qed.
Print Assumptions C33_range.

Theorem C33_empty_key : super_fast_hash [] = Ok 0.
Proof. reflexivity. Qed.
Print Assumptions C33_empty_key.

(** The hash of Chromium (last byte read as signed char): equal for every key whose length is
    0 or 2 modulo 4 or whose last byte is below 128. *)
Theorem C33_chromium : forall key, tail_positive key -> super_fast_hash key = Ok (sfh_ref signed_char key).
Proof. intros key H. rewrite super_fast_hash_ref, sfh_ref_signed by exact H. reflexivity. Qed.
Print Assumptions C33_chromium.

(** Not for every key. *)
Theorem C33_chromium_refuted : exists key, is_bytes key /\ super_fast_hash key <> Ok (sfh_ref signed_char key).
Proof. exists [200]. split; [repeat constructor; unfold is_byte; lia|]. vm_compute. discriminate. Qed.
Print Assumptions C33_chromium_refuted.

Example C33_case :
  super_fast_hash (s2z "http://www.google.com/favicon.ico") = Ok 97293127 /\
  tail_positive (s2z "http://www.google.com/favicon.ico").
Proof. split; [vm_compute; reflexivity|]. right. right. cbn. lia. Qed.

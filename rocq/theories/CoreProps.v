(** Properties C01 - C08: file access core. *)

From Verif Require Import Base BaseFacts CoreModel CoreSpec CoreProofs.

(** C01: a data range reads like an in-memory file that holds the window only. *)
Theorem C01_range_read_is_window : forall r f n,
  usable r -> match n with Some k => 0 <= k | None => True end ->
  exists f',
    dr_read r f n =
      (let d := mem_read (view (fdata f) (dr_offset r) (dr_size r)) (dr_cur r) n in
       (Ok d, mkrange (dr_offset r) (dr_size r) (dr_cur r + len d), f'))
    /\ fdata f' = fdata f.
Proof. exact dr_read_view. Qed.
Print Assumptions C01_range_read_is_window.

(** C01, in absolute positions: every delivered byte lies inside the window. *)
Theorem C01_range_read_confined : forall r f n d r' f' i b,
  usable r -> match n with Some k => 0 <= k | None => True end ->
  dr_read r f n = (Ok d, r', f') -> nth_error d i = Some b ->
  dr_cur r + Z.of_nat i < dr_size r /\
  nth_error (fdata f) (Z.to_nat (dr_offset r + dr_cur r) + i) = Some b.
Proof. exact dr_read_bytes. Qed.
Print Assumptions C01_range_read_confined.

Example C01_case :
  usable (mkrange 2 3 1) /\
  fst (fst (dr_read (mkrange 2 3 1) (mkfile [10;11;12;13;14;15;16] 0) (Some 9))) = Ok [13;14].
Proof. split; [repeat split; cbn; lia | reflexivity]. Qed.

(** An invalid window is rejected and nothing moves. *)
Theorem C01_range_invalid_window : forall r f n,
  dr_offset r < 0 \/ dr_size r < 0 -> dr_read r f n = (Err OSError, r, f).
Proof. exact dr_read_bad_window. Qed.
Print Assumptions C01_range_invalid_window.

(** The guard on the size is necessary: read(-1) delivers a byte behind the window. *)
Theorem C01_range_negative_size_refuted :
  exists r f n d r' f' i b,
    usable r /\ dr_read r f (Some n) = (Ok d, r', f') /\ nth_error d i = Some b /\
    dr_size r <= dr_cur r + Z.of_nat i.
Proof.
  exists (mkrange 1 2 0), (mkfile [10;11;12;13] 0), (-1), [11;12;13], (mkrange 1 2 3),
         (mkfile [10;11;12;13] 4), 2%nat, 13.
  repeat split; vm_compute; congruence.
Qed.
Print Assumptions C01_range_negative_size_refuted.

(** C02 *)
Theorem C02_sequential_reads : forall sizes r f,
  usable r -> Forall (fun n => 0 <= n) sizes ->
  exists outs r' f',
    dr_run r f (map (fun n => RRead (Some n)) sizes) =
      (map (fun d => OData (Ok d)) outs, r', f') /\
    concat outs = zfirstn (sumz sizes)
                    (zskipn (dr_cur r) (view (fdata f) (dr_offset r) (dr_size r))) /\
    dr_tell r' = dr_cur r + len (concat outs) /\
    dr_offset r' = dr_offset r /\ dr_size r' = dr_size r /\ fdata f' = fdata f.
Proof. exact dr_reads_seq. Qed.
Print Assumptions C02_sequential_reads.

Example C02_case :
  usable (dr_new 1 4) /\ Forall (fun n => 0 <= n) [1; 0; 2; 7] /\
  fst (fst (dr_run (dr_new 1 4) (mkfile [10;11;12;13;14;15;16] 0)
              (map (fun n => RRead (Some n)) [1; 0; 2; 7]))) =
  [OData (Ok [11]); OData (Ok []); OData (Ok [12;13]); OData (Ok [14])].
Proof. repeat split; repeat constructor; cbn; lia. Qed.

(** C03 *)
Theorem C03_seek_exact : forall r off wh,
  0 <= dr_size r ->
  dr_seek r off wh =
    match seek_target (dr_cur r) (dr_size r) off wh with
    | Some t => if t <? 0 then (Err OSError, r)
                else (Ok tt, mkrange (dr_offset r) (dr_size r) t)
    | None => (Err OSError, r)
    end.
Proof. exact dr_seek_spec. Qed.
Print Assumptions C03_seek_exact.

Theorem C03_seek_failure_keeps_state : forall r off wh e r',
  dr_seek r off wh = (Err e, r') -> e = OSError /\ r' = r.
Proof. exact dr_seek_error_state. Qed.
Print Assumptions C03_seek_failure_keeps_state.

Theorem C03_read_behind_end : forall r f n,
  usable r -> dr_size r <= dr_cur r -> dr_read r f n = (Ok [], r, f).
Proof. exact dr_read_past_end. Qed.
Print Assumptions C03_read_behind_end.

Example C03_case :
  dr_seek (mkrange 5 10 4) (-3) 2 = (Ok tt, mkrange 5 10 7) /\
  dr_seek (mkrange 5 10 4) (-5) 1 = (Err OSError, mkrange 5 10 4) /\
  dr_seek (mkrange 5 10 4) 0 3 = (Err OSError, mkrange 5 10 4) /\
  usable (mkrange 5 10 12) /\ 10 <= dr_cur (mkrange 5 10 12).
Proof. repeat split; cbn; lia. Qed.

(** C04: [i] sees in the schedule what it would see alone, whatever the position of
    the parent is when it starts. *)
Theorem C04_ranges_independent : forall ops rs f g i r,
  nth_error rs i = Some r -> fdata f = fdata g ->
  outputs_of i (dr_interleave rs f ops) = fst (fst (dr_run r g (project i ops))).
Proof. exact interleave_solo. Qed.
Print Assumptions C04_ranges_independent.

Example C04_case :
  dr_interleave [dr_new 0 2; dr_new 2 3] (mkfile [1;2;3;4;5;6] 0)
    [SRange 0 (RRead (Some 1)); SRange 1 (RRead (Some 2)); SParentSeek 5;
     SRange 0 (RRead None); SParentRead 1; SRange 1 (RRead None)] =
  [(0%nat, OData (Ok [1])); (1%nat, OData (Ok [3;4]));
   (0%nat, OData (Ok [2])); (1%nat, OData (Ok [5]))].
Proof. reflexivity. Qed.

(** C05 *)
Theorem C05_read_all_or_nothing : forall f off n,
  match read_data (Some f) off n with
  | Ok (d, f') => 0 <= off /\ 0 <= n /\ (n = 0 \/ off + n <= len (fdata f)) /\
                  d = zfirstn n (zskipn off (fdata f)) /\ len d = n /\ fdata f' = fdata f
  | Err ParseError => 0 <= off /\ (n = -1 \/ (0 < n /\ len (fdata f) < off + n))
  | Err OSError => off < 0
  | Err ValueError => 0 <= off /\ n < -1
  | Err _ => False
  end.
Proof. exact read_data_total. Qed.
Print Assumptions C05_read_all_or_nothing.

Example C05_case :
  read_data (Some (mkfile [1;2;3;4] 0)) 1 2 = Ok ([2;3], mkfile [1;2;3;4] 3) /\
  read_data (Some (mkfile [1;2;3;4] 0)) 3 2 = Err ParseError /\
  read_data (Some (mkfile [1;2;3;4] 0)) 0 (-1) = Err ParseError /\
  read_data (Some (mkfile [1;2;3;4] 0)) 0 (-2) = Err ValueError /\
  read_data (Some (mkfile [1;2;3;4] 0)) (-1) 2 = Err OSError.
Proof. repeat split. Qed.

(** C06 *)
Theorem C06_structure_mapped_from_its_bytes : forall A (m : dtmap A) fuel f off a n f',
  read_structure fuel m f off = Done (Ok (a, n, f')) ->
  0 <= off /\ 0 <= n /\ fdata f' = fdata f /\
  len (zfirstn n (zskipn off (fdata f))) = n /\
  m_map m (zfirstn n (zskipn off (fdata f))) = MOk a.
Proof. intros A. exact read_structure_sound. Qed.
Print Assumptions C06_structure_mapped_from_its_bytes.

Theorem C06_structure_errors : forall A (m : dtmap A) fuel f off e,
  read_structure fuel m f off = Done (Err e) ->
  e = ParseError \/ (e = OSError /\ off < 0) \/
  (e = ValueError /\ (m_hint0 m < -1 \/ exists d, m_map m d = MTooSmall /\ m_hint m d < len d - 1)).
Proof. intros A. exact read_structure_error. Qed.
Print Assumptions C06_structure_errors.

(** A map whose size hints never shrink (as those of dtFabric) therefore raises ParseError only,
    unless the offset is negative. *)
Theorem C06_structure_errors_growing : forall A (m : dtmap A) fuel f off e,
  0 <= m_hint0 m -> (forall d, m_map m d = MTooSmall -> len d <= m_hint m d) -> 0 <= off ->
  read_structure fuel m f off = Done (Err e) -> e = ParseError.
Proof.
  intros A m fuel f off e H0 Hg Ho E. apply C06_structure_errors in E as [E|[[_ E]|[_ [E|[d [E1 E2]]]]]]; [exact E|lia|lia|].
  apply Hg in E1. lia.
Qed.
Print Assumptions C06_structure_errors_growing.

(** Fixed-size structures: reading succeeds exactly when the bytes are present, and
    yields the stored field values. *)
Theorem C06_fixed_structure_complete : forall pre ks vs post off,
  Forall2 fval_ok ks vs -> off = len pre -> (0 < struct_size ks)%nat ->
  exists fuel f',
    read_structure fuel (struct_map ks) (mkfile (pre ++ enc_struct ks vs ++ post) 0) off =
    Done (Ok (vs, Z.of_nat (struct_size ks), f')).
Proof.
  intros pre ks vs post off H E Hs. eexists. eexists.
  rewrite read_struct_is_read_structure by exact Hs. cbn [fdata].
  rewrite read_struct_enc by assumption. reflexivity.
Qed.
Print Assumptions C06_fixed_structure_complete.

(** A zero-terminated string map: grows one byte at a time. *)
Definition cstring_map : dtmap bytes :=
  mkmap 1 (fun d => if existsb (Z.eqb 0) d then MOk d else MTooSmall) (fun d => len d + 1).

Example C06_case :
  read_structure 20 cstring_map (mkfile [7;65;66;0;9] 0) 1 =
  Done (Ok ([65;66;0], 3, mkfile [7;65;66;0;9] 4)) /\
  read_structure 20 cstring_map (mkfile [7;65;66] 0) 1 = Done (Err ParseError).
Proof. split; reflexivity. Qed.

(** C07 *)
Theorem C07_structure_read_terminates : forall A (m : dtmap A) f off,
  read_structure (Z.to_nat (len (fdata f) - off) + 2) m f off <> OutOfFuel.
Proof. intros A. exact read_structure_fuel. Qed.
Print Assumptions C07_structure_read_terminates.

(** A map whose hint always asks for more. *)
Example C07_case :
  let m := mkmap 1 (fun _ => MTooSmall) (fun d => len d + 1) : dtmap unit in
  read_structure 5 m (mkfile [1;2;3] 0) 0 = Done (Err ParseError) /\
  read_structure 3 m (mkfile [1;2;3] 0) 0 = OutOfFuel.
Proof. split; reflexivity. Qed.

(** C08: the outcomes of any history are those of the two-state protocol. *)
Theorem C08_open_close_protocol : forall ops,
  phase_run PClosed 0 ops =
  (fst (o_run o_init ops), phase_of (snd (o_run o_init ops)), o_next (snd (o_run o_init ops))).
Proof. intros ops. exact (o_run_phase ops o_init o_init_inv). Qed.
Print Assumptions C08_open_close_protocol.

(** In every reachable state: handles are live or closed, never closed twice, and the
    held handle is live. *)
Theorem C08_handles_invariant : forall ops, o_inv (snd (o_run o_init ops)).
Proof. intros ops. exact (o_run_inv ops o_init o_init_inv). Qed.
Print Assumptions C08_handles_invariant.

Theorem C08_failed_calls_touch_no_handle : forall s o e s',
  o_step s o = (Err e, s') ->
  o_closed s' = o_closed s /\ o_held s' = o_held s /\
  (o_live s' = o_live s \/
   (o_held s = None /\ (exists p, o = OOpen p (ReadFails e)) /\ o_live s' = o_next s :: o_live s)).
Proof. exact o_step_error_handles. Qed.
Print Assumptions C08_failed_calls_touch_no_handle.

Theorem C08_close_closes_the_held_handle : forall s s' h,
  o_inv s -> o_held s = Some h -> o_step s OClose = (Ok tt, s') ->
  o_closed s' = h :: o_closed s /\ o_held s' = None /\ ~ In h (o_live s') /\
  (forall x, x <> h -> In x (o_live s) <-> In x (o_live s')).
Proof. exact o_step_close. Qed.
Print Assumptions C08_close_closes_the_held_handle.

(** The number of live handles is the held one plus one per [Open] whose read failed:
    those handles are never closed. *)
Theorem C08_live_handles_are_held_or_leaked : forall ops,
  let s := snd (o_run o_init ops) in
  length (o_live s) = (held_count s + failed_reads PClosed ops)%nat.
Proof. intros ops. pose proof (o_run_leaks ops o_init o_init_inv) as H. cbn in *. lia. Qed.
Print Assumptions C08_live_handles_are_held_or_leaked.

Example C08_case :
  let s := snd (o_run o_init [OClose; OOpen [47] (ReadFails ParseError); OOpen [47] ReadOk;
                              OOpen [47] ReadOk; OClose]) in
  o_live s = [0%nat] /\ o_closed s = [1%nat] /\ o_held s = None.
Proof. repeat split. Qed.

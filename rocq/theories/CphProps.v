(** C113: the hashes of the files of a CPIO archive. *)

From Verif Require Import Base BaseFacts CoreModel StrModel CpioModel CpioSpec CpioProps CphModel CphSpec CphProofs.
From Coq Require String.
Import String.StringSyntax.

(** C113: of a file that holds, as it is or compressed, an archive of one path, the hash of the data of its first member is written,
    if it has any. *)
Theorem C113_single : forall sha unpack n fuel content ms body tail m o,
  archive_data unpack content (body ++ tail) -> archive ms body -> first_of_each ms = [(m, o)] -> (length ms < fuel)%nat -> (length body < fuel)%nat ->
  fst (hash_file sha unpack (S n) fuel content 0) = member_line sha m.
Proof.
  intros sha unpack n fuel content ms body tail m o D A F L1 L2. rewrite (hash_archive sha unpack n fuel content _ ms body tail D eq_refl A L1 L2).
  unfold archive_written. rewrite F. cbn. apply app_nil_r.
Qed.
Print Assumptions C113_single.

(** C113: a file that starts with none of the signatures is reported; of an empty file nothing is written. *)
Theorem C113_unsupported : forall sha unpack n fuel content, ~ recognised content ->
  hash_file sha unpack (S n) fuel content 0 = (match content with [] => [] | _ => [s2z "Unsupported file type at offset: 0x00000000." ++ [10]] end, Done (Ok tt)).
Proof.
  intros sha unpack n fuel content N. destruct content as [|c content]; [reflexivity|]. rewrite hash_one by discriminate.
  destruct (piece_type (zfirstn 6 (c :: content))) as [t|] eqn:E; [|reflexivity]. destruct (N (piece_recognised _ _ E)).
Qed.
Print Assumptions C113_unsupported.

(** C113, finding: a file that starts with a signature is never hashed without an error, and of any file one line is written or none:
    the archive is closed although it was not opened, so what follows the first archive is not read. *)
Theorem C113_ends_refuted : forall sha unpack n fuel content, recognised content ->
  snd (hash_file sha unpack (S n) fuel content 0) <> Done (Ok tt) /\ (length (fst (hash_file sha unpack (S n) fuel content 0)) <= 1)%nat.
Proof.
  intros sha unpack n fuel content R. assert (N : content <> []) by (intros ->; destruct R as [R _]; cbn in R; lia).
  rewrite hash_one by exact N. destruct (piece_type (zfirstn 6 content)) as [t|] eqn:E; [|destruct (unrecognised _ R E)].
  destruct (closed_fails (fst (hash_piece sha unpack fuel content 0 t))) as [F L]. split; [exact F|]. rewrite L. apply piece_lines.
Qed.
Print Assumptions C113_ends_refuted.

(** C113, finding: for an archive of no path or of one path it is an OSError; of an archive of two paths or more nothing is written,
    since file entries cannot be sorted. *)
Theorem C113_many_refuted : forall sha unpack n fuel content ms body tail,
  archive_data unpack content (body ++ tail) -> archive ms body -> (length ms < fuel)%nat -> (length body < fuel)%nat ->
  match first_of_each ms with
  | [] | [_] => snd (hash_file sha unpack (S n) fuel content 0) = Done (Err OSError)
  | _ => hash_file sha unpack (S n) fuel content 0 = ([], Done (Err TypeError))
  end.
Proof.
  intros sha unpack n fuel content ms body tail D A L1 L2. rewrite (hash_archive sha unpack n fuel content _ ms body tail D eq_refl A L1 L2).
  unfold archive_written. destruct (first_of_each ms) as [|[m o] [|q l]]; reflexivity.
Qed.
Print Assumptions C113_many_refuted.

(** The archive of C17 with a member "a" of five bytes, followed by a second one; the same compressed with gzip; the archive of C17 with a
    second member "b". The hash stands for itself. *)
Definition C113_sha (d : bytes) : str := s2z "<" ++ d ++ s2z ">".
Definition C113_unpack (t : ptype) (d : bytes) : result bytes := match t with PGzip => Ok (C17_bytes BE ++ [0; 0; 0]) | _ => Err OSError end.
Definition C113_two : bytes := zfirstn 34 (C17_bytes BE) ++
  words BE [29127; 1; 3; 33188; 4; 5; 1; 0; 1; 1; 2; 0; 2] ++ s2z "b" ++ [0] ++ [6; 7] ++ zskipn 34 (C17_bytes BE).

Example C113_case :
  archive [(C17_member, 28)] (C17_bytes BE) /\ first_of_each [(C17_member, 28)] = [(C17_member, 28)] /\
  member_line C113_sha C17_member = [s2z "<" ++ [1; 2; 3; 4; 5] ++ s2z ">" ++ [9] ++ s2z "a" ++ [10]] /\
  archive_data C113_unpack (31 :: 139 :: 8 :: []) (C17_bytes BE ++ [0; 0; 0]) /\
  (forall content, In content [C17_bytes BE ++ [0; 0; 0; 0; 0; 0; 0; 0] ++ C17_bytes BE; 31 :: 139 :: 8 :: []] ->
   hash_file C113_sha C113_unpack 3 200 content 0 = ([s2z "<" ++ [1; 2; 3; 4; 5] ++ s2z ">" ++ [9] ++ s2z "a" ++ [10]], Done (Err OSError))) /\
  hash_file C113_sha C113_unpack 3 200 C113_two 0 = ([], Done (Err TypeError)).
Proof.
  split; [exists (CBin BE), C17_trailer, 72; split; [exact (C17_case BE)|]; split; [repeat constructor; discriminate|reflexivity]|].
  split; [reflexivity|]. split; [reflexivity|]. split; [right; left; split; [reflexivity|split; reflexivity]|].
  split; [|vm_compute; reflexivity]. intros content [<-|[<-|[]]]; vm_compute; reflexivity.
Qed.

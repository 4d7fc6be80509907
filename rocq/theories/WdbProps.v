(** C110: debug output of the files of a WMI repository. *)

From Verif Require Import Base BaseFacts SeqSpec CoreModel StrModel DictModel TextModel RdModel WmiModel WmiSpec WmiProps WcdModel WcdProps WcmModel WciModel WciProps WcrModel WcrProps WdbModel WdbSpec WdbProofs.
From Coq Require String.
Import String.StringSyntax.

(** With debug output a page can be read exactly if it has no keys and no values, and refers to one sub page whose
    number has two digits; or if it is of another type. *)
Theorem C110_page content off : is_bytes content -> 0 <= off <= len content ->
  ((exists r, debug_index_page content off = Ok r) <-> exists d, stored_at content off d /\ debug_page d).
Proof.
  intros Hb Ho. split.
  - intros ([l p] & E). apply debug_page_ok in E as (_ & _ & _ & H); assumption.
  - intros (d & St & D). eapply debug_page_complete; eassumption.
Qed.
Print Assumptions C110_page.

(** What is read is what is read without debug output. *)
Theorem C110_same content off l p : is_bytes content -> 0 <= off <= len content -> debug_index_page content off = Ok (l, p) -> index_page content off = Ok p.
Proof. intros Hb Ho E. apply debug_page_ok in E as (H & _); assumption. Qed.
Print Assumptions C110_same.

(** Of the number of the sub page the first digit is shown. *)
Theorem C110_digit_refuted content off l p : is_bytes content -> 0 <= off <= len content -> debug_index_page content off = Ok (l, p) -> wp_type p = 0xaccc ->
  exists n, 10 <= n <= 99 /\ wp_subs p = [n] /\
    l = [s2z "Sub page: 0 mapped page number" ++ alignment_string (s2z "Sub page: 0 mapped page number") ++ s2z ": " ++ fmt_d (n / 10) ++ [10]].
Proof.
  intros Hb Ho E T. apply debug_page_ok in E as (_ & _ & [(N & _)|(_ & n & D & -> & S)] & _); [contradiction| |assumption|assumption].
  exists n. split; [exact D|]. split; [exact S|]. unfold sub_line, number_line. unfold two_digits in D.
  assert (F : fmt_d (n / 10) = [48 + n / 10]).
  { assert (H : 0 <= n / 10 < 10) by (split; [apply Z.div_pos|apply Z.div_lt_upper_bound]; lia). revert H. generalize (n / 10) as k. intros k H.
    assert (k = 0 \/ k = 1 \/ k = 2 \/ k = 3 \/ k = 4 \/ k = 5 \/ k = 6 \/ k = 7 \/ k = 8 \/ k = 9) as C by lia. repeat destruct C as [->|C]; try subst k; reflexivity. }
  rewrite F. reflexivity.
Qed.
Print Assumptions C110_digit_refuted.

(** Any other page that can be read without debug output is a ValueError, which is not a ParseError. *)
Theorem C110_page_refuted content off p : is_bytes content -> 0 <= off <= len content -> index_page content off = Ok p ->
  (forall d, stored_at content off d -> len d = 8192 -> ~ debug_page d) -> debug_index_page content off = Err ValueError.
Proof. apply debug_page_error. Qed.
Print Assumptions C110_page_refuted.

(** An index file is opened with debug output exactly if all its pages are such pages. *)
Theorem C110_open content : is_bytes content ->
  ((exists r, debug_index_open content = Ok r) <->
   len content mod 8192 = 0 /\ forall i, 0 <= i -> i * 8192 < len content -> exists d, stored_at content (i * 8192) d /\ debug_page d).
Proof. apply debug_open_iff. Qed.
Print Assumptions C110_open.

(** No key is ever listed. *)
Theorem C110_keys_refuted fuel v21 table content l : is_bytes content -> Forall is_u32 table -> debug_index_keys fuel v21 table content = Done (Ok l) -> l = [].
Proof. apply debug_index_keys_nil. Qed.
Print Assumptions C110_keys_refuted.

(** What is listed, that is that there are no keys, is what is listed without debug output. *)
Theorem C110_keys_same fuel v21 table content l : is_bytes content -> Forall is_u32 table ->
  debug_index_keys fuel v21 table content = Done (Ok l) -> index_keys fuel v21 table content = Done (Ok l).
Proof. apply debug_index_keys_same. Qed.
Print Assumptions C110_keys_same.

(** With a key in the root page the listing fails. *)
Theorem C110_root_refuted table content p : is_bytes content -> Forall is_u32 table -> is_mapped_page table content 1 p -> wp_keys p <> [] ->
  forall fuel, debug_index_keys fuel false table content = Done (Err ValueError).
Proof. apply debug_root_error. Qed.
Print Assumptions C110_root_refuted.

(** A mapping file that is read is read as without debug output. *)
Theorem C110_map content m : is_bytes content ->
  (forall s, debug_map content = Ok (s, m) -> read_map content = Ok m) /\
  (read_map content = Ok m -> (exists s, debug_map content = Ok (s, m)) \/ debug_map content = Err ValueError).
Proof. intros Hb. split; [intros s; apply debug_map_sound|apply debug_map_cases, Hb]. Qed.
Print Assumptions C110_map.

(** An entry of the second table that does not have two digits is a ValueError. *)
Theorem C110_map_refuted v s h l t unknown u rest content : is_bytes content -> content = h ++ t ++ u ++ rest ->
  map_head v s h -> table_bytes (if v =? 1 then 0 else 20) l t -> table_bytes 0 unknown u ->
  v = 2 /\ version2 content \/ v = 1 /\ ~ version2 content -> ~ Forall two_digits unknown -> debug_map content = Err ValueError.
Proof. apply debug_map_error. Qed.
Print Assumptions C110_map_refuted.

(** Without such an entry there is a line for every entry. *)
Theorem C110_map_lines s h l t unknown u content : is_bytes content -> content = h ++ t ++ u ++ le_enc 4 0xdcba ->
  map_head 1 s h -> table_bytes 0 l t -> table_bytes 0 unknown u -> ~ version2 content -> Forall two_digits unknown ->
  exists lines, debug_map content = Ok (lines, mkmapfile 1 s l None) /\ length lines = length unknown.
Proof. apply debug_map_single. Qed.
Print Assumptions C110_map_lines.

(** A repository file with a node cell cannot be opened. *)
Theorem C110_cells_refuted fuel content r : 40 < len content ->
  debug_rep_file fuel content <> Done (Ok r) /\ (rep_file fuel content = Done (Ok r) -> debug_rep_file fuel content = Done (Err ValueError)).
Proof. intros L. split; [intros E; apply debug_rep_ok in E; lia|apply debug_rep_error, L]. Qed.
Print Assumptions C110_cells_refuted.

(** No instance can be read. *)
Theorem C110_instances_refuted ansi cm data r :
  debug_instance ansi cm data <> Ok r /\ (instance ansi cm data = Ok r -> debug_instance ansi cm data = Err ValueError).
Proof. split; [apply debug_instance_never|apply debug_instance_error]. Qed.
Print Assumptions C110_instances_refuted.

(** A class definition can be read if it has no properties. *)
Theorem C110_classes_refuted ansi lower data c :
  (debug_class_block ansi lower data = Ok c -> class_block ansi lower data = Ok c) /\
  (class_block ansi lower data = Ok c -> c_props c = [] -> debug_class_block ansi lower data = Ok c) /\
  (class_block ansi lower data = Ok c -> c_props c <> [] -> debug_class_block ansi lower data = Err ValueError).
Proof.
  split; [apply debug_class_sound|]. split; intros E P; rewrite (debug_class_cases _ _ _ _ E); destruct (Z.eqb_spec (len (c_props c)) 0) as [X|X]; try reflexivity.
  - rewrite P in X. contradiction X. reflexivity.
  - apply len_zero in X. contradiction.
Qed.
Print Assumptions C110_classes_refuted.

(** ** Examples *)

(** A page that refers to sub page 42, without keys; and one with two keys. *)
Definition lone_page (n : Z) : bytes := pad 8192 (le_enc 4 0xaccc ++ le_enc 4 0 ++ le_enc 4 0 ++ le_enc 4 0 ++ le_enc 4 0 ++ le_enc 4 n).

Example C110_case :
  debug_index_page (lone_page 42) 0 = Ok ([s2z "Sub page: 0 mapped page number" ++ repeat 9 6 ++ s2z ": 4" ++ [10]], mkwpage 0xaccc 0 [42] []) /\
  debug_index_page (lone_page 7) 0 = Err ValueError /\ index_page (lone_page 7) 0 = Ok (mkwpage 0xaccc 0 [7] []) /\
  (exists r, debug_index_open (example_first ++ lone_page 42) = Ok r) /\
  debug_index_open (example_first ++ example_page [0; 0xffffffff; 0]) = Err ValueError /\
  (* the file is opened without debug output, for instance if it is not one of pages *)
  debug_index_open (example_first ++ [1]) = Err ParseError.
Proof.
  split; [vm_compute; reflexivity|]. split; [vm_compute; reflexivity|]. split; [vm_compute; reflexivity|].
  split; [eexists; vm_compute; reflexivity|]. split; vm_compute; reflexivity.
Qed.

(** The listing of keys that are listed without debug output. *)
Example C110_keys_case :
  let content := example_first ++ example_page [0; 0xffffffff; 0] in
  index_keys 3 false [0; 1] content = Done (Ok [s2z "\a\b"; s2z "\a"]) /\ debug_index_keys 3 false [0; 1] content = Done (Err ValueError).
Proof. vm_compute. auto. Qed.

Example C110_map_case :
  debug_map (v1_section 2 [4; 5] [31]) = Ok ([s2z "  Entry: 0 page number" ++ repeat 9 7 ++ s2z ": 3" ++ [10]], mkmapfile 1 9 [4; 5] None) /\
  debug_map (v1_section 2 [4; 5] [31; 4]) = Err ValueError /\ read_map (v1_section 2 [4; 5] [31; 4]) = Ok (mkmapfile 1 9 [4; 5] None) /\
  debug_map (v2_section [4; 5] ++ v2_section [3]) = Ok ([], mkmapfile 2 9 [4; 5] (Some [3])).
Proof. vm_compute. auto. Qed.

(** The repository file of C100 and the instance of C99. *)
Example C110_objects_case :
  debug_rep_file 5 ex_file = Done (Err ValueError) /\ rep_file 5 ex_file = Done (Ok (Some 52, Some 68)) /\
  debug_instance WciProps.ex_ansi (ex_cm "sint32") ex_data = Err ValueError /\ instance WciProps.ex_ansi (ex_cm "sint32") ex_data = Ok (s2z "Foo", ex_values).
Proof. vm_compute. auto. Qed.

(** The class of C97, and one without properties. *)
Definition bare_block : bytes :=
  [0] ++ le_enc 4 0 ++ le_enc 4 1 ++ le_enc 4 4 ++ le_enc 4 4 ++ le_enc 4 0 ++ [3] ++ le_enc 4 (0x80000000 + 5) ++ ex_cim "Foo".

Example C110_classes_case :
  class_block WcdProps.ex_ansi WcdProps.ex_lower (ex_block 8 0x80000000) = Ok (WcdProps.ex_class (QStr (s2z "string"))) /\
  debug_class_block WcdProps.ex_ansi WcdProps.ex_lower (ex_block 8 0x80000000) = Err ValueError /\
  debug_class_block WcdProps.ex_ansi WcdProps.ex_lower bare_block = Ok (mkcdef (s2z "Foo") None [] []).
Proof. vm_compute. auto. Qed.

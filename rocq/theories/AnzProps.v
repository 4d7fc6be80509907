(** C119: the output of the script that analyzes a data format. *)

From Verif Require Import Base CoreModel StrModel DictModel TextModel LdsModel KcsModel AnzModel AnzSpec AnzProofs.
From Coq Require String.
Import String.StringSyntax.

(** What is written is, for each of the five structures in order, what reading it writes followed by the text it has on its own, up to the
    first structure that cannot be read or shown, whose error is raised. *)
Theorem C119_output capitalize members fuel read o : analyzer_script capitalize members fuel read = Some o ->
  let places := [(0, s2z "file_information"); (65536, s2z "header"); (131072, s2z "header"); (196608, s2z "region_table"); (262144, s2z "region_table")] in
  parts (map (fun p => read (fst p) (snd p)) places)
    (map (fun p => match snd (read (fst p) (snd p)) with Ok v => text_of capitalize members fuel (snd p) v | Err e => Done (Err e) end) places) o.
Proof.
  intros E. unfold analyzer_script in E. apply analyze_parts in E; [|apply known_nil]. exact E.
Qed.
Print Assumptions C119_output.

(** The text of a structure does not depend on what was shown before it. *)
Theorem C119_alone capitalize members fuel k name v : known capitalize members k -> exists k', known capitalize members k' /\
  format_map capitalize members fuel k name v =
  match text_of capitalize members fuel name v with Done (Ok t) => Done (Ok (t, k')) | Done (Err e) => Done (Err e) | OutOfFuel => OutOfFuel end.
Proof. apply alone. Qed.
Print Assumptions C119_alone.

(** The members that are shown are those of a kind that has a text and those named as a checksum or an offset. *)
Theorem C119_members capitalize l n :
  (exists d c, In (n, d, c) (debug_info capitalize l)) <-> exists m, In m l /\ m_name m = n /\ shown_member m.
Proof. apply info_members. Qed.
Print Assumptions C119_members.

(** The text of a structure is a text for each of these members that it has, in the order of the definition, each of which starts with
    the description of the member; an empty line may follow. *)
Theorem C119_lines capitalize members fuel name v t : text_of capitalize members fuel name v = Done (Ok t) ->
  exists ms ts e, described v (members name) ms /\ Forall2 (fun m u => exists r, u = capitalize (spaced (m_name m)) ++ r) ms ts /\ (e = [] \/ e = [10]) /\ t = concat ts ++ e.
Proof. apply text_lines. Qed.
Print Assumptions C119_lines.

(** The elements of a sequence are shown in order, each below its number and with the text it has on its own. *)
Theorem C119_sequence capitalize members fuel name m v l t : members name = [m] -> m_type m = ISeq ->
  ~ (exists p, m_name m = p ++ s2z "checksum") -> ~ (exists p, m_name m = p ++ s2z "offset") ->
  attribute (m_name m) v = Some (VSeq l) -> text_of capitalize members (S fuel) name v = Done (Ok t) ->
  exists ts e, Forall2 (fun x u => exists c, element_class x c /\ text_of capitalize members fuel c x = Done (Ok u)) l ts /\ (e = [] \/ e = [10]) /\
    t = capitalize (spaced (m_name m)) ++ [58; 10; 10] ++ entries_from 0 ts ++ e.
Proof. apply sequence_text. Qed.
Print Assumptions C119_sequence.

(** A structure of integers has a text, from which each of its members can be determined. *)
Theorem C119_integers capitalize members fuel name v : integers (members name) v ->
  (exists t, text_of capitalize members (S fuel) name v = Done (Ok t)) /\
  (forall fuel' k k' v' t k1 k1', known capitalize members k -> known capitalize members k' -> integers (members name) v' ->
    format_map capitalize members fuel k name v = Done (Ok (t, k1)) -> format_map capitalize members fuel' k' name v' = Done (Ok (t, k1')) ->
    Forall (fun m => attribute (m_name m) v = attribute (m_name m) v') (members name)).
Proof.
  intros H. split; [apply integers_shown; exact H|]. intros fuel' k k' v' t k1 k1' K K' H' E E'. exact (integers_lossless _ _ _ _ _ _ _ _ _ _ _ _ K K' H H' E E').
Qed.
Print Assumptions C119_integers.

(** A member that is a structure is never shown: structures that differ in nothing else have the same text. *)
Theorem C119_nested_refuted capitalize members fuel name v v' :
  (forall m, In m (members name) -> shown_member m -> attribute (m_name m) v = attribute (m_name m) v') ->
  text_of capitalize members fuel name v = text_of capitalize members fuel name v'.
Proof. apply text_same. Qed.
Print Assumptions C119_nested_refuted.

(** The elements of a sequence of integers are not shown: as [int] is no data type definition, each has an empty line as its text. *)
Theorem C119_numbers_refuted capitalize members fuel z : members (s2z "int") = [] ->
  element_class (VInt z) (s2z "int") /\ text_of capitalize members (S fuel) (s2z "int") (VInt z) = Done (Ok [10]).
Proof. intros E. split; [constructor|]. apply (undefined_text capitalize members fuel (VInt z)). exact E. Qed.
Print Assumptions C119_numbers_refuted.

(** A member that is named as a checksum or an offset and is no integer makes the script fail. *)
Theorem C119_checksum_refuted capitalize members fuel name m l v b : members name = m :: l -> attribute (m_name m) v = Some (VData b) ->
  (exists p, m_name m = p ++ s2z "checksum") -> text_of capitalize members (S fuel) name v = Done (Err TypeError).
Proof.
  intros E A S. apply suffix_spec in S. unfold text_of. cbn [format_map known_info sdict_get]. unfold known_info. cbn [sdict_get]. rewrite E. unfold debug_info. cbn [flat_map]. rewrite S. cbn [orb app attributes].
  rewrite A. reflexivity.
Qed.
Print Assumptions C119_checksum_refuted.

(** A region table with a nested structure, a sequence and a checksum. *)
Definition example_members (n : str) : list member :=
  if list_eqb n (s2z "region_table") then
    [mkmember (s2z "checksum") IInt; mkmember (s2z "head") IOther; mkmember (s2z "number_of_entries") IInt; mkmember (s2z "entries") ISeq]
  else if list_eqb n (s2z "entry") then [mkmember (s2z "data_offset") IInt; mkmember (s2z "size") IInt]
  else [].
Definition example_entry (o n : Z) : value := VObject (s2z "entry") [(s2z "size", VInt n); (s2z "data_offset", VInt o)].
Definition example_table : value := VObject (s2z "region_table")
  [(s2z "checksum", VInt 255); (s2z "head", example_entry 1 2); (s2z "number_of_entries", VInt 2); (s2z "entries", VSeq [example_entry 16 3; example_entry 32 4])].

Example C119_case :
  text_of (fun s => s) example_members 3 (s2z "region_table") example_table =
  Done (Ok (s2z "checksum" ++ repeat 9 8 ++ s2z ": 0x000000ff" ++ [10] ++ s2z "number of entries" ++ repeat 9 7 ++ s2z ": 2" ++ [10] ++
    s2z "entries:" ++ [10; 10] ++
    s2z "Entry: 0" ++ [10] ++ s2z "data offset" ++ repeat 9 8 ++ s2z ": 0x00000010" ++ [10] ++ s2z "size" ++ repeat 9 9 ++ s2z ": 3" ++ [10; 10] ++
    s2z "Entry: 1" ++ [10] ++ s2z "data offset" ++ repeat 9 8 ++ s2z ": 0x00000020" ++ [10] ++ s2z "size" ++ repeat 9 9 ++ s2z ": 4" ++ [10; 10])) /\
  integers (example_members (s2z "entry")) (example_entry 16 3) /\
  example_members (s2z "int") = [] /\
  known (fun s => s) example_members [] /\
  (exists s, analyzer_script (fun s => s) example_members 3 (fun o n => if o <? 196608 then (s2z "Reading", Ok (example_entry 0 0)) else
    if o =? 196608 then (s2z "Table", Ok example_table) else (s2z "Last", Err ParseError)) = Some (s ++ s2z "Last", Err ParseError)).
Proof.
  split; [vm_compute; reflexivity|]. split.
  { unfold integers. change (example_members (s2z "entry")) with [mkmember (s2z "data_offset") IInt; mkmember (s2z "size") IInt].
    repeat constructor; cbn [m_name]; eexists; vm_compute; reflexivity. }
  split; [reflexivity|]. split; [apply known_nil|].
  match goal with |- exists s, ?a = _ => let x := eval vm_compute in a in
    match x with Some (?t, _) => exists (firstn (List.length t - 4) t) end end.
  vm_compute. reflexivity.
Qed.

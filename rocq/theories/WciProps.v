(** C99: the instances of a WMI repository. *)

From Coq Require Import String.
From Verif Require Import Base BaseFacts SeqSpec CoreModel StrModel DictModel Utf16Model TvSpec CatSpec FhSpec WcdModel WcdSpec WcdProofs WcmModel WcmSpec WciModel WciSpec WciProofs.
Local Open Scope string_scope.
Local Open Scope list_scope.
Local Open Scope Z_scope.

(** The values of the properties of an instance are read exactly as they are stored. *)
Theorem C99_instances : forall ansi cm data name t, is_bytes data -> map_wf cm ->
  (instance ansi cm data = Ok (name, t) <-> instance_has ansi cm data name t).
Proof. exact instance_iff. Qed.
Print Assumptions C99_instances.

(** Otherwise there is a ParseError or a ValueError. *)
Theorem C99_errors : forall ansi cm data x, is_bytes data -> map_wf cm -> instance ansi cm data = Err x -> x = ParseError \/ x = ValueError.
Proof. exact instance_errors. Qed.
Print Assumptions C99_errors.

(** The class and the instance block of an object record. *)
Theorem C99_records : forall old record hash data, is_bytes record ->
  (instance_record old record = Ok (hash, data) <-> record_has old record hash data).
Proof. exact instance_record_iff. Qed.
Print Assumptions C99_records.

Theorem C99_record_errors : forall old record x, is_bytes record -> instance_record old record = Err x -> x = ParseError \/ x = ValueError.
Proof. exact instance_record_errors. Qed.
Print Assumptions C99_record_errors.

(** From the object record to the values: with the class definitions of the repository. *)
Theorem C99_repository : forall ansi lower hash defs old record m t, is_bytes record -> defs_wf defs ->
  ((exists fuel, instance_of_record fuel ansi lower hash defs old record = Done (Ok (m, t))) <->
   exists h data c l name, record_has old record h data /\ sdict_get (lower h) defs = Some c /\ lineage lower hash defs c l /\ map_of lower l m /\
     instance_has ansi m data name t).
Proof. exact record_instance_iff. Qed.
Print Assumptions C99_repository.

(** The offsets of class maps made of class definitions that were read are in order. *)
Theorem C99_offsets : forall fuel lower hash defs h m, defs_wf defs -> fresh_map fuel lower hash defs h = Done (Ok m) -> map_wf m.
Proof. exact fresh_wf. Qed.
Print Assumptions C99_offsets.

Theorem C99_classes : forall ansi lower record c k, is_bytes record -> class_record ansi lower record = Ok c -> defs_wf [(k, c)].
Proof.
  intros ansi lower record c k B H. constructor; [|constructor]. cbn [snd]. apply class_record_iff in H; [|exact B].
  destruct H as (_ & _ & _ & _ & _ & _ & _ & _ & (b & d & rest & props & _ & _ & _ & _ & _ & F & A)). apply assigned_iff in A. rewrite A.
  apply Forall_forall. intros [n p] I. apply sdict_get_in in I; [|apply sdict_of_nodup]. apply sdict_of_get in I. destruct I as (l1 & l2 & E & _). cbn [snd].
  assert (I : In p props) by (assert (X : In (n, p) (map (fun p => (p_name p, p)) props)) by (rewrite E; apply in_elt); apply in_map_iff in X; destruct X as (q & X & Y); injection X as _ <-; exact Y).
  clear -F I. induction F as [|x q l ps H F IH]; [destruct I|]. destruct I as [->|I]; [|auto].
  destruct H as [_ (quals & d0 & H & _)]. unfold pdef_bytes, fields in H. destruct H as (ds & H & _).
  inversion H as [|? ? ? ? _ H1]; subst. inversion H1 as [|? ? ? ? _ H2]; subst. inversion H2 as [|? ? ? ? H3 _]; subst. destruct H3 as [H3 _]. unfold n32 in H3. cbn [pd_offset] in H3. lia.
Qed.
Print Assumptions C99_classes.

(** ** An instance with a number, a boolean, a string, an unset string and an array of strings *)

Definition ex_ansi (d : bytes) : option str := if forallb (fun b => b <? 128) d then Some d else None.
Definition ex_cim (s : string) : bytes := 0 :: s2z s ++ [0].

Definition ex_cm (q : string) : cmap := mkcm (s2z "Foo") [] None None
  [(s2z "id", mkpm (s2z "Id") 0x3 0 4 (s2z q)); (s2z "on", mkpm (s2z "On") 0xb 4 2 (s2z "boolean"));
   (s2z "name", mkpm (s2z "Name") 0x8 6 4 (s2z "string")); (s2z "alias", mkpm (s2z "Alias") 0x8 10 4 (s2z "string"));
   (s2z "tags", mkpm (s2z "Tags") 0x2008 14 4 (s2z "string"))] 18.

Definition ex_data : bytes :=
  le_enc 4 0 ++ [0] ++ [0; 3] ++ (le_enc 4 (2 ^ 32 - 5) ++ [255; 255] ++ le_enc 4 5 ++ le_enc 4 0 ++ le_enc 4 10) ++ le_enc 4 4 ++ [2] ++
  (le_enc 4 1 ++ le_enc 4 6 ++ [7; 7]) ++ le_enc 4 0 ++ (ex_cim "Foo" ++ ex_cim "Bar" ++ (le_enc 4 2 ++ le_enc 4 5 ++ le_enc 4 0)).

Definition ex_values : sdict pval :=
  [(s2z "Id", VNum (-5)); (s2z "On", VBool true); (s2z "Name", VStr (s2z "Bar")); (s2z "Alias", VNone); (s2z "Tags", VStrs [s2z "Bar"; s2z "Foo"])].

Lemma ex_data_bytes : is_bytes ex_data.
Proof. apply Forall_forall. intros b H. apply (proj1 (forallb_forall is_byteb ex_data)) in H; [unfold is_byteb in H; unfold is_byte; lia|vm_compute; reflexivity]. Qed.

Example C99_case : instance ex_ansi (ex_cm "sint32") ex_data = Ok (s2z "Foo", ex_values) /\
  is_bytes ex_data /\ map_wf (ex_cm "sint32") /\ instance_has ex_ansi (ex_cm "sint32") ex_data (s2z "Foo") ex_values.
Proof.
  assert (E : instance ex_ansi (ex_cm "sint32") ex_data = Ok (s2z "Foo", ex_values)) by (vm_compute; reflexivity).
  assert (W : map_wf (ex_cm "sint32")) by (repeat constructor; cbn; lia).
  split; [exact E|]. split; [exact ex_data_bytes|]. split; [exact W|]. apply C99_instances; [exact ex_data_bytes|exact W|exact E].
Qed.

(** The object record of that instance, and a class definition of its class. *)
Definition ex_hash (s : str) : str := s ++ repeat 48 (32 - Datatypes.length s).
Definition ex_record : bytes := flat_map (fun c => [c; 0]) (ex_hash (s2z "Foo")) ++ le_enc 8 1 ++ le_enc 8 2 ++ le_enc 4 (len ex_data + 4) ++ ex_data.

Definition ex_class : cdef := mkcdef (s2z "Foo") None []
  (map (fun kp => (pm_name (snd kp), mkprop (pm_name (snd kp)) 0 (pm_offset (snd kp)) (pm_type (snd kp)) [(s2z "type", QStr (pm_qual (snd kp)))])) (cm_props (ex_cm "sint32"))).

Definition ex_lower (s : str) : str := map (fun c => if (65 <=? c) && (c <=? 90) then c + 32 else c) s.

Example C99_record_case :
  instance_of_record 3 ex_ansi ex_lower ex_hash [(ex_lower (ex_hash (s2z "Foo")), ex_class)] true ex_record = Done (Ok (ex_cm "sint32", ex_values)) /\
  defs_wf [(ex_lower (ex_hash (s2z "Foo")), ex_class)].
Proof. split; [vm_compute; reflexivity|]. repeat constructor; cbn; lia. Qed.

(** ** Findings *)

(** There is no instance of a class with a property of type sint8, sint16, sint64, real32, real64 or
    char16: every one is a ValueError. *)
Theorem C99_types_refuted : forall ansi pvals values m, In (pm_type m) [0x2; 0x4; 0x5; 0x10; 0x14; 0x12] ->
  In (pm_qual m) [s2z "sint16"; s2z "real32"; s2z "real64"; s2z "sint8"; s2z "sint64"; s2z "char16"] ->
  property_value ansi pvals values m = Err ValueError.
Proof.
  intros ansi pvals values m Ht Hq. unfold property_value.
  replace (existsb (Z.eqb (pm_type m)) fixed_types) with true by (symmetry; apply existsb_z; cbn in *; lia).
  unfold fixed_value. repeat (destruct Hq as [<-|Hq]; [reflexivity|]). destruct Hq.
Qed.
Print Assumptions C99_types_refuted.

(** Such an instance, of which only the type differs from the one above. *)
Theorem C99_sint64_refuted : instance ex_ansi (ex_cm "sint64") ex_data = Err ValueError.
Proof. vm_compute. reflexivity. Qed.
Print Assumptions C99_sint64_refuted.

(** Arrays of other values than strings have no value. *)
Theorem C99_array_refuted : forall ansi pvals values m v, In (pm_type m) [0x2002; 0x2003; 0x200b; 0x2011; 0x2012; 0x2013; 0x2015; 0x2065] ->
  property_value ansi pvals values m = Ok v -> v = VNone.
Proof.
  intros ansi pvals values m v Ht. unfold property_value.
  replace (existsb (Z.eqb (pm_type m)) fixed_types) with false by (symmetry; apply not_in_existsb; cbn in *; lia).
  replace (existsb (Z.eqb (pm_type m)) string_types) with false by (symmetry; apply not_in_existsb; cbn in *; lia).
  replace (pm_type m =? 0x2008) with false by (cbn in Ht; lia).
  destruct (rd_stream _ _); cbn [bind]; congruence.
Qed.
Print Assumptions C99_array_refuted.

(** The type qualifier and not the data type decides how many bytes are read: a property of 1 byte with
    type uint16 has the byte of the next property in its value. *)
Theorem C99_size_refuted :
  instance ex_ansi (mkcm (s2z "Foo") [] None None [(s2z "a", mkpm (s2z "A") 0x11 0 1 (s2z "uint16")); (s2z "b", mkpm (s2z "B") 0x11 1 1 (s2z "uint8"))] 2)
    (le_enc 4 0 ++ [0] ++ [0] ++ [1; 2] ++ le_enc 4 4 ++ [1] ++ le_enc 4 0 ++ ex_cim "Foo") = Ok (s2z "Foo", [(s2z "A", VNum 513); (s2z "B", VNum 2)]).
Proof. vm_compute. reflexivity. Qed.
Print Assumptions C99_size_refuted.

(** Values data that end before the class name are a ValueError; the method documents ParseError. *)
Theorem C99_name_refuted :
  instance ex_ansi (mkcm (s2z "Foo") [] None None [] 0) (le_enc 4 5 ++ [0] ++ le_enc 4 4 ++ [1] ++ le_enc 4 0 ++ ex_cim "Foo") = Err ValueError.
Proof. vm_compute. reflexivity. Qed.
Print Assumptions C99_name_refuted.

(** C103: the class definitions and the instances of the object records of a WMI repository. *)

From Coq Require Import String.
From Verif Require Import Base BaseFacts SeqSpec CoreModel StrModel DictModel RdModel TvModel WmiModel WcdModel WcdSpec WcdProofs WcmModel WcmSpec WciModel WciSpec WciProofs WchModel WchProofs
  WrpModel WrpSpec WrpProofs.
Local Open Scope list_scope.
Local Open Scope Z_scope.

(** The values of a key, as it is spelled. *)
Theorem C103_keys : forall e key type hash n id size, key_values e key = Some (type, hash, n, id, size) <-> says e key type hash n id size.
Proof. exact key_values_iff. Qed.
Print Assumptions C103_keys.

(** The class definitions are those of the records of the keys of type CD, by the hashes of the keys; of two
    keys with the same hash the last one counts. *)
Theorem C103_classes : forall e keys kend defs, env_bytes e ->
  (class_defs e keys kend [] = Done (Ok defs) <-> kend = Ok tt /\ exists l, class_keys e keys l /\ assigned l defs).
Proof.
  intros e keys kend defs B. rewrite class_defs_iff by exact B. split.
  - intros (l & H & K & ->). split; [exact K|]. exists l. split; [exact H|]. apply assigned_iff. reflexivity.
  - intros (K & l & H & A). exists l. split; [exact H|]. split; [exact K|]. apply assigned_iff. exact A.
Qed.
Print Assumptions C103_classes.

(** The instances are those of the records of the keys of type I and IL, in the order of the keys; that class
    value maps are kept makes no difference. *)
Theorem C103_instances : forall e defs keys kend l, env_bytes e -> defs_wf defs ->
  ((exists fuel, all_instances fuel e defs [] keys kend = Some (l, Ok tt)) <-> kend = Ok tt /\ instance_keys e defs keys l).
Proof. exact all_instances_iff. Qed.
Print Assumptions C103_instances.

(** From the keys to the instances. *)
Theorem C103_repository : forall e keys kend l, env_bytes e ->
  ((exists fuel defs, class_defs e keys kend [] = Done (Ok defs) /\ all_instances fuel e defs [] keys kend = Some (l, Ok tt)) <->
   kend = Ok tt /\ exists cl defs, class_keys e keys cl /\ assigned cl defs /\ instance_keys e defs keys l).
Proof.
  intros e keys kend l B. split.
  - intros (fuel & defs & H & I). apply C103_classes in H as (K & cl & H & A); [|exact B]. split; [exact K|]. exists cl, defs. split; [exact H|]. split; [exact A|].
    apply (proj1 (C103_instances e defs keys kend l B (class_keys_wf _ _ _ _ H A)) (ex_intro _ _ I)).
  - intros (K & cl & defs & H & A & I). destruct (proj2 (C103_instances e defs keys kend l B (class_keys_wf _ _ _ _ H A)) (conj K I)) as [fuel F].
    exists fuel, defs. split; [|exact F]. apply C103_classes; [exact B|]. eauto.
Qed.
Print Assumptions C103_repository.

(** What is yielded before a failure belongs to the first keys. *)
Theorem C103_yields : forall fuel e defs keys kend l r, env_bytes e -> defs_wf defs -> all_instances fuel e defs [] keys kend = Some (l, r) ->
  exists k1 k2, keys = k1 ++ k2 /\ instance_keys e defs k1 l /\ (r = Ok tt -> k2 = []).
Proof. intros fuel e defs keys kend l r B W H. rewrite all_plain in H by apply kept_nil. eapply plain_yields; eassumption. Qed.
Print Assumptions C103_yields.

(** There is one list of class definitions, and one list of instances. *)
Theorem C103_unique : forall e defs keys l l', env_bytes e -> defs_wf defs -> instance_keys e defs keys l -> instance_keys e defs keys l' -> l = l'.
Proof.
  intros e defs keys l l' B W H H'. destruct (plain_complete _ _ _ _ B W H) as [f F]. destruct (plain_complete _ _ _ _ B W H') as [f' F'].
  apply (plain_mono _ (max f f')) in F; [|lia]. apply (plain_mono _ (max f f')) in F'; [|lia]. congruence.
Qed.
Print Assumptions C103_unique.

(** The records of a file of bytes are bytes. *)
Lemma segment_bytes content page off size d : is_bytes content -> data_segment content page off size = Ok d -> is_bytes d.
Proof.
  intros B. unfold data_segment. destruct (_ <? -1); [discriminate|]. destruct (_ =? -1); intros H; injection H as <-; [apply is_bytes_zskipn|apply is_bytes_zfirstn, is_bytes_zskipn]; exact B.
Qed.

Theorem C103_bytes : forall table content n id size d, is_bytes content -> object_record table content n id size = Done (Ok d) -> is_bytes d.
Proof.
  intros table content n id size d B. unfold object_record. generalize (Z.to_nat size) as fuel. intros fuel. generalize true as first. revert n size d.
  induction fuel as [|fuel IH]; intros n size d first; cbn [record_loop]; (destruct (0 <? size); [|intros H; injection H as <-; constructor]); [discriminate|].
  destruct (objects_page table content n) as [page|]; [|discriminate].
  match goal with |- rbind ?r _ = _ -> _ => destruct r as [[off|]|]; cbn [rbind]; try discriminate end.
  destruct (data_segment content page off size) as [[|x y]|] eqn:S; try discriminate. apply segment_bytes in S; [|exact B].
  destruct (record_loop fuel table content (n + 1) id (size - len (x :: y)) false) as [[r|]|] eqn:R; cbn [rbind]; try discriminate.
  intros H. assert (d = (x :: y) ++ r) as -> by congruence. apply Forall_app. split; [exact S|]. eapply IH. exact R.
Qed.
Print Assumptions C103_bytes.

(** ** A repository with two classes and two instances *)

Definition ex_ansi (d : bytes) : option str := if forallb (fun b => b <? 128) d then Some d else None.
Definition ex_lower (s : str) : str := map (fun c => if (65 <=? c) && (c <=? 90) then c + 32 else c) s.
Definition ex_cim (s : string) : bytes := 0 :: s2z s ++ [0].
Definition ex_hash (s : str) : str := map (fun c => if c =? 92 then 47 else c) (ex_lower s) ++ repeat 48 (32 - Datatypes.length s).
Definition ex_digit (n : Z) : str := [48 + n / 1000 mod 10; 48 + n / 100 mod 10; 48 + n / 10 mod 10; 48 + n mod 10].
Definition ex_int (s : str) : option Z := if forallb (fun c => (48 <=? c) && (c <=? 57)) s then Some (fold_left (fun a c => 10 * a + (c - 48)) s 0) else None.

(** The class Bar without properties, and the class Foo below it with a property of a type. *)
Definition ex_bar : bytes :=
  [0] ++ le_enc 4 0 ++ le_enc 4 0 ++ le_enc 4 4 ++ le_enc 4 4 ++ le_enc 4 0 ++ le_enc 4 5 ++ ex_cim "Bar".
Definition ex_values (prop : string) : bytes :=
  ex_cim "Foo" ++ ex_cim prop ++ ex_cim "string" ++ le_enc 4 8 ++ le_enc 2 0 ++ le_enc 4 0 ++ le_enc 4 1 ++ le_enc 4 17 ++ (le_enc 4 0x8000000a ++ [0] ++ le_enc 4 8 ++ le_enc 4 11).
Definition ex_foo (prop : string) : bytes :=
  [0] ++ le_enc 4 0 ++ le_enc 4 1 ++ le_enc 4 9 ++ ex_cim "Bar" ++ le_enc 4 4 ++ le_enc 4 1 ++ (le_enc 4 5 ++ le_enc 4 19) ++ [3] ++ le_enc 4 (len (ex_values prop)) ++ ex_values prop.
Definition ex_class (super : string) (block : bytes) : bytes :=
  le_enc 4 (len (s2z super)) ++ flat_map (fun c => [c; 0]) (s2z super) ++ le_enc 8 0 ++ le_enc 4 (len block + 4) ++ block.
Definition ex_data (name : string) : bytes :=
  le_enc 4 0 ++ [0] ++ [0] ++ le_enc 4 5 ++ le_enc 4 4 ++ [1] ++ le_enc 4 0 ++ (ex_cim "Foo" ++ ex_cim name).
Definition ex_inst (name : string) : bytes :=
  flat_map (fun c => [c; 0]) (ex_hash (s2z "Foo")) ++ le_enc 8 1 ++ le_enc 8 2 ++ le_enc 4 (len (ex_data name) + 4) ++ ex_data name.

(** A page with object records; the identifiers are 1, 2 and so on. *)
Fixpoint ex_descs (id off : Z) (l : list bytes) : bytes :=
  match l with [] => repeat 0 16 | d :: l => le_enc 4 id ++ le_enc 4 off ++ le_enc 4 (len d) ++ le_enc 4 0 ++ ex_descs (id + 1) (off + len d) l end.
Definition ex_page (l : list bytes) : bytes :=
  let d := ex_descs 1 (16 * (len l + 1)) l ++ concat l in d ++ repeat 0 (Z.to_nat (8192 - len d)).

Definition ex_records : list bytes := [ex_class "" ex_bar; ex_class "Bar" (ex_foo "Name"); ex_inst "a"; ex_inst "b"].
Definition ex_objects : bytes := ex_page ex_records.
Definition ex_env (content : bytes) : renv := mkre ex_int ex_lower ex_ansi ex_hash true (object_record [0] content).

Definition ex_key (ns type : string) (hash : str) (id : Z) (d : bytes) : str :=
  s2z "\NS_" ++ ex_hash (s2z ns) ++ s2z "\" ++ s2z type ++ [95] ++ hash ++ s2z ".0." ++ ex_digit id ++ [46] ++ ex_digit (len d).

Definition ex_keys : list str :=
  [ex_key "ROOT" "CD" (ex_hash (s2z "bar")) 1 (ex_class "" ex_bar); ex_key "ROOT" "CD" (ex_hash (s2z "foo")) 2 (ex_class "Bar" (ex_foo "Name"));
   ex_key "ROOT" "I" (s2z "7") 3 (ex_inst "a"); ex_key "ROOT" "IL" (s2z "7") 4 (ex_inst "b"); s2z "\NS_0\CR_1\R_2"].

Definition ex_map (prop : string) : cmap := mkcm (s2z "Foo") [s2z "Bar"] None (Some (s2z "Bar")) [(ex_lower (s2z prop), mkpm (s2z prop) 0x8 0 4 (s2z "string"))] 4.
Definition ex_yield (prop name : string) : inst := (ex_map prop, [(s2z prop, VStr (s2z name))]).

Lemma ex_env_bytes content : is_bytes content -> env_bytes (ex_env content).
Proof. intros B n id size d. cbn. apply C103_bytes. exact B. Qed.

Lemma ex_objects_bytes : is_bytes ex_objects.
Proof. apply is_bytes_forallb. vm_compute. reflexivity. Qed.

Definition ex_defs (content : bytes) (keys : list str) : sdict cdef := match class_defs (ex_env content) keys (Ok tt) [] with Done (Ok t) => t | _ => [] end.

Example C103_case :
  class_defs (ex_env ex_objects) ex_keys (Ok tt) [] = Done (Ok (ex_defs ex_objects ex_keys)) /\
  map fst (ex_defs ex_objects ex_keys) = [ex_hash (s2z "bar"); ex_hash (s2z "foo")] /\
  all_instances 3 (ex_env ex_objects) (ex_defs ex_objects ex_keys) [] ex_keys (Ok tt) = Some ([ex_yield "Name" "a"; ex_yield "Name" "b"], Ok tt) /\
  exists cl defs, class_keys (ex_env ex_objects) ex_keys cl /\ assigned cl defs /\ instance_keys (ex_env ex_objects) defs ex_keys [ex_yield "Name" "a"; ex_yield "Name" "b"].
Proof.
  assert (E1 : class_defs (ex_env ex_objects) ex_keys (Ok tt) [] = Done (Ok (ex_defs ex_objects ex_keys))) by (vm_compute; reflexivity).
  assert (E2 : all_instances 3 (ex_env ex_objects) (ex_defs ex_objects ex_keys) [] ex_keys (Ok tt) = Some ([ex_yield "Name" "a"; ex_yield "Name" "b"], Ok tt)) by (vm_compute; reflexivity).
  split; [exact E1|]. split; [vm_compute; reflexivity|]. split; [exact E2|].
  exact (proj2 (proj1 (C103_repository _ _ _ _ (ex_env_bytes _ ex_objects_bytes)) (ex_intro _ _ (ex_intro _ _ (conj E1 E2))))).
Qed.

(** ** Findings *)

(** An instance that two keys lead to is yielded twice. *)
Theorem C103_twice_refuted :
  all_instances 3 (ex_env ex_objects) (ex_defs ex_objects ex_keys) [] [ex_key "ROOT" "I" (s2z "7") 3 (ex_inst "a"); ex_key "ROOT" "IL" (s2z "7") 3 (ex_inst "a")] (Ok tt)
    = Some ([ex_yield "Name" "a"; ex_yield "Name" "a"], Ok tt).
Proof. vm_compute. reflexivity. Qed.
Print Assumptions C103_twice_refuted.

(** The class definitions do not depend on the namespace: if two namespaces have a class of the same name,
    the instances in one of them are read with the class of the other. *)
Definition ex_other : bytes := ex_page (ex_records ++ [ex_class "Bar" (ex_foo "Path")]).
Definition ex_other_keys : list str := ex_keys ++ [ex_key "Other" "CD" (ex_hash (s2z "foo")) 5 (ex_class "Bar" (ex_foo "Path"))].

Theorem C103_namespace_refuted :
  all_instances 3 (ex_env ex_other) (ex_defs ex_other ex_other_keys) [] ex_other_keys (Ok tt) = Some ([ex_yield "Path" "a"; ex_yield "Path" "b"], Ok tt).
Proof. vm_compute. reflexivity. Qed.
Print Assumptions C103_namespace_refuted.

(** An instance of a class without class definition: the instances of the keys behind it are not yielded. *)
Theorem C103_class_refuted :
  all_instances 3 (ex_env ex_objects) [] [] ex_keys (Ok tt) = Some ([], Err RuntimeError).
Proof. vm_compute. reflexivity. Qed.
Print Assumptions C103_class_refuted.

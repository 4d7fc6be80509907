(** C105: decoding of NSKeyedArchiver archives. *)

From Coq Require Import String.
From Verif Require Import Base BaseFacts CoreModel StrModel UuidSpec UuidFacts DecSpec NkaModel NkaSpec NkaProofs.
Local Open Scope list_scope.
Local Open Scope Z_scope.

(** A value that stands for another one is decoded to it. *)
Theorem C105_decodes : forall fint objs v w, archives fint objs v w ->
  exists n, forall fuel, (n <= fuel)%nat -> decode fuel fint (PList objs) v = Done (Ok w).
Proof. intros fint objs v w A. exact (proj1 (archives_evals fint objs) v w A). Qed.
Print Assumptions C105_decodes.

(** A file: the values in $top, by their names. *)
Theorem C105_file : forall fint objs d t out version, keyed d ->
  has d "$archiver" (text "NSKeyedArchiver") -> has d "$version" version -> number fint version 100000 ->
  has d "$objects" (PList objs) -> has d "$top" (PDict t) -> keyed t -> top fint objs t out ->
  exists n, forall fuel, (n <= fuel)%nat -> decode_file fuel fint (PDict d) = Done (Ok (PDict out)).
Proof. intros fint objs d t out version K Ha Hv N Ho Ht Kt T. exact (file_evals fint objs d t out version K Ha Hv N Ho Ht Kt T). Qed.
Print Assumptions C105_file.

(** Files of other archivers and versions are rejected. *)
Theorem C105_other : forall fint d, keyed d ->
  (forall v, has d "$archiver" (text "NSKeyedArchiver") -> has d "$version" v -> ~ number fint v 100000) ->
  forall fuel, decode_file fuel fint (PDict d) = Done (Err RuntimeError).
Proof. exact file_other. Qed.
Print Assumptions C105_other.

(** Without $top there are no values; without $objects there are no objects to refer to. *)
Theorem C105_no_top : forall fint d version, keyed d -> has d "$archiver" (text "NSKeyedArchiver") -> has d "$version" version -> number fint version 100000 ->
  lacks d "$top" -> forall fuel, decode_file fuel fint (PDict d) = Done (Ok (PDict [])).
Proof. exact file_no_top. Qed.
Print Assumptions C105_no_top.

Theorem C105_no_objects : forall fint d t out version, keyed d ->
  has d "$archiver" (text "NSKeyedArchiver") -> has d "$version" version -> number fint version 100000 ->
  lacks d "$objects" -> has d "$top" (PDict t) -> keyed t ->
  (top fint [] t out -> exists n, forall fuel, (n <= fuel)%nat -> decode_file fuel fint (PDict d) = Done (Ok (PDict out))) /\
  (forall name i fuel, t = [(text name, PUid i)] -> 0 <= i -> decode_file fuel fint (PDict d) = Done (Err IndexError)).
Proof. exact file_no_objects. Qed.
Print Assumptions C105_no_objects.

(** What an archive stands for is unique. *)
Theorem C105_unique : forall fint objs v w w', archives fint objs v w -> archives fint objs v w' -> w = w'.
Proof.
  intros fint objs v w w' A B. exact (evals_fun _ _ _ (proj1 (archives_evals fint objs) v w A) (proj1 (archives_evals fint objs) v w' B)).
Qed.
Print Assumptions C105_unique.

(** The layout of an archive does not matter: the order of the objects, objects that nothing refers to, whether
    equal objects are stored once or more than once, and whether references are UIDs (binary) or dictionaries (XML). *)
Theorem C105_layout : forall fint R objs objs' v v' w, layouts R objs objs' -> moved R v v' -> archives fint objs v w ->
  exists n, forall fuel, (n <= fuel)%nat -> decode fuel fint (PList objs) v = Done (Ok w) /\ decode fuel fint (PList objs') v' = Done (Ok w).
Proof.
  intros fint R objs objs' v v' w L M A. destruct (proj1 (archives_evals fint objs) v w A) as [n Hn].
  destruct (proj1 (archives_evals fint objs') v' w (proj1 (moved_archives fint R objs objs' L) v w A v' M)) as [m Hm].
  exists (Nat.max n m). intros fuel H. split; [apply Hn; lia|apply Hm; lia].
Qed.
Print Assumptions C105_layout.

(** What is decoded can be written as JSON. *)
Theorem C105_json : forall fint objs v w, archives fint objs v w -> json w.
Proof. intros fint objs. exact (proj1 (archives_json fint objs)). Qed.
Print Assumptions C105_json.

(** Without a cycle of references decoding comes to an end, for any contents. *)
Theorem C105_terminates : forall fint objs v, Acc (fun y x => mentions objs x y) v ->
  exists n, forall fuel, (n <= fuel)%nat -> decode fuel fint (PList objs) v <> OutOfFuel.
Proof. exact acyclic_halts. Qed.
Print Assumptions C105_terminates.

(** With a cycle there is no decoded value. *)
Theorem C105_cycles : forall fint objs (chain : nat -> pv), (forall i, needs objs (chain i) (chain (S i))) ->
  forall fuel w, decode fuel fint (PList objs) (chain 0%nat) <> Done (Ok w).
Proof. intros fint objs chain. exact (cycle_fails fint objs chain). Qed.
Print Assumptions C105_cycles.

(** Archives that are not complete, and classes that are not supported. *)
Theorem C105_errors : forall fint objs v e, broken fint objs v e ->
  exists n, forall fuel, (n <= fuel)%nat -> decode fuel fint (PList objs) v = Done (Err e).
Proof. exact broken_fails. Qed.
Print Assumptions C105_errors.

(** ** A concrete archive *)

Definition no_int (x : Z) : option Z := None.
Definition klass (s : string) : pv := PDict [(text "$classname", text s); (text "$classes", PList [text s; text "NSObject"])].
Definition ex_uuid : bytes := [0; 17; 34; 51; 68; 85; 102; 119; 136; 153; 170; 187; 204; 221; 238; 255].
(** 0: null; 1: the root, a dictionary; 2: its class; 3..6: keys; 7: an array with a shared element; 8: class of arrays;
    9: data; 10: a record, 11: its class; 12: a UUID, 13: its class; 14: a URL, 15: its class. *)
Definition ex_objs : list pv :=
  [text "$null";
   PDict [(text "NS.keys", PList [PUid 3; PUid 4; PUid 5; PUid 6]); (text "NS.objects", PList [PUid 7; PUid 10; PUid 12; PUid 14]); (text "$class", PUid 2)];
   klass "NSMutableDictionary"; text "list"; text "item"; text "id"; text "url";
   PDict [(text "$class", PUid 8); (text "NS.objects", PList [PUid 9; PUid 9; PUid 0])];
   klass "NSArray"; PBytes [251; 255; 1];
   PDict [(text "$class", PUid 11); (text "name", PUid 4); (text "count", PInt 3)];
   klass "ItemRecord"; PDict [(text "NS.uuidbytes", PBytes ex_uuid); (text "$class", PUid 13)];
   klass "NSUUID"; PDict [(text "NS.base", PUid 0); (text "NS.relative", PUid 6); (text "$class", PUid 15)]; klass "NSURL"].
Definition ex_root : pv :=
  PDict [(text "list", PList [text "-_8B"; text "-_8B"; PNone]); (text "item", PDict [(text "name", text "item"); (text "count", PInt 3)]);
         (text "id", text "00112233-4455-6677-8899-aabbccddeeff"); (text "url", text "url")].

Ltac keyed_tac := match goal with |- keyed ?d => let l := eval vm_compute in (map (fun p : pv * pv => match fst p with PStr s => s | _ => [] end) d) in
  exists l; split; [reflexivity|repeat (constructor; [cbn [In]; intuition discriminate|]); constructor] end.
Ltac obj := split; [lia|reflexivity].
Ltac has_tac := unfold has; cbn [In]; auto 20.
Ltac class_tac := eapply class_ref; [left; reflexivity|obj|apply class_rec; [keyed_tac|intros ? ?; cbn [In] in *; intuition discriminate|has_tac|discriminate]].
Ltac isa_tac := split; [reflexivity|split; [keyed_tac|eexists; split; [has_tac|class_tac]]].
Ltac name_tac := cbn; auto 20.

Lemma ex_text s n : object ex_objs n (PStr s) -> s <> s2z "$null" -> archives no_int ex_objs (PUid n) (PStr s).
Proof. intros H N. eapply ar_ref; [left; reflexivity|exact H|]. apply ar_text, N. Qed.
Lemma ex_data : archives no_int ex_objs (PUid 9) (text "-_8B").
Proof. eapply ar_ref; [left; reflexivity|obj|]. apply ar_data; [apply is_bytes_forallb; reflexivity|]. apply (urlsafe_text [251; 255; 1]). apply is_bytes_forallb. reflexivity. Qed.

Example C105_case : archives no_int ex_objs (PUid 1) ex_root.
Proof.
  eapply ar_ref; [left; reflexivity|obj|].
  eapply (ar_dict no_int ex_objs _ (s2z "NSMutableDictionary") _ [PUid 3; PUid 4; PUid 5; PUid 6] [PUid 7; PUid 10; PUid 12; PUid 14] [text "list"; text "item"; text "id"; text "url"]
           [PList [text "-_8B"; text "-_8B"; PNone]; PDict [(text "name", text "item"); (text "count", PInt 3)]; text "00112233-4455-6677-8899-aabbccddeeff"; text "url"]).
  - isa_tac.
  - name_tac.
  - has_tac.
  - has_tac.
  - repeat (apply all_cons; [apply ex_text; [obj|vm_compute; discriminate]|]). apply all_nil.
  - apply all_cons.
    { eapply ar_ref; [left; reflexivity|obj|]. eapply (ar_array _ _ _ (s2z "NSArray")); [isa_tac|name_tac|has_tac|]. apply all_cons; [apply ex_data|]. apply all_cons; [apply ex_data|]. apply all_cons; [|apply all_nil]. eapply ar_ref; [left; reflexivity|obj|]. apply ar_null. }
    apply all_cons.
    { eapply ar_ref; [left; reflexivity|obj|]. eapply (ar_record _ _ _ (s2z "ItemRecord")); [isa_tac|name_tac|]. apply members_skip; [left; reflexivity|].
      apply members_cons; [cbn; intuition discriminate| |apply ex_text; [obj|vm_compute; discriminate]|].
      { intros Em. apply truthy_empty in Em. discriminate. }
      apply members_cons; [cbn; intuition discriminate| |apply ar_int|apply members_nil]. intros Em. apply truthy_empty in Em. discriminate. }
    apply all_cons.
    { eapply ar_ref; [left; reflexivity|obj|]. eapply ar_uuid; [isa_tac|has_tac|apply is_bytes_forallb; reflexivity|].
      pose proof (uuid_be_text ex_uuid (proj1 (is_bytes_forallb ex_uuid) eq_refl) eq_refl) as U. exact U. }
    apply all_cons; [|apply all_nil].
    { eapply ar_ref; [left; reflexivity|obj|]. eapply (ar_url_only _ _ _ _ (PUid 0) (PUid 6) PNone); [isa_tac|has_tac|has_tac| |left; reflexivity|apply ex_text; [obj|vm_compute; discriminate]].
      eapply ar_ref; [left; reflexivity|obj|]. apply ar_null. }
  - reflexivity.
  - repeat constructor.
  - repeat (constructor; [repeat (constructor; [intros [H|(n & H & _)]; [discriminate|inversion H]|]); constructor|]). constructor.
Qed.

(** The model computes it. *)
Example C105_no_top_case : decode_file 3 no_int (PDict [(text "$version", PInt 100000); (text "$archiver", text "NSKeyedArchiver")]) = Done (Ok (PDict [])) /\
  decode_file 3 no_int (PDict [(text "$version", PInt 100000); (text "$archiver", text "NSKeyedArchiver"); (text "$top", PDict [(text "root", PUid 0)])]) = Done (Err IndexError).
Proof. split; vm_compute; reflexivity. Qed.

Example C105_run : decode_file 10 no_int (PDict [(text "$version", PInt 100000); (text "$objects", PList ex_objs); (text "$archiver", text "NSKeyedArchiver"); (text "$top", PDict [(text "root", PUid 1)])])
  = Done (Ok (PDict [(text "root", ex_root)])).
Proof. vm_compute. reflexivity. Qed.

(** The same array in a binary archive, and in an XML archive with another order and a copy of the data. *)
Example C105_layout_case :
  layouts (fun u u' => In (u, u') [(0, 1); (1, 0); (2, 2); (2, 3)])
    [klass "NSArray"; PDict [(text "$class", PUid 0); (text "NS.objects", PList [PUid 2; PUid 2])]; PBytes [7]]
    [PDict [(text "$class", PDict [(text "CF$UID", PInt 1)]); (text "NS.objects", PList [PDict [(text "CF$UID", PInt 2)]; PDict [(text "CF$UID", PInt 3)]])]; klass "NSArray"; PBytes [7]; PBytes [7]].
Proof.
  assert (Sc : forall R s, moved R (PStr s) (PStr s)) by (intros R s; apply moved_same; discriminate).
  assert (By : forall R s, moved R (PBytes s) (PBytes s)) by (intros R s; apply moved_same; discriminate).
  intros u u' I. cbn [In] in I. destruct I as [I|[I|[I|[I|[]]]]]; injection I as <- <-; eexists; eexists; (split; [obj|]); (split; [obj|]); try apply By.
  - apply moved_dict; [intros n [Q|Q]; discriminate|]. constructor; [split; [reflexivity|apply Sc]|]. constructor; [split; [reflexivity|]|constructor]. cbn [snd]. apply moved_list. apply Forall2_cons; [apply Sc|]. apply Forall2_cons; [apply Sc|apply Forall2_nil].
  - apply moved_dict; [intros n [Q|Q]; discriminate|]. constructor; [split; [reflexivity|]|]. { eapply moved_ref; [left; reflexivity|right; reflexivity|]. cbn; auto. }
    constructor; [split; [reflexivity|]|constructor]. cbn [snd]. apply moved_list. repeat (apply Forall2_cons; [eapply moved_ref; [left; reflexivity|right; reflexivity|cbn; auto]|]). apply Forall2_nil.
Qed.

(** A list with two references to the same object has no cycle. *)
Example C105_acyclic_case : Acc (fun y x => mentions [text "x"; PList [PUid 0; PUid 0]] x y) (PUid 1).
Proof.
  assert (P : forall n i, points (PUid n) i -> i = n) by (intros n i [Q|(x & _ & Q)]; congruence).
  assert (X : Acc (fun y x => mentions [text "x"; PList [PUid 0; PUid 0]] x y) (text "x")).
  { constructor. intros y M. inversion M as [v u o F T| | |]; subst. destruct F as [F|(x & _ & F)]; discriminate. }
  assert (X0 : Acc (fun y x => mentions [text "x"; PList [PUid 0; PUid 0]] x y) (PUid 0)).
  { constructor. intros y M. inversion M as [v u o F T| | |]; subst. apply P in F. subst u. destruct T as [[_ T]|[L _]]; [injection T as <-; exact X|lia]. }
  constructor. intros y M. inversion M as [v u o F T| | |]; subst. apply P in F. subst u. destruct T as [[_ T]|[L _]]; [|lia]. injection T as <-.
  constructor. intros y M'. inversion M' as [v u o F T|l x I| |]; subst; [destruct F as [F|(x & _ & F)]; discriminate|]. destruct I as [<-|[<-|[]]]; exact X0.
Qed.

(** An array that contains itself. *)
Example C105_cycle_case : let objs := [PDict [(text "$class", PUid 1); (text "NS.objects", PList [PUid 0])]; klass "NSArray"] in
  forall fuel w, decode fuel no_int (PList objs) (PUid 0) <> Done (Ok w).
Proof.
  intros objs. apply (C105_cycles no_int objs (fun i => if Nat.even i then PUid 0 else PDict [(text "$class", PUid 1); (text "NS.objects", PList [PUid 0])])).
  intros i. rewrite Nat.even_succ, <- Nat.negb_even. destruct (Nat.even i); cbn [negb].
  - eapply needs_ref; [left; reflexivity|]. unfold objs. obj.
  - eapply (needs_array _ _ (s2z "NSArray")); [unfold objs; isa_tac|name_tac|has_tac|left; reflexivity].
Qed.

(** ** Findings *)

(** Of a set only the last element is returned, and not as a list. *)
Definition set_objs (l : list pv) : list pv := [PDict [(text "$class", PUid 1); (text "NS.objects", PList l)]; klass "NSSet"; PDict [(text "a", PInt 1)]; PDict [(text "b", PInt 2)]; text "ab"].
Theorem C105_set_refuted : decode 9 no_int (PList (set_objs [PUid 2; PUid 3])) (PUid 0) = Done (Ok (PDict [(text "b", PInt 2)])).
Proof. vm_compute. reflexivity. Qed.
Print Assumptions C105_set_refuted.

(** An empty set is an UnboundLocalError, a set of strings an AttributeError. *)
Theorem C105_sets_refuted : decode 9 no_int (PList (set_objs [])) (PUid 0) = Done (Err UnboundLocalError) /\
  decode 9 no_int (PList (set_objs [PUid 4])) (PUid 0) = Done (Err AttributeError).
Proof. split; vm_compute; reflexivity. Qed.
Print Assumptions C105_sets_refuted.

(** A member of a record that is false, zero or empty is missing in the decoded record. *)
Theorem C105_false_refuted : decode 9 no_int (PList [PDict [(text "$class", PUid 1); (text "hidden", PBool false); (text "count", PInt 0); (text "name", text "x")]; klass "ItemRecord"]) (PUid 0)
  = Done (Ok (PDict [(text "name", text "x")])).
Proof. vm_compute. reflexivity. Qed.
Print Assumptions C105_false_refuted.

(** A dictionary without a class is returned as it is: references in it are not followed, and it may not be
    possible to write it as JSON. *)
Theorem C105_plain_refuted : decode 9 no_int (PList [PDict [(text "a", PUid 1); (text "b", PBytes [1])]; text "x"]) (PUid 0) = Done (Ok (PDict [(text "a", PUid 1); (text "b", PBytes [1])])) /\
  ~ json (PDict [(text "a", PUid 1); (text "b", PBytes [1])]).
Proof.
  split; [vm_compute; reflexivity|]. intros J. inversion J as [v S E|l F E|d F E]; subst; [destruct S|]. inversion F as [|a l [_ H] _]; subst. cbn [snd] in H. inversion H as [v S| |]; subst. destruct S.
Qed.
Print Assumptions C105_plain_refuted.

(** Keys of a dictionary that are different in the archive may be the same in Python: the number 1 and true. *)
Theorem C105_keys_refuted : decode 9 no_int (PList [PDict [(text "$class", PUid 1); (text "NS.keys", PList [PInt 1; PBool true]); (text "NS.objects", PList [text "x"; text "y"])]; klass "NSDictionary"]) (PUid 0)
  = Done (Ok (PDict [(PInt 1, text "y")])).
Proof. vm_compute. reflexivity. Qed.
Print Assumptions C105_keys_refuted.

(** A negative number in an XML archive refers to an object from the end. *)
Theorem C105_negative_refuted : decode 9 no_int (PList [text "first"; text "last"]) (PDict [(text "CF$UID", PInt (-1))]) = Done (Ok (text "last")).
Proof. vm_compute. reflexivity. Qed.
Print Assumptions C105_negative_refuted.

(** C98: the class value data maps of a WMI repository. *)

From Coq Require Import String.
From Verif Require Import Base BaseFacts CoreModel StrModel DictModel WcdModel WcdSpec WcmModel WcmSpec WcmProofs.
Local Open Scope string_scope.
Local Open Scope list_scope.
Local Open Scope Z_scope.

(** The class map has exactly the typed properties of the class and of its parent classes. *)
Theorem C98_build : forall lower classes m, build lower classes = Ok m <-> map_of lower classes m.
Proof. exact build_iff. Qed.
Print Assumptions C98_build.

(** There is an error only because of no class, of the first property that has no type and is not there
    before, or of the first with a type qualifier that is not text. *)
Theorem C98_errors : forall lower classes x, build lower classes = Err x ->
  x = IndexError /\ classes = [] \/
  exists before k p after out, concat (map c_props classes) = before ++ (k, p) :: after /\ declares lower [] before out /\
    (x = ParseError /\ untyped p /\ ~ In (lower (p_name p)) (map fst out) \/
     x = AttributeError /\ ~ untyped p /\ forall s, ~ typed p s).
Proof. exact build_errors. Qed.
Print Assumptions C98_errors.

(** If no two declared properties overlap, unless they are at the same place, then the value of every
    property is within the value data. *)
Theorem C98_covers : forall lower classes m out, build lower classes = Ok m ->
  declares lower [] (concat (map c_props classes)) out ->
  (forall a b, In a (map snd out) -> In b (map snd out) ->
    pm_offset a = pm_offset b /\ pm_size a = pm_size b \/ pm_offset a + pm_size a <= pm_offset b \/ pm_offset b + pm_size b <= pm_offset a) ->
  forall k p, In (k, p) (cm_props m) -> pm_offset p + pm_size p <= cm_size m.
Proof. exact covers. Qed.
Print Assumptions C98_covers.

(** A class map is found exactly if the class and all its parent classes are there, and is theirs. *)
Theorem C98_lookup : forall lower hash defs h m,
  (exists fuel, fresh_map fuel lower hash defs h = Done (Ok m)) <->
  exists c l, sdict_get (lower h) defs = Some c /\ lineage lower hash defs c l /\ map_of lower l m.
Proof. exact lookup_iff. Qed.
Print Assumptions C98_lookup.

Theorem C98_lookup_errors : forall lower hash defs h x,
  (exists fuel, fresh_map fuel lower hash defs h = Done (Err x)) <->
  sdict_get (lower h) defs = None /\ x = RuntimeError \/
  (exists c, sdict_get (lower h) defs = Some c /\ orphan lower hash defs c /\ x = AttributeError) \/
  exists c l, sdict_get (lower h) defs = Some c /\ lineage lower hash defs c l /\ build lower l = Err x.
Proof. exact lookup_errors. Qed.
Print Assumptions C98_lookup_errors.

(** The lookup ends if no class is a parent class of itself. *)
Theorem C98_ends : forall lower hash defs (rank : cdef -> nat) fuel h,
  (forall k c s p, In (k, c) defs -> c_super c = Some s -> sdict_get (lower (hash s)) defs = Some p -> (rank p < rank c)%nat) ->
  (forall k c, In (k, c) defs -> (rank c < fuel)%nat) ->
  fresh_map fuel lower hash defs h <> OutOfFuel.
Proof. exact lookup_ends. Qed.
Print Assumptions C98_ends.

(** Class maps that are kept are those that would be made again. *)
Theorem C98_kept : forall fuel lower hash defs l, lookups fuel lower hash defs [] l = map (fresh_map fuel lower hash defs) l.
Proof. exact lookups_kept. Qed.
Print Assumptions C98_kept.

(** ** A class with a parent class *)

Definition ex_low (s : str) : str := map (fun c => if (65 <=? c) && (c <=? 90) then c + 32 else c) s.
Definition ex_hash (s : str) : str := 72 :: s.

Definition ex_prop (name : string) (offset type : Z) (q : sdict qval) : str * prop := (s2z name, mkprop (s2z name) 0 offset type q).
Definition ex_type (s : string) : sdict qval := [(s2z "type", QStr (s2z s))].

Definition ex_base : cdef := mkcdef (s2z "Base") None [] [ex_prop "Id" 0 0x15 (ex_type "uint64"); ex_prop "Name" 8 0x8 (ex_type "string")].
Definition ex_child : cdef := mkcdef (s2z "Child") (Some (s2z "Base")) [] [ex_prop "ID" 0 0x15 []; ex_prop "Owner" 12 0x66 (ex_type "Ref:Base")].
Definition ex_defs : sdict cdef := [(s2z "hbase", ex_base); (s2z "hchild", ex_child)].

Definition ex_map : cmap := mkcm (s2z "Child") [s2z "Base"] None (Some (s2z "Base"))
  [(s2z "id", mkpm (s2z "Id") 0x15 0 8 (s2z "uint64")); (s2z "name", mkpm (s2z "Name") 0x8 8 4 (s2z "string"));
   (s2z "owner", mkpm (s2z "Owner") 0x66 12 4 (s2z "ref"))] 16.

Example C98_case : fresh_map 5 ex_low ex_hash ex_defs (s2z "hChild") = Done (Ok ex_map) /\
  lineage ex_low ex_hash ex_defs ex_child [ex_base; ex_child] /\ map_of ex_low [ex_base; ex_child] ex_map /\
  lookups 5 ex_low ex_hash ex_defs [] [s2z "HCHILD"; s2z "hchild"; s2z "other"] = [Done (Ok ex_map); Done (Ok ex_map); Done (Err RuntimeError)] /\
  (forall k c s p, In (k, c) ex_defs -> c_super c = Some s -> sdict_get (ex_low (ex_hash s)) ex_defs = Some p ->
     (match c_super p with None => 0 | Some _ => 1 end < match c_super c with None => 0 | Some _ => 1 end)%nat).
Proof.
  split; [vm_compute; reflexivity|].
  split; [change [ex_base; ex_child] with ([ex_base] ++ [ex_child])%list; eapply ln_child; [reflexivity|discriminate|reflexivity|apply ln_base; left; reflexivity]|].
  split; [apply C98_build; vm_compute; reflexivity|]. split; [vm_compute; reflexivity|].
  intros k c s p [[= <- <-]|[[= <- <-]|[]]]; [discriminate|]. intros [= <-] H. vm_compute in H. injection H as <-. cbn. lia.
Qed.

(** The hypotheses of [C98_covers] hold of the example. *)
Example C98_covers_case : exists out, declares ex_low [] (concat (map c_props [ex_base; ex_child])) out /\
  forall a b, In a (map snd out) -> In b (map snd out) ->
    pm_offset a = pm_offset b /\ pm_size a = pm_size b \/ pm_offset a + pm_size a <= pm_offset b \/ pm_offset b + pm_size b <= pm_offset a.
Proof.
  assert (M : map_of ex_low [ex_base; ex_child] ex_map) by (apply C98_build; vm_compute; reflexivity).
  destruct M as (a0 & c0 & out & _ & _ & _ & _ & D & A & _). exists out. split; [exact D|].
  assert (build_props ex_low (concat (map c_props [ex_base; ex_child])) [] None = Ok (cm_props ex_map, Some (mkpm (s2z "Owner") 0x66 12 4 (s2z "ref")))) as B by (vm_compute; reflexivity).
  assert (out = cm_props ex_map) as ->.
  { clear B A. cbn [map concat c_props ex_base ex_child app ex_prop] in D.
    inversion D as [|? ? ? m1 ? o1 M1 D1|? ? ? ? ? U1 ? D1]; subst; [|vm_compute in U1; destruct U1].
    inversion D1 as [|? ? ? m2 ? o2 M2 D2|? ? ? ? ? U2 ? D2]; subst; [|vm_compute in U2; destruct U2].
    inversion D2 as [|? ? ? m3 ? o3 M3 D3|? ? ? ? ? U3 ? D3]; subst; [destruct M3 as (_ & _ & _ & _ & s & [_ T] & _); discriminate T|].
    inversion D3 as [|? ? ? m4 ? o4 M4 D4|? ? ? ? ? U4 ? D4]; subst; [|vm_compute in U4; destruct U4].
    inversion D4; subst.
    assert (G : forall lower p m q, mapped lower p m -> typed p q -> m = mkpm (p_name p) (p_type p) (p_offset p) (type_size (p_type p)) (if existsb (Z.eqb 58) (lower q) then before_colon (lower q) else lower q)).
    { intros lower p m q (E1 & E2 & E3 & E4 & s & [_ T] & E5) [_ T2]. rewrite T in T2. injection T2 as <-.
      apply type_size_iff in E4. apply type_name_iff in E5. destruct m; cbn in *; subst; reflexivity. }
    rewrite (G _ _ _ (s2z "uint64") M1), (G _ _ _ (s2z "string") M2), (G _ _ _ (s2z "Ref:Base") M4) by (split; [discriminate|reflexivity]).
    vm_compute. reflexivity. }
  intros a b Ha Hb. cbn in Ha, Hb.
  destruct Ha as [<-|[<-|[<-|[]]]]; destruct Hb as [<-|[<-|[<-|[]]]]; cbn; lia.
Qed.

(** ** Findings *)

(** A parent class that is not there raises an AttributeError; the method documents RuntimeError. *)
Theorem C98_parent_refuted : forall fuel,
  fresh_map (S fuel) ex_low ex_hash [(s2z "hchild", ex_child)] (s2z "hchild") = Done (Err AttributeError).
Proof. reflexivity. Qed.
Print Assumptions C98_parent_refuted.

(** With a class that is its own parent class the lookup does not end. *)
Definition ex_loop : cdef := mkcdef (s2z "Loop") (Some (s2z "Loop")) [] [].

Theorem C98_loop_refuted : forall fuel, fresh_map fuel ex_low ex_hash [(s2z "hloop", ex_loop)] (s2z "hloop") = OutOfFuel.
Proof.
  intros fuel. change (rbind (parents fuel ex_low ex_hash [(s2z "hloop", ex_loop)] ex_loop [ex_loop]) (fun l => Done (build ex_low l)) = OutOfFuel).
  assert (G : forall l, parents fuel ex_low ex_hash [(s2z "hloop", ex_loop)] ex_loop l = OutOfFuel) by (induction fuel as [|fuel IH]; intros l; [reflexivity|exact (IH (ex_loop :: l))]).
  rewrite G. reflexivity.
Qed.
Print Assumptions C98_loop_refuted.

(** The dynasty that is shown is not the top-level class: it is missing with one parent class, and it is
    the parent class of the parent class with three. *)
Theorem C98_dynasty_refuted :
  let c n := mkcdef (s2z n) None [] [] in
  build ex_low [c "A"; c "B"] = Ok (mkcm (s2z "B") [s2z "A"] None (Some (s2z "A")) [] 0) /\
  build ex_low [c "A"; c "B"; c "C"; c "D"] = Ok (mkcm (s2z "D") [s2z "C"; s2z "B"; s2z "A"] (Some (s2z "B")) (Some (s2z "C")) [] 0).
Proof. vm_compute. split; reflexivity. Qed.
Print Assumptions C98_dynasty_refuted.

(** If properties overlap the size of the value data is not that of all the properties. *)
Theorem C98_overlap_refuted : exists m,
  build ex_low [mkcdef (s2z "A") None [] [ex_prop "X" 0 0x15 (ex_type "uint64"); ex_prop "Y" 4 0x11 (ex_type "uint8")]] = Ok m /\
  cm_size m = 5 /\ exists k p, In (k, p) (cm_props m) /\ pm_offset p + pm_size p = 8.
Proof. eexists. split; [vm_compute; reflexivity|]. split; [reflexivity|]. cbn. do 2 eexists. split; [left; reflexivity|reflexivity]. Qed.
Print Assumptions C98_overlap_refuted.

(** A type qualifier that is a number raises an AttributeError; the method documents ParseError. *)
Theorem C98_number_refuted :
  build ex_low [mkcdef (s2z "A") None [] [ex_prop "X" 0 0x15 [(s2z "type", QInt 5)]]] = Err AttributeError.
Proof. vm_compute. reflexivity. Qed.
Print Assumptions C98_number_refuted.

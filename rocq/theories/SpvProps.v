(** C114: the output of the Spotlight script. *)

From Verif Require Import Base BaseFacts CoreModel StrModel DictModel SpotModel SpvModel SpvSpec SpvNames SpvProofs.
From Coq Require String.
Import String.StringSyntax.

(** C114: a table of rows of [n] values is written as a line for each row, and every column is as wide as it has to be: on a terminal with
    tab stops at every eighth column, the rows of plain values are aligned. *)
Theorem C114_aligned : forall h n rows, (0 < n)%nat -> rows <> [] -> Forall (fun r : list str => length r = n) rows ->
  exists t ls ws, add_rows (new_view h) rows = Ok t /\
    view_text t = Ok ((match h with [] => [] | _ => h ++ [10] end) ++ concat (map (fun l => l ++ [10]) ls) ++ [10]) /\
    length ws = n /\ (forall i, (i < n)%nat -> column_width (nth i ws 0%nat) (column i rows)) /\
    Forall2 (fun l r => Forall plain r -> expand 0 l = aligned ws r) ls rows.
Proof.
  intros h n rows P N F. destruct (view_lines h n rows P N F) as (ws & A & V & L & W8 & W).
  exists (mktv h (Z.of_nat n) rows), (map (line ws) rows), (map Z.to_nat ws). split; [exact A|]. split.
  { rewrite V, map_map. destruct h; reflexivity. }
  split; [rewrite map_length; exact L|]. split.
  { intros i Hi. change 0%nat with (Z.to_nat 0). rewrite map_nth. apply W. exact Hi. }
  assert (G : forall l, (forall r, In r l -> In r rows) -> Forall2 (fun l r => Forall plain r -> expand 0 l = aligned (map Z.to_nat ws) r) (map (line ws) l) l).
  { induction l as [|r l IH]; intros I; cbn [map]; constructor; [|apply IH; intros x Hx; apply I; right; exact Hx].
    intros Pr. pose proof (I r (or_introl eq_refl)) as Ir. rewrite Forall_forall in F. pose proof (F r Ir) as Lr. apply expand_line; [congruence|exact W8|exact Pr| |reflexivity].
    intros i Hi. destruct (W i ltac:(lia)) as (_ & B & _). specialize (B (nth i r []) (in_map (fun r => nth i r []) rows r Ir)). 
    rewrite Forall_forall in W8. destruct (W8 (nth i ws 0)) as (B0 & _); [apply nth_In; lia|]. unfold len. lia. }
  apply G. auto.
Qed.
Print Assumptions C114_aligned.

(** C114: rows of different numbers of values are no table. *)
Theorem C114_mismatch : forall h n rows r more, (0 < n)%nat -> rows <> [] -> Forall (fun r : list str => length r = n) rows -> length r <> n ->
  add_rows (new_view h) (rows ++ r :: more) = Err ValueError.
Proof.
  intros h n rows r more P N F L. 
  assert (G : forall a b t, add_rows t (a ++ b) = do t <- add_rows t a; add_rows t b).
  { induction a as [|x a IH]; intros b t; [reflexivity|]. cbn [app add_rows]. destruct (add_row t x); cbn [bind]; [apply IH|reflexivity]. }
  rewrite G. destruct (view_lines h n rows P N F) as (ws & A & _). rewrite A. cbn [bind add_rows]. unfold add_row. cbn [tv_number].
  destruct (Z.eqb_spec (Z.of_nat n) 0); [lia|]. destruct (Z.eqb_spec (Z.of_nat n) (len r)) as [E|_]; [unfold len in E; lia|]. reflexivity.
Qed.
Print Assumptions C114_mismatch.

(** C114: if the values are plain and not empty, and shorter than their columns are wide, the text determines the rows. *)
Theorem C114_lossless : forall h n rows rows' t t' s, (0 < n)%nat -> rows <> [] -> rows' <> [] ->
  (forall r, In r (rows ++ rows') -> length r = n /\ Forall plain r /\ Forall (fun v => v <> []) r) -> separated n rows -> separated n rows' ->
  add_rows (new_view h) rows = Ok t -> add_rows (new_view h) rows' = Ok t' -> view_text t = Ok s -> view_text t' = Ok s -> rows = rows'.
Proof.
  intros h n rows rows' t t' s P N N' R S S' A A' V V'.
  assert (F : Forall (fun r : list str => length r = n) rows) by (apply Forall_forall; intros r I; apply R; apply in_or_app; left; exact I).
  assert (F' : Forall (fun r : list str => length r = n) rows') by (apply Forall_forall; intros r I; apply R; apply in_or_app; right; exact I).
  destruct (view_lines h n rows P N F) as (ws & A1 & V1 & L1 & W81 & W1). destruct (view_lines h n rows' P N' F') as (ws' & A2 & V2 & L2 & W82 & W2).
  rewrite A1 in A. rewrite A2 in A'. injection A as <-. injection A' as <-. rewrite V in V1. rewrite V' in V2. rewrite V1 in V2. injection V2 as E.
  apply app_inv_head in E. apply app_inv_tail in E.
  apply lines_inj in E; [| |].
  - assert (G : forall l l', Forall2 (fun x y => line ws x = line ws' y) l l' -> (forall r, In r l -> In r rows) -> (forall r, In r l' -> In r rows') -> l = l').
    { induction 1 as [|x y l l' Exy _ IH]; intros I I'; [reflexivity|]. f_equal; [|apply IH; intros r Hr; [apply I|apply I']; right; exact Hr].
      pose proof (I x (or_introl eq_refl)) as Ix. pose proof (I' y (or_introl eq_refl)) as Iy.
      destruct (R x) as (Lx & Px & Nx); [apply in_or_app; auto|]. destruct (R y) as (Ly & Py & Ny); [apply in_or_app; auto|].
      apply (line_inj x y ws ws'); try assumption; try congruence.
      - intros i Hi. pose proof (S i _ x ltac:(lia) (W1 i ltac:(lia)) Ix). unfold len. lia.
      - intros i Hi. pose proof (S' i _ y ltac:(lia) (W2 i ltac:(lia)) Iy). unfold len. lia. }
    apply (G rows rows' E); auto.
  - intros x I. apply line_no_break. apply R. apply in_or_app. auto.
  - intros x I. apply line_no_break. apply R. apply in_or_app. auto.
Qed.
Print Assumptions C114_lossless.

(** C114, finding: a value that fills its column is followed by the next without anything in between, so that different tables have the
    same text. *)
Theorem C114_joined_refuted : forall (a b : str), (length a mod 8 = 0)%nat ->
  (exists t, add_rows (new_view []) [[a; b]] = Ok t /\ view_text t = Ok (a ++ b ++ [10; 10])) /\
  (exists t, add_rows (new_view []) [[[]; a ++ b]] = Ok t /\ view_text t = Ok (a ++ b ++ [10; 10])).
Proof.
  assert (G : forall (a b : str), (length a mod 8 = 0)%nat -> exists t, add_rows (new_view []) [[a; b]] = Ok t /\ view_text t = Ok (a ++ b ++ [10; 10])).
  { intros a b M. destruct (view_lines [] 2 [[a; b]]) as (ws & A & V & L & W8 & W); [lia|discriminate|repeat constructor|].
    eexists. split; [exact A|]. rewrite V. cbn [head_text map concat app]. rewrite app_nil_r. destruct ws as [|w0 [|w1 [|]]]; try discriminate.
    specialize (W 0%nat ltac:(lia)). cbn [nth] in W. inversion W8 as [|? ? (P0 & _) _]; subst.
    assert (E : column_width (length a) (column 0 [[a; b]])).
    { split; [exact M|]. split; [intros s [<-|[]]; cbn; lia|]. intros w _ B. apply B. left. reflexivity. }
    pose proof (width_unique _ _ _ W E) as Ew. rewrite line_cons2. destruct (tabs_shape (w0 - len a)) as (k & -> & _ & K). rewrite K by (unfold len; lia). cbn [repeat app line].
    rewrite <- !app_assoc. reflexivity. }
  intros a b M. split; [exact (G a b M)|]. pose proof (G [] (a ++ b) eq_refl) as K. cbn [app] in K. rewrite <- app_assoc in K. exact K.
Qed.
Print Assumptions C114_joined_refuted.

(** C114: a metadata item is shown as a line for each of the thirty attributes, in this order, with the text of its value at column 40. *)
Theorem C114_item : forall pystr date i vals id,
  Forall2 (fun name s => value_string pystr date (sdict_get (lookup_name name) (it_attrs i)) = Ok s) attribute_names vals ->
  show_item pystr date id (Some i) = (concat (map (fun p => item_line (fst p) (snd p)) (combine attribute_names vals)) ++ [10], Ok tt).
Proof. exact item_shown. Qed.
Print Assumptions C114_item.

(** C114: these are the thirty attributes: their names as they are shown, and the stored attributes whose values are shown. *)
Theorem C114_attributes : map (fun n => (n, lookup_name n)) attribute_names = shown_attributes /\ len shown_attributes = 30 /\ forall pystr date i vals id,
    Forall2 (fun p s => value_string pystr date (sdict_get (snd p) (it_attrs i)) = Ok s) shown_attributes vals ->
    show_item pystr date id (Some i) = (concat (map (fun p => item_line (fst (fst p)) (snd p)) (combine shown_attributes vals)) ++ [10], Ok tt).
Proof.
  assert (E : map (fun n => (n, lookup_name n)) attribute_names = shown_attributes) by (vm_compute; reflexivity).
  split; [exact E|]. split; [vm_compute; reflexivity|]. intros pystr date i vals id F. rewrite <- E in F |- *. rewrite C114_item with (vals := vals).
  - f_equal. f_equal. f_equal. generalize dependent vals. generalize attribute_names. intros l vals _. revert vals.
    induction l as [|n l IH]; intros [|v vals]; cbn [map combine fst snd]; [reflexivity|reflexivity|reflexivity|]. rewrite IH. reflexivity.
  - generalize dependent attribute_names. intros l _. revert vals. induction l as [|n l IH]; intros vals F; inversion F; subst; constructor; auto.
Qed.
Print Assumptions C114_attributes.

(** C114: the text of an attribute. *)
Theorem C114_value : forall pystr date a,
  (value_string pystr date None = Ok (s2z "(null)")) /\
  (forall s, at_type a = 11 -> at_value a = AString s -> value_string pystr date (Some a) = Ok ([34] ++ s ++ [34])) /\
  (at_type a = 12 -> value_string pystr date (Some a) = date (at_value a)) /\
  (forall z, at_type a <> 11 -> at_type a <> 12 -> at_value a = AInt z -> value_string pystr date (Some a) = Ok (fmt_d z)) /\
  (forall s, at_type a <> 11 -> at_type a <> 12 -> at_value a = AString s -> value_string pystr date (Some a) = Ok s).
Proof.
  intros pystr date a. unfold value_string. split; [reflexivity|].
  split; [intros s T V; rewrite T, V; reflexivity|]. split; [intros T; rewrite T; reflexivity|].
  split; intros x T1 T2 V; (destruct (Z.eqb_spec (at_type a) 11); [contradiction|]; destruct (Z.eqb_spec (at_type a) 12); [contradiction|]; rewrite V; reflexivity).
Qed.
Print Assumptions C114_value.

(** C114: the output of an item determines the texts of the values that are shown, if they have no line breaks. *)
Theorem C114_item_lossless : forall pystr date i i' vals vals' id id',
  Forall2 (fun name s => value_string pystr date (sdict_get (lookup_name name) (it_attrs i)) = Ok s) attribute_names vals ->
  Forall2 (fun name s => value_string pystr date (sdict_get (lookup_name name) (it_attrs i')) = Ok s) attribute_names vals' ->
  Forall (fun s => ~ In 10 s) vals -> Forall (fun s => ~ In 10 s) vals' ->
  show_item pystr date id (Some i) = show_item pystr date id' (Some i') -> vals = vals'.
Proof.
  intros pystr date i i' vals vals' id id' F F' B B' E. rewrite (item_shown _ _ _ _ _ F), (item_shown _ _ _ _ _ F') in E. 
  assert (L : forall (R : str -> str -> Prop) l l', Forall2 R l l' -> length l' = length l) by (clear; intros R l l' F; induction F; cbn [length]; congruence).
  pose proof (f_equal fst E) as E1. cbn [fst] in E1. apply app_inv_tail in E1. apply (item_text_inj attribute_names); try assumption; eapply L; eassumption.
Qed.
Print Assumptions C114_item_lossless.

(** C114: if the text of an attribute cannot be made, nothing of the item is shown; this is so for the strings of an attribute with more
    than one. *)
Theorem C114_strings_refuted : forall pystr date i id pre vals name post a l,
  attribute_names = pre ++ name :: post ->
  Forall2 (fun name s => value_string pystr date (sdict_get (lookup_name name) (it_attrs i)) = Ok s) pre vals ->
  sdict_get (lookup_name name) (it_attrs i) = Some a -> at_type a = 11 -> at_value a = AStrings l ->
  show_item pystr date id (Some i) = ([], Err TypeError).
Proof.
  intros pystr date i id pre vals name post a l E F G T V. unfold show_item. rewrite E. unfold new_view.
  rewrite (item_rows_fail pystr date (it_attrs i) TypeError pre vals name post [] [] F); [reflexivity|]. rewrite G. unfold value_string. rewrite T, V. reflexivity.
Qed.
Print Assumptions C114_strings_refuted.

(** C114, finding: if there is no such item the script says so and then fails. *)
Theorem C114_missing_refuted : forall pystr date utf8 lz4 zlib streams fuel content st id,
  read_store fuel utf8 lz4 zlib streams content = Done (Ok st) -> dict_get id (st_descs st) = None ->
  show_store pystr date utf8 lz4 zlib streams fuel content (Some id) =
  Done (Ok (s2z "No such metadata item: " ++ fmt_d id ++ [10], Err UnboundLocalError)).
Proof.
  intros pystr date utf8 lz4 zlib streams fuel content st id R G. unfold show_store. rewrite R. cbn [rbind]. unfold get_item. rewrite G. reflexivity.
Qed.
Print Assumptions C114_missing_refuted.

(** C114: the item is that of the option --item, or the item 1, of which the properties of the database are shown. *)
Theorem C114_store : forall pystr date utf8 lz4 zlib streams fuel content st i st',
  read_store fuel utf8 lz4 zlib streams content = Done (Ok st) ->
  (get_item fuel utf8 lz4 zlib content st 1 = Done (Ok (i, st')) ->
   show_store pystr date utf8 lz4 zlib streams fuel content None =
   Done (Ok match show_database utf8 i (number_of_items st') with Ok s => (s, Ok tt) | Err e => ([], Err e) end)) /\
  forall id, get_item fuel utf8 lz4 zlib content st id = Done (Ok (i, st')) ->
   show_store pystr date utf8 lz4 zlib streams fuel content (Some id) = Done (Ok (show_item pystr date id i)).
Proof.
  intros pystr date utf8 lz4 zlib streams fuel content st i st' R. unfold show_store. rewrite R. cbn [rbind]. split; [intros G|intros id G]; rewrite G; reflexivity.
Qed.
Print Assumptions C114_store.

(** C114: without --item the version and the number of the metadata items are shown, and the properties of the database, if there are any.
    [attrs] are the attributes of the item 1. *)
Theorem C114_database : forall utf8 i n v p,
  match i with
  | None => v = [] /\ p = []
  | Some i =>
      match sdict_get (s2z "_kStoreMetadataVersion") (it_attrs i) with None => v = [] | Some a => exists z, at_value a = AInt z /\ v = version_text z end /\
      match sdict_get (s2z "kMDStoreProperties") (it_attrs i) with None => p = [] | Some a => exists d, at_value a = AData d /\ utf8 d = Some p end
  end ->
  show_database utf8 i n =
  Ok (s2z "Apple Spotlight database information:" ++ [10] ++ s2z "Metadata version:" ++ [9; 9] ++ v ++ [10] ++ s2z "Number of metadata items:" ++ [9] ++ fmt_d n ++ [10] ++ [10] ++
      match p with [] => [] | _ => s2z "Properties:" ++ [10] ++ p ++ [10] end).
Proof.
  intros utf8 i n v p H. unfold show_database.
  assert (Hp : match i with None => Ok [] | Some i => properties_of utf8 (it_attrs i) end = Ok p).
  { destruct i as [i|]; [|destruct H as (_ & ->); reflexivity]. destruct H as (_ & H). unfold properties_of. destruct (sdict_get _ _) as [a|]; [|rewrite H; reflexivity]. destruct H as (d & -> & ->). reflexivity. }
  assert (Hv : match i with None => Ok [] | Some i => version_of (it_attrs i) end = Ok v).
  { destruct i as [i|]; [|destruct H as (-> & _); reflexivity]. destruct H as (H & _). unfold version_of. destruct (sdict_get _ _) as [a|]; [|rewrite H; reflexivity]. destruct H as (z & -> & ->).
    cbn [int_value bind]. unfold version_text. rewrite Z.shiftr_div_pow2 by lia. change 65535 with (Z.ones 16). rewrite Z.land_ones by lia. reflexivity. }
  rewrite Hp, Hv. cbn [bind]. destruct (database_rows v (fmt_d n)) as (t & A1 & A2). match goal with |- context [add_row ?a ?b] => change (add_row a b) with (add_row (new_view (s2z "Apple Spotlight database information:")) [s2z "Metadata version:"; v]) end. rewrite A1. cbn [bind]. match goal with |- context [add_row ?a ?b] => change (add_row a b) with (add_row t [s2z "Number of metadata items:"; fmt_d n]) end. rewrite A2. cbn [bind]. rewrite database_view. cbn [bind].
  f_equal. rewrite <- !app_assoc. destruct p; reflexivity.
Qed.
Print Assumptions C114_database.

(** A table of two columns, an item with a file name, a reference and a number, and the item 1 of a database. *)
Definition C114_item1 : item := mkitem 9 9 2 0 [
  (s2z "_kMDItemFileName", mkattr (s2z "_kMDItemFileName") 0 11 (AString (s2z "a.txt"))); (s2z "kMDItemKind", mkattr (s2z "kMDItemKind") 3 15 (AString (s2z "Text")));
  (s2z "kMDItemLogicalSize", mkattr (s2z "kMDItemLogicalSize") 0 7 (AInt 12))].
Definition C114_values : list str := map (fun n => if list_eqb n (s2z "kMDItemFSName") then [34] ++ s2z "a.txt" ++ [34] else if list_eqb n (s2z "kMDItemKind") then s2z "Text"
  else if list_eqb n (s2z "kMDItemLogicalSize") then s2z "12" else s2z "(null)") attribute_names.
Definition C114_one : item := mkitem 1 1 0 0 [(s2z "_kStoreMetadataVersion", mkattr (s2z "_kStoreMetadataVersion") 0 7 (AInt 131077))].

Example C114_case :
  (exists t, add_rows (new_view (s2z "T:")) [[s2z "ab"; s2z "c"]; [s2z "123456789"; s2z "d"]] = Ok t /\
     view_text t = Ok (s2z "T:" ++ [10] ++ s2z "ab" ++ [9; 9] ++ s2z "c" ++ [10] ++ s2z "123456789" ++ [9] ++ s2z "d" ++ [10; 10])) /\
  separated 2 [[s2z "ab"; s2z "c"]; [s2z "123456789"; s2z "d"]] /\
  (forall pystr date, Forall2 (fun name s => value_string pystr date (sdict_get (lookup_name name) (it_attrs C114_item1)) = Ok s) attribute_names C114_values) /\
  (forall utf8, show_database utf8 (Some C114_one) 7 = Ok (s2z "Apple Spotlight database information:" ++ [10] ++ s2z "Metadata version:" ++ [9; 9] ++ s2z "2.5" ++ [10] ++
     s2z "Number of metadata items:" ++ [9] ++ s2z "7" ++ [10; 10])).
Proof.
  split; [eexists; split; vm_compute; reflexivity|]. split.
  { intros [|i] w r Hi (M & B & _) I; [|lia]. pose proof (B (s2z "123456789") ltac:(right; left; reflexivity)) as B9. cbn in B9. pose proof (Nat.div_mod w 8 ltac:(lia)).
    destruct I as [<-|[<-|[]]]; cbn; lia. }
  split; [intros pystr date; repeat (constructor; [reflexivity|]); constructor|]. intros utf8. reflexivity.
Qed.

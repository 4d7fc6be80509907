(** Properties of the output of the MacOS keychain script. *)

From Verif Require Import Base BaseFacts CoreModel StrModel DictModel LdbModel KcModel KcSpec KcProofs KcProps LdsModel KcsModel KcsSpec KcsProofs.
From Coq Require String.
Import String.StringSyntax.

(** *** C116: Schema and content shown by the keychain script *)

(** All tables are shown, in the order in which they are defined, with a line for every column. *)
Theorem C116_schema content tables s : read_keychain content = Ok tables ->
  (keychain_script false content = (s, Ok tt) <->
   exists texts, Forall2 (fun p t => schema_shown (snd p) t) tables texts /\
     s = s2z "Keychain database file schema:" ++ [10] ++ concat texts ++ [10]).
Proof.
  intros R. unfold keychain_script. rewrite R, then_ok. split.
  - intros (s1 & s2 & E1 & E2 & ->). apply (f_equal fst) in E1. cbn [printed fst] in E1. subst s1. apply then_ok in E2 as (s3 & s4 & E3 & E4 & ->). injection E4 as <-.
    apply print_all_ok in E3 as (texts & F & ->). exists texts. split; [|rewrite <- app_assoc; reflexivity]. eapply Forall2_imp; [|exact F]. intros p t. apply schema_ok.
  - intros (texts & F & ->). exists (s2z "Keychain database file schema:" ++ [10]), (concat texts ++ [10]). split; [reflexivity|]. split; [|rewrite <- app_assoc; reflexivity].
    apply then_ok. exists (concat texts), [10]. split; [|split; reflexivity]. apply print_all_ok. exists texts. split; [|reflexivity]. eapply Forall2_imp; [|exact F]. intros p t. apply schema_ok.
Qed.
Print Assumptions C116_schema.

(** With --content all records of all tables are shown, a line each. *)
Theorem C116_content content tables s : read_keychain content = Ok tables ->
  (keychain_script true content = (s, Ok tt) <-> exists texts, Forall2 (fun p t => content_shown (snd p) t) tables texts /\ s = concat texts).
Proof.
  intros R. unfold keychain_script. rewrite R, print_all_ok. split; intros (texts & F & ->); exists texts; (split; [|reflexivity]); (eapply Forall2_imp; [|exact F]); intros p t; apply content_ok.
Qed.
Print Assumptions C116_content.

(** Without a name of a column there is no content, and without an identifier or a type there is no schema. *)
Theorem C116_errors content tables : read_keychain content = Ok tables ->
  (snd (keychain_script true content) <> Ok tt <-> exists p c, In p tables /\ In c (kt_columns (snd p)) /\ kc_name c = None) /\
  (snd (keychain_script false content) <> Ok tt <-> exists p c, In p tables /\ In c (kt_columns (snd p)) /\ ~ exists id t, kc_id c = KInt id /\ kc_type c = KInt t) /\
  forall show e, snd (keychain_script show content) = Err e -> e = TypeError.
Proof.
  intros R.
  assert (EC : forall e, snd (keychain_script true content) = Err e -> e = TypeError /\ exists p c, In p tables /\ In c (kt_columns (snd p)) /\ kc_name c = None).
  { intros e. unfold keychain_script. rewrite R. intros H. apply print_all_err in H as (p & I & H). apply content_err in H as (-> & c & J & N). split; [reflexivity|]. exists p, c. auto. }
  assert (ES : forall e, snd (keychain_script false content) = Err e -> e = TypeError /\ exists p c, In p tables /\ In c (kt_columns (snd p)) /\ ~ exists id t, kc_id c = KInt id /\ kc_type c = KInt t).
  { intros e. unfold keychain_script. rewrite R. intros H. apply then_err in H as [H|[_ H]]; [discriminate|]. apply then_err in H as [H|[_ H]]; [|discriminate].
    apply print_all_err in H as (p & I & H). apply schema_err in H as (-> & c & J & N). split; [reflexivity|]. exists p, c. auto. }
  split; [split|split; [split|]].
  - destruct (snd (keychain_script true content)) as [[]|e] eqn:E; [congruence|]. intros _. exact (proj2 (EC e eq_refl)).
  - intros (p & c & I & J & N) E. destruct (keychain_script true content) as [s r] eqn:K. cbn [snd] in E. subst r.
    apply (C116_content _ _ _ R) in K as (texts & F & _). clear R EC ES. induction F as [|q t tables texts H F IH]; [destruct I|]. destruct I as [->|I]; [|exact (IH I)].
    destruct H as (names & _ & _ & H & _). assert (M : In None (map Some names)) by (rewrite <- H, <- N; apply in_map, J). apply in_map_iff in M as (x & M & _). discriminate.
  - destruct (snd (keychain_script false content)) as [[]|e] eqn:E; [congruence|]. intros _. exact (proj2 (ES e eq_refl)).
  - intros (p & c & I & J & N) E. destruct (keychain_script false content) as [s r] eqn:K. cbn [snd] in E. subst r.
    apply (C116_schema _ _ _ R) in K as (texts & F & _). clear R EC ES. induction F as [|q t tables texts H F IH]; [destruct I|]. destruct I as [->|I]; [|exact (IH I)].
    destruct H as (lines & L & H & _). apply In_nth_error in J as (i & J). destruct (nth_error lines i) as [l|] eqn:K.
    + destruct (H i c l J K) as (id & ty & ? & ? & ? & A & B & _). apply N. exists id, ty. auto.
    + apply nth_error_None in K. assert (i < length (kt_columns (snd p)))%nat by (apply nth_error_Some; congruence). lia.
  - intros [] e H; [exact (proj1 (EC e H))|exact (proj1 (ES e H))].
Qed.
Print Assumptions C116_errors.

(** The output up to an element that fails. *)
Lemma print_all_until {A} (f : A -> output) l ts x rest e t :
  Forall2 (fun x t => f x = (t, Ok tt)) l ts -> f x = (t, Err e) -> print_all f (l ++ x :: rest) = (concat ts ++ t, Err e).
Proof.
  intros F E. induction F as [|y u l ts Hy F IH]; cbn [app print_all concat].
  - rewrite E. reflexivity.
  - rewrite Hy, IH. cbn [then_print fst snd]. rewrite app_assoc. reflexivity.
Qed.

(** If a table cannot be shown all tables before it and its title are. *)
Theorem C116_stop content tables k t rest texts : read_keychain content = Ok (tables ++ (k, t) :: rest) ->
  let title := s2z "Table: " ++ kt_name t ++ s2z " (0x" ++ fmt_x 8 (kt_id t) ++ s2z ")" ++ [10] in
  (Forall2 (fun p t => content_shown (snd p) t) tables texts -> (exists c, In c (kt_columns t) /\ kc_name c = None) ->
   keychain_script true content = (concat texts ++ title, Err TypeError)) /\
  (Forall2 (fun p t => schema_shown (snd p) t) tables texts -> (exists c, In c (kt_columns t) /\ ~ exists id t, kc_id c = KInt id /\ kc_type c = KInt t) ->
   exists s, keychain_script false content = (s2z "Keychain database file schema:" ++ [10] ++ concat texts ++ title ++ s, Err TypeError)).
Proof.
  intros R title. split; intros F C.
  - unfold keychain_script. rewrite R. destruct (content_table t) as [s r] eqn:T.
    assert (E : s = title /\ r = Err TypeError).
    { destruct r as [[]|e].
      - apply content_ok in T as (names & _ & _ & H & _). destruct C as (c & I & N). assert (M : In None (map Some names)) by (rewrite <- H, <- N; apply in_map, I).
        apply in_map_iff in M as (x & M & _). discriminate.
      - pose proof (f_equal snd T) as T2. cbn [snd] in T2. apply content_err in T2 as (-> & _). split; [|reflexivity].
        unfold content_table in T. destruct (all_names (kt_columns t)); [discriminate T|]. apply (f_equal fst) in T. cbn [printed then_print fst] in T. rewrite app_nil_r in T. symmetry. exact T. }
    destruct E as [-> ->]. apply print_all_until; [|exact T]. eapply Forall2_imp; [|exact F]. intros p u. apply content_ok.
  - unfold keychain_script. rewrite R. destruct (schema_table t) as [s r] eqn:T.
    assert (E : exists u, s = title ++ u /\ r = Err TypeError).
    { destruct r as [[]|e].
      - apply schema_ok in T as (lines & L & H & _). destruct C as (c & J & N). apply In_nth_error in J as (i & J). destruct (nth_error lines i) as [l|] eqn:K.
        + destruct (H i c l J K) as (id & ty & ? & ? & ? & A & B & _). destruct N. exists id, ty. auto.
        + apply nth_error_None in K. assert (i < length (kt_columns t))%nat by (apply nth_error_Some; congruence). lia.
      - pose proof (f_equal snd T) as T2. cbn [snd] in T2. apply schema_err in T2 as (-> & _).
        unfold schema_table in T. apply (f_equal fst) in T. cbn [printed then_print fst] in T. subst s. unfold table_title. eexists. split; [|reflexivity].
        unfold title. rewrite <- !app_assoc. reflexivity. }
    destruct E as (u & -> & ->). exists u.
    rewrite (print_all_until (fun p => schema_table (snd p)) tables texts (k, t) rest TypeError (title ++ u)).
    + cbn [then_print printed fst snd]. rewrite <- !app_assoc. reflexivity.
    + eapply Forall2_imp; [|exact F]. intros p w. apply schema_ok.
    + exact T.
Qed.
Print Assumptions C116_stop.

(** The values of a record are in the order of the columns of its table, when these have different names. Columns that are
    defined after the record have no value. *)
Theorem C116_rows content tables k t r : read_keychain content = Ok tables -> In (k, t) tables -> In r (kt_records t) -> ~ 0 <= k <= 2 ->
  NoDup (map kc_name (kt_columns t)) -> kt_id t = k /\ exists n, map fst r = firstn n (map kc_name (kt_columns t)).
Proof.
  intros R I J K N. apply keychain_inv in R. rewrite Forall_forall in R. destruct (R _ I) as [T F]. cbn [fst snd] in T, F. split; [exact T|].
  rewrite Forall_forall in F. specialize (F r J). unfold row_names in F. replace (schema_names k) with (@None (list (option str))) in F.
  - destruct F as (n & L & H). exists n. apply H. rewrite <- (firstn_skipn n (map kc_name (kt_columns t))) in N. exact (nodup_left _ _ N).
  - destruct k as [|[p|[p|p|]|]|p]; cbn [schema_names]; try reflexivity; lia.
Qed.
Print Assumptions C116_rows.

(** The records of two tables with the same types of columns are shown alike only if their values are the same, when no
    text has tabs or line breaks in it or is NULL. *)
Theorem C116_lossless types (l l' : list krow) text text' : Forall (fun r => Forall2 fits types (map snd r)) l -> Forall (fun r => Forall2 fits types (map snd r)) l' ->
  Forall2 record_shown l text -> Forall2 record_shown l' text' -> concat text = concat text' -> map (map snd) l = map (map snd) l'.
Proof. intros F F' T T' E. apply records_fun in T, T'. subst text text'. exact (records_inj types l l' F F' E). Qed.
Print Assumptions C116_lossless.

(** *** A file *)

Definition kc_example (tables : list bytes) : bytes :=
  s2z "kych" ++ [0; 1; 0; 0] ++ be_enc 4 0 ++ be_enc 4 20 ++ be_enc 4 0 ++ be_enc 4 0 ++ be_enc 4 (len tables) ++
  concat (map (be_enc 4) (ex_offsets (8 + 4 * len tables) tables)) ++ concat tables.

(** An attribute of a relation: its identifier, its name and its type. *)
Definition ex_attribute (rel id : Z) (name : String.string) (type : Z) : bytes :=
  ex_record [49; 53; 57; 65; 0; 61] (be_enc 4 rel ++ be_enc 4 id ++ be_enc 4 0 ++ be_enc 4 type ++ be_enc 4 (len (s2z name)) ++ s2z name).

Definition ex_infos : bytes := ex_table 0 [ex_info 0 "I"; ex_info 1 "X"; ex_info 2 "A"; ex_info 16 "R"].

Definition tab_lines (l : list (list String.string)) : str := concat (map (fun s => join [9] (map s2z s) ++ [10]) l).

Example C116_case :
  keychain_script false (kc_example [ex_infos; ex_table 2 [ex_attribute 16 0 "Age" 1; ex_attribute 16 1 "Note" 9]; ex_table 16 [ex_record [33; 0] (be_enc 4 7)]]) =
    (tab_lines [["Keychain database file schema:"];
       ["Table: I (0x00000000)"]; [""; "Number of columns:"; "0"]; [""; "Column"; "Identifier"; "Name"; "Type"]; [""];
       ["Table: X (0x00000001)"]; [""; "Number of columns:"; "0"]; [""; "Column"; "Identifier"; "Name"; "Type"]; [""];
       ["Table: A (0x00000002)"]; [""; "Number of columns:"; "0"]; [""; "Column"; "Identifier"; "Name"; "Type"]; [""];
       ["Table: R (0x00000010)"]; [""; "Number of columns:"; "2"]; [""; "Column"; "Identifier"; "Name"; "Type"];
       [""; "0"; "0"; "Age"; "Integer 32-bit signed"]; [""; "1"; "1"; "Note"; "0x00000009"]; [""]; [""]]%string, Ok tt) /\
  keychain_script true (kc_example [ex_infos; ex_table 2 [ex_attribute 16 0 "Age" 1; ex_attribute 16 1 "Note" 6]; ex_table 16 [ex_record [33; 0] (be_enc 4 7); ex_record [0; 33] (be_enc 4 2 ++ [9; 39])]]) =
    (tab_lines [["Table: I (0x00000000)"]; [""]; ["0"; "I"]; ["1"; "X"]; ["2"; "A"]; ["16"; "R"]; [""];
       ["Table: X (0x00000001)"]; [""]; [""];
       ["Table: A (0x00000002)"]; [""]; ["16"; "0"; "0"; "Age"; "1"]; ["16"; "1"; "0"; "Note"; "6"]; [""];
       ["Table: R (0x00000010)"]; ["Age"; "Note"]; ["7"; "NULL"]; ["NULL"; "b""\t'"""]; [""]]%string, Ok tt).
Proof. split; vm_compute; reflexivity. Qed.

Example C116_fits_case : Forall2 fits [1; 0; 6] [KInt 7; KStr (s2z "x"); KBlob [9; 39]] /\ Forall2 fits [1; 0; 6] [KNone; KNone; KNone].
Proof.
  split; repeat constructor; try lia; try discriminate; cbn; intros H; repeat (destruct H as [H|H]; [discriminate|]); exact H.
Qed.

(** *** Findings *)

(** Not so: what is shown are the values. Text that is NULL is shown as no value, text with a line break is shown as two
    records. *)
Theorem C116_null_refuted :
  record_line [(None, KStr (s2z "NULL"))] = record_line [(None, KNone)] /\
  forall a b, concat (map record_line [[(None, KStr (a ++ [10] ++ b))]]) = concat (map record_line [[(None, KStr a)]; [(None, KStr b)]]).
Proof.
  split; [reflexivity|]. intros a b. cbn [map concat]. unfold record_line. cbn [map snd value_text join]. rewrite !app_nil_r, <- !app_assoc. reflexivity.
Qed.
Print Assumptions C116_null_refuted.

(** Not so: every value is below the name of its column. Of columns with the same name only the first one has a value,
    that of the last one, and the values after it are below other names. *)
Theorem C116_name_refuted :
  keychain_script true (kc_example [ex_infos; ex_table 2 [ex_attribute 16 0 "a" 2; ex_attribute 16 1 "a" 2; ex_attribute 16 2 "b" 2];
                                    ex_table 16 [ex_record [37; 41; 45] (be_enc 4 7 ++ be_enc 4 8 ++ be_enc 4 9)]]) =
    (tab_lines [["Table: I (0x00000000)"]; [""]; ["0"; "I"]; ["1"; "X"]; ["2"; "A"]; ["16"; "R"]; [""];
       ["Table: X (0x00000001)"]; [""]; [""];
       ["Table: A (0x00000002)"]; [""]; ["16"; "0"; "0"; "a"; "2"]; ["16"; "1"; "0"; "a"; "2"]; ["16"; "2"; "0"; "b"; "2"]; [""];
       ["Table: R (0x00000010)"]; ["a"; "a"; "b"]; ["8"; "9"]; [""]]%string, Ok tt).
Proof. vm_compute. reflexivity. Qed.
Print Assumptions C116_name_refuted.

(** Not so: the records of the schema tables have the columns that the file defines for these tables. They always have the
    same values, in particular five in the table of attributes, whose records have six: the one before the last, the
    identifier of the name, is left out and the format of the attribute is shown below its name. *)
Theorem C116_attributes_refuted :
  (forall content tables k t r names, read_keychain content = Ok tables -> In (k, t) tables -> In r (kt_records t) -> schema_names k = Some names -> map fst r = names) /\
  keychain_script true (kc_example [ex_infos; ex_table 2 [ex_attribute 2 0 "RelationID" 2; ex_attribute 2 1 "AttributeID" 2; ex_attribute 2 2 "AttributeNameFormat" 2;
                                                          ex_attribute 2 3 "AttributeName" 0; ex_attribute 2 4 "AttributeNameID" 6; ex_attribute 2 5 "AttributeFormat" 2]]) =
    (tab_lines [["Table: I (0x00000000)"]; [""]; ["0"; "I"]; ["1"; "X"]; ["2"; "A"]; ["16"; "R"]; [""];
       ["Table: X (0x00000001)"]; [""]; [""];
       ["Table: A (0x00000002)"]; ["RelationID"; "AttributeID"; "AttributeNameFormat"; "AttributeName"; "AttributeNameID"; "AttributeFormat"];
       ["2"; "0"; "0"; "RelationID"; "2"]; ["2"; "1"; "0"; "AttributeID"; "2"]; ["2"; "2"; "0"; "AttributeNameFormat"; "2"];
       ["2"; "3"; "0"; "AttributeName"; "0"]; ["2"; "4"; "0"; "AttributeNameID"; "6"]; ["2"; "5"; "0"; "AttributeFormat"; "2"]; [""];
       ["Table: R (0x00000010)"]; [""]; [""]]%string, Ok tt).
Proof.
  split; [|vm_compute; reflexivity]. intros content tables k t r names R I J K. apply keychain_inv in R. rewrite Forall_forall in R. destruct (R _ I) as [_ F]. cbn [fst snd] in F.
  rewrite Forall_forall in F. specialize (F r J). unfold row_names in F. rewrite K in F. exact F.
Qed.
Print Assumptions C116_attributes_refuted.

(** Not so: a file that is read can be shown. A column with neither name nor identifier has no name, and one without type
    has no type. *)
Theorem C116_column_refuted :
  let nameless := kc_example [ex_infos; ex_table 2 [ex_record [49; 0; 53; 0; 0; 57] (be_enc 4 16 ++ be_enc 4 0 ++ be_enc 4 1)]] in
  let typeless := kc_example [ex_infos; ex_table 2 [ex_record [49; 53; 57; 0; 0; 0] (be_enc 4 16 ++ s2z "labl" ++ be_enc 4 0)]] in
  snd (keychain_script true nameless) = Err TypeError /\ snd (keychain_script false nameless) = Err TypeError /\
  snd (keychain_script true typeless) = Ok tt /\ snd (keychain_script false typeless) = Err TypeError.
Proof. vm_compute. repeat split. Qed.
Print Assumptions C116_column_refuted.

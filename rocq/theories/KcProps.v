(** Properties of the MacOS keychain database file reader. *)

From Verif Require Import Base BaseFacts CoreModel VarModel SeqModel SeqSpec SeqFacts StrModel CpioModel DictModel KcModel KcSpec KcProofs.

(** *** C59: Keychain records *)

(** Every relation of a file has the columns that the schema records define and the records
    that its table stores, with each value read from the offset that the record has for it and
    None for a value without an offset. *)
Theorem C59_file : forall content db, kc_file content db ->
  exists tables, read_keychain content = Ok tables /\ forall relation, dict_get relation tables = db relation.
Proof. exact file_ok. Qed.
Print Assumptions C59_file.

(** Files that cannot be read raise ParseError, or one of three other exceptions. *)
Theorem C59_errors : forall content e, is_bytes content -> read_keychain content = Err e ->
  In e [ParseError; ValueError; TypeError; UnicodeDecodeError].
Proof. intros content e Hb. apply (keychain_errs content Hb). Qed.
Print Assumptions C59_errors.

(** Finding: negative values of signed integer columns are read as large unsigned ones. *)
Theorem C59_signed_refuted : forall rec first o z, 0 <= first < o -> - 2 ^ 31 <= z < 0 ->
  stored_at rec (o - 1) (be_enc 4 (z mod 2 ^ 32)) ->
  kc_value (KInt 1) (zskipn first rec) first o = Ok (KInt (z + 2 ^ 32)).
Proof.
  intros rec first o z Hf Hz St. replace (z mod 2 ^ 32) with (z + 2 ^ 32) in St
    by (rewrite <- (Z_mod_plus_full z 1 (2 ^ 32)), Z.mul_1_l, Z.mod_small; lia).
  apply (value_ok rec first (KInt 2)); [lia|]. apply kcs_unsigned; [lia|unfold u32; lia|exact St].
Qed.
Print Assumptions C59_signed_refuted.

(** Finding: a value whose offset lies behind the record is a ValueError, not a ParseError. *)
Theorem C59_outside_refuted : forall t rec first o, 0 <= first < o -> len rec < o -> In t [0; 1; 2; 5; 6] ->
  kc_value (KInt t) (zskipn first rec) first o = Err ValueError.
Proof.
  intros t rec first o Hf Ho Ht.
  assert (E : kc_slice (zskipn first rec) first o = []) by (rewrite slice_rec by lia; apply zskipn_all; lia).
  cbn [In] in Ht. destruct Ht as [<-|[<-|[<-|[<-|[<-|[]]]]]]; unfold kc_value, kc_string, kc_int, kc_date, kc_blob;
    (destruct (Z.eqb_spec o 0); [lia|]); rewrite E; reflexivity.
Qed.
Print Assumptions C59_outside_refuted.

(** Finding: an offset that points into the header of the record is taken relative to the end
    of the record, so the value is read from other data instead of being refused. *)
Theorem C59_header_refuted : forall rec first o z, 0 < o <= first -> u32 z -> first - o + 1 <= len rec - first ->
  stored_at rec (len rec - (first - o + 1)) (be_enc 4 z) ->
  kc_value (KInt 2) (zskipn first rec) first o = Ok (KInt z).
Proof.
  intros rec first o z Ho Hz Hl St. unfold kc_value, kc_int. destruct (Z.eqb_spec o 0); [lia|].
  assert (E : kc_slice (zskipn first rec) first o = zskipn (len rec - (first - o + 1)) rec).
  { unfold kc_slice, pyslice_from, slice_index. rewrite len_zskipn.
    destruct (Z.ltb_spec (o - (first + 1)) 0); [|lia].
    rewrite zskipn_zskipn by lia. f_equal. lia. }
  rewrite E. destruct (stored_rest _ _ _ St) as [rest ->]. rewrite struct_u32 by exact Hz. reflexivity.
Qed.
Print Assumptions C59_header_refuted.

(** Finding: a schema attributes record without a relation identifier is a TypeError. *)
Theorem C59_no_relation_refuted : forall content off rec o1 o2 o3 o4 o5 v1 v2 v3 v5 tables, 
  kc_record_at content off [0; o1; o2; o3; o4; o5] rec ->
  kc_stored rec 48 (KInt 2) o1 v1 -> kc_stored rec 48 (KInt 2) o2 v2 ->
  kc_stored rec 48 (KInt 0) o3 v3 -> kc_stored rec 48 (KInt 2) o5 v5 ->
  kc_read_attribute content off tables = Err TypeError.
Proof.
  intros content off rec o1 o2 o3 o4 o5 v1 v2 v3 v5 tables R S1 S2 S3 S5. unfold kc_read_attribute.
  rewrite (rec_header _ _ _ _ R). cbn [bind].
  pose proof (rec_offsets _ _ _ _ R ltac:(discriminate)) as O. change (len [0; o1; o2; o3; o4; o5]) with 6 in O. rewrite O. cbn [bind].
  pose proof (rec_long _ _ _ _ R) as Lr. change (24 + 4 * len [0; o1; o2; o3; o4; o5]) with 48 in Lr.
  rewrite (rec_data _ _ _ _ R 48) by lia. cbn [bind].
  change (kc_int (zskipn 48 rec) 48 0) with (@Ok kval KNone). cbn [bind].
  pose proof (value_ok rec 48 _ _ _ ltac:(lia) S1) as E1. pose proof (value_ok rec 48 _ _ _ ltac:(lia) S2) as E2.
  pose proof (value_ok rec 48 _ _ _ ltac:(lia) S3) as E3. pose proof (value_ok rec 48 _ _ _ ltac:(lia) S5) as E5.
  cbn [kc_value] in E1, E2, E3, E5. rewrite E1, E2, E3, E5. reflexivity.
Qed.
Print Assumptions C59_no_relation_refuted.

(** A file with the schema tables and a relation with identifier 16 of two columns, "Age" and
    one named after its identifier. *)
Definition ex_record (offsets : list Z) (values : bytes) : bytes :=
  be_enc 4 (24 + 4 * len offsets + len values) ++ repeat 0 20 ++ concat (map (be_enc 4) offsets) ++ values.

Definition ex_info (rel : Z) (name : String.string) : bytes :=
  ex_record [33; 37] (be_enc 4 rel ++ be_enc 4 (len (s2z name)) ++ s2z name).

Fixpoint ex_offsets (start : Z) (records : list bytes) : list Z :=
  match records with [] => [] | r :: rs => start :: ex_offsets (start + len r) rs end.

Definition ex_table (type : Z) (records : list bytes) : bytes :=
  be_enc 4 0 ++ be_enc 4 type ++ be_enc 4 (len records) ++ repeat 0 12 ++ be_enc 4 (1 + len records) ++
  concat (map (be_enc 4) (ex_offsets (32 + 4 * len records) records)) ++ be_enc 4 0 ++ concat records.

Definition ex_tables : list bytes :=
  [ex_table 0 [ex_info 0 "I"; ex_info 1 "X"; ex_info 2 "A"; ex_info 16 "R"];
   ex_table 1 [ex_record [45; 49; 53; 57; 61] (concat (map (be_enc 4) [16; 0; 1; 0; 1]))];
   ex_table 2 [ex_record [49; 53; 57; 61; 0; 68] (be_enc 4 16 ++ be_enc 4 1 ++ be_enc 4 0 ++ be_enc 4 3 ++ s2z "Age" ++ be_enc 4 1);
               ex_record [49; 53; 57; 0; 0; 61] (be_enc 4 16 ++ s2z "labl" ++ be_enc 4 2 ++ be_enc 4 6)];
   ex_table 16 [ex_record [33; 37] (be_enc 4 7 ++ be_enc 4 2 ++ [170; 0]);
                ex_record [33; 0] (be_enc 4 (2 ^ 32 - 1))]].

Definition ex_keychain : bytes :=
  s2z "kych" ++ [0; 1; 0; 0] ++ be_enc 4 0 ++ be_enc 4 20 ++ be_enc 4 0 ++
  be_enc 4 0 ++ be_enc 4 (len ex_tables) ++
  concat (map (be_enc 4) (ex_offsets (8 + 4 * len ex_tables) ex_tables)) ++ concat ex_tables.

Example C59_case : 
  match read_keychain ex_keychain with
  | Ok tables =>
      map fst tables = [0; 1; 2; 16] /\
      dict_get 16 tables =
        Some (mkktable 16 (s2z "R")
                [mkkcol (KInt 1) (KInt 1) (Some (s2z "Age")); mkkcol (KInt 6) (KInt 1818321516) (Some (s2z "labl"))]
                [[(Some (s2z "Age"), KInt 7); (Some (s2z "labl"), KBlob [170; 0])];
                 [(Some (s2z "Age"), KInt 4294967295); (Some (s2z "labl"), KNone)]])
  | Err _ => False
  end.
Proof. vm_compute. split; reflexivity. Qed.

(** A file with the schema information table only. *)
Definition ex_small : bytes :=
  s2z "kych" ++ [0; 1; 0; 0] ++ be_enc 4 0 ++ be_enc 4 20 ++ be_enc 4 0 ++ be_enc 4 0 ++ be_enc 4 1 ++ be_enc 4 12 ++
  ex_table 0 [ex_info 0 "I"].

Example C59_file_case : exists content db, kc_file content db /\
  db 0 = Some (mkktable 0 (s2z "I") [] [[(Some (s2z "RelationID"), KInt 0); (Some (s2z "RelationName"), KStr (s2z "I"))]]).
Proof.
  exists ex_small.
  eexists. split.
  - exists 1, 0, 0, 20, 0, 0, [12]. repeat split; try lia.
    + exists []. eexists. split; [|reflexivity]. reflexivity.
    + repeat constructor; cbn; lia.
    + exists (s2z "kych" ++ [0; 1; 0; 0] ++ be_enc 4 0 ++ be_enc 4 20 ++ be_enc 4 0). eexists. split; [|reflexivity]. reflexivity.
    + repeat constructor; lia.
    + eapply steps_cons; [|apply steps_nil]. exists 0, 0, 1, 0, 0, 0, [36; 0]. repeat split.
      * exists (s2z "kych" ++ [0; 1; 0; 0] ++ be_enc 4 0 ++ be_enc 4 20 ++ be_enc 4 0 ++ be_enc 4 0 ++ be_enc 4 1 ++ be_enc 4 12).
        eexists. split; [|reflexivity]. reflexivity.
      * repeat constructor; cbn; lia.
      * repeat constructor; cbn; lia.
      * eapply steps_cons; [|apply steps_nil]. eapply (kcstep_info _ _ _ (ex_info 0 "I") 0 (s2z "I")).
        -- exists (repeat 0 5), (be_enc 4 0 ++ be_enc 4 1 ++ s2z "I"). repeat split.
           ++ exists (firstn 68 ex_small), []. split; [|reflexivity]. reflexivity.
           ++ repeat constructor; lia.
           ++ cbn. lia.
           ++ repeat constructor; lia.
        -- exists (firstn 32 (ex_info 0 "I")), []. split; reflexivity.
        -- split; lia.
        -- split; cbn; lia.
        -- repeat constructor; lia.
        -- reflexivity.
  - reflexivity.
Qed.

(** Columns with the same name share one value of a record: that of the last of them. *)
Theorem C59_same_name : forall rec first columns offsets values, 0 <= first ->
  Forall2 (fun c ov => kc_stored rec first (kc_type c) (fst ov) (snd ov)) columns (combine offsets values) ->
  length offsets = length columns -> length values = length columns ->
  exists row, kc_values columns offsets (zskipn first rec) first [] = Ok row /\ NoDup (map fst row) /\
    forall k v, In (k, v) row <-> last_value k v (combine (map kc_name columns) values).
Proof.
  intros rec first columns offsets values Hf F L1 L2. destruct (values_last rec first columns Hf offsets values [] F L1 ltac:(congruence) ltac:(constructor)) as (row & E & N & I).
  exists row. split; [exact E|]. split; [exact N|]. intros k v. rewrite I. cbn [In]. tauto.
Qed.
Print Assumptions C59_same_name.

Example C59_same_name_case :
  kc_values [mkkcol (KInt 2) (KInt 1) (Some (s2z "a")); mkkcol (KInt 2) (KInt 2) (Some (s2z "b")); mkkcol (KInt 2) (KInt 3) (Some (s2z "a"))] [1; 5; 9]
    (be_enc 4 7 ++ be_enc 4 8 ++ be_enc 4 9) 0 [] = Ok [(Some (s2z "a"), KInt 9); (Some (s2z "b"), KInt 8)].
Proof. vm_compute. reflexivity. Qed.

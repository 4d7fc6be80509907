(** C111: debug output of keychain files. *)

From Verif Require Import Base BaseFacts CoreModel SeqSpec StrModel DictModel TextModel KcModel KcSpec KcProofs KcProps KcdModel KcdSpec KcdProofs.
From Coq Require Import Sorted.
From Coq Require String.
Import String.StringSyntax.

(** With debug output the tables are those without; or reading fails as without, or with one of three exceptions. *)
Theorem C111_same : forall content text tables, is_bytes content -> kd_read content = Ok (text, tables) -> read_keychain content = Ok tables.
Proof. intros content text tables Hb E. pose proof (read_follow content Hb) as F. rewrite E in F. exact F. Qed.
Print Assumptions C111_same.

Theorem C111_errors : forall content e, is_bytes content -> kd_read content = Err e -> read_keychain content = Err e \/ In e [IndexError; TypeError; ValueError].
Proof. intros content e Hb E. pose proof (read_follow content Hb) as F. rewrite E in F. exact F. Qed.
Print Assumptions C111_errors.

(** The text of a record of a relation. Offsets of values lie in the record behind the list of offsets. The header, the key data and the
    values are shown, and for every value the data up to the first boundary behind it and the values of columns before it. *)
Theorem C111_record : forall content off offsets rec header values type tables tables' t names, is_bytes content -> kc_record_at content off offsets rec ->
  rec = be_enc 4 (len rec) ++ concat (map (be_enc 4) header) ++ concat (map (be_enc 4) offsets) ++ values -> length header = 5%nat -> Forall u32 header ->
  dict_get type tables = Some t -> length offsets = length (kt_columns t) -> kt_columns t <> [] ->
  map kc_name (kt_columns t) = map Some names ->
  (forall o, In o offsets -> o = 0 \/ 24 + 4 * len offsets < o <= len rec) ->
  kc_read_record content off type tables = Ok tables' ->
  exists ds, shows rec offsets [] offsets ds /\
    kd_read_record content off type tables =
    Ok (header_shown (len rec) header ++ s2z "Attribute value offsets data:" ++ [10] ++ fst (format_hexdump (concat (map (be_enc 4) offsets)))
        ++ enum_text (fun i o => line (s2z "Attribute value offset: " ++ fmt_d i) (s2z "('0x" ++ fmt_x 8 o ++ s2z "', False)")) 0 offsets ++ [10]
        ++ (if 0 <? nth 3 header 0 then s2z "Key data:" ++ [10] ++ fst (format_hexdump (zfirstn (nth 3 header 0) values)) else [])
        ++ s2z "Attribute values data:" ++ [10] ++ fst (format_hexdump (zskipn (nth 3 header 0) values)) ++ values_dump 0 names ds,
        (tables', off + len rec)).
Proof. exact record_shows. Qed.
Print Assumptions C111_record.

(** If the offsets are in the order of the columns, every byte from the first value on is shown once. *)
Theorem C111_ascending : forall rec offsets ds, StronglySorted Z.lt (set_offsets offsets) -> (forall o, In o offsets -> o <> 0 -> 0 < o <= len rec) ->
  shows rec offsets [] offsets ds -> concat ds = match set_offsets offsets with [] => [] | o :: _ => zskipn (o - 1) rec end.
Proof. intros rec offsets ds S V Sh. exact (shows_concat rec offsets S V [] offsets ds eq_refl Sh). Qed.
Print Assumptions C111_ascending.

(** Finding: a value that is stored before the value of an earlier column is shown with more than its own data: up to behind the
    start of the other one. *)
Lemma shows_before rec all before os ds : shows rec all before os ds -> forall i o d, nth_error os i = Some o -> o <> 0 -> nth_error ds i = Some d ->
  forall p, In p before -> p <> 0 -> exists e, p - 1 < e /\ o - 1 < e /\ d = part rec (o - 1) e.
Proof.
  induction 1 as [before|before os ds H IH|before o0 os e ds N F H IH]; intros i o d Ho Hn Hd p Hp Np; destruct i as [|i]; cbn [nth_error] in Ho, Hd; try discriminate.
  - injection Ho as <-. contradiction.
  - eapply IH; eassumption.
  - injection Ho as <-. injection Hd as <-. destruct F as (_ & B & _). exists e. split; [apply B, in_or_app; left; exact Hp|]. split; [apply B, in_or_app; right; left; reflexivity|reflexivity].
  - eapply IH; try eassumption. apply in_or_app. left. exact Hp.
Qed.

Theorem C111_order_refuted : forall rec p o between after d0 d ds1 ds2, p <> 0 -> o <> 0 -> o < p -> length ds1 = length between ->
  shows rec (p :: between ++ o :: after) [] (p :: between ++ o :: after) (d0 :: ds1 ++ d :: ds2) ->
  exists e, p - 1 < e /\ d = part rec (o - 1) e.
Proof.
  intros rec p o between after d0 d ds1 ds2 Np No L Hl Sh. inversion Sh; subst; [contradiction|].
  match goal with H : shows _ _ _ (between ++ o :: after) _ |- _ => destruct (shows_before _ _ _ _ _ H (length between) o d) with (p := p) as (e' & E1 & _ & E3) end.
  - rewrite nth_error_app2, Nat.sub_diag by lia. reflexivity.
  - exact No.
  - rewrite nth_error_app2 by lia. rewrite Hl, Nat.sub_diag. reflexivity.
  - left. reflexivity.
  - exact Np.
  - eauto.
Qed.
Print Assumptions C111_order_refuted.

(** Finding: a value with an offset behind the record, of a data type that is not read, is an IndexError with debug output only. *)
Theorem C111_behind_refuted : forall content off offsets rec type tables tables' t names, is_bytes content -> kc_record_at content off offsets rec ->
  dict_get type tables = Some t -> length offsets = length (kt_columns t) ->
  map kc_name (kt_columns t) = map Some names ->
  (forall o, In o offsets -> o = 0 \/ 24 + 4 * len offsets < o) -> (exists o, In o offsets /\ len rec < o) ->
  kc_read_record content off type tables = Ok tables' -> kd_read_record content off type tables = Err IndexError.
Proof. exact record_behind. Qed.
Print Assumptions C111_behind_refuted.

(** Finding: with a column without a name no record of the relation can be read with debug output. *)
Theorem C111_unnamed_refuted : forall content off type tables t, is_bytes content -> dict_get type tables = Some t -> In None (map kc_name (kt_columns t)) ->
  exists e, kd_read_record content off type tables = Err e.
Proof. exact record_unnamed. Qed.
Print Assumptions C111_unnamed_refuted.

(** Finding: the data size of schema records is used with debug output only; if it is too small, reading fails. *)
Theorem C111_size_refuted : forall content off tables tables' size, is_bytes content -> kc_record_header content off = Ok size ->
  (size < 39 -> kc_read_info content off tables = Ok tables' -> kd_read_info content off tables = Err ValueError) /\
  (size < 63 -> kc_read_index content off tables = Ok tables' -> kd_read_index content off tables = Err ValueError).
Proof.
  intros content off tables tables' size Hb H. split; intros L E; [eapply info_small|eapply index_small]; eassumption.
Qed.
Print Assumptions C111_size_refuted.

(** The list of record offsets in the text, and that of table offsets, determine the offsets. *)
Theorem C111_offsets : forall l l', Forall u32 l -> Forall u32 l' ->
  (record_offsets_text l = record_offsets_text l' -> l = l') /\ (table_offsets_text l = table_offsets_text l' -> l = l').
Proof. intros l l' F F'. split; apply enum_text_inj; assumption. Qed.
Print Assumptions C111_offsets.

(** Finding: an offset is shown as the text of a tuple. *)
Theorem C111_tuple_refuted : forall o l, exists rest rest',
  record_offsets_text (o :: l) = line (s2z "Record offset: 0") (s2z "('0x" ++ fmt_x 8 o ++ s2z "', False)") ++ rest /\
  table_offsets_text (o :: l) = line (s2z "Table offset: 0") (s2z "('0x" ++ fmt_x 8 o ++ s2z "', False)") ++ rest'.
Proof. intros o l. do 2 eexists. split; reflexivity. Qed.
Print Assumptions C111_tuple_refuted.

(** ** Concrete files *)

Definition sized_table (extra : Z) (type : Z) (records : list bytes) : bytes :=
  be_enc 4 (len (ex_table type records) + extra) ++ zskipn 4 (ex_table type records).

Definition debug_file (tables : list bytes) : bytes :=
  s2z "kych" ++ [0; 1; 0; 0] ++ be_enc 4 0 ++ be_enc 4 20 ++ be_enc 4 0 ++
  be_enc 4 0 ++ be_enc 4 (len tables) ++ concat (map (be_enc 4) (ex_offsets (8 + 4 * len tables) tables)) ++ concat tables.

Definition schema (attribute : bytes) : list bytes :=
  [sized_table 0 0 [ex_info 0 "I"; ex_info 1 "X"; ex_info 2 "A"; ex_info 16 "R"];
   sized_table 0 1 [ex_record [45; 49; 53; 57; 61] (concat (map (be_enc 4) [16; 0; 1; 0; 1]))];
   sized_table 0 2 [ex_record [49; 53; 57; 61; 0; 68] (be_enc 4 16 ++ be_enc 4 1 ++ be_enc 4 0 ++ be_enc 4 3 ++ s2z "Age" ++ be_enc 4 1); attribute]].

Definition labl (type : Z) : bytes := ex_record [49; 53; 57; 0; 0; 61] (be_enc 4 16 ++ s2z "labl" ++ be_enc 4 2 ++ be_enc 4 type).
Definition nameless : bytes := ex_record [49; 0; 0; 0; 0; 53] (be_enc 4 16 ++ be_enc 4 6).

Definition good : bytes := debug_file (schema (labl 6) ++ [sized_table 0 16 [ex_record [33; 37] (be_enc 4 7 ++ be_enc 4 2 ++ [170; 0]); ex_record [33; 0] (be_enc 4 7)]]).
Definition swapped : bytes := debug_file (schema (labl 6) ++ [sized_table 0 16 [ex_record [39; 33] (be_enc 4 2 ++ [170; 0] ++ be_enc 4 7)]]).
Definition behind : bytes := debug_file (schema (labl 8) ++ [sized_table 0 16 [ex_record [33; 99] (be_enc 4 7)]]).
Definition unnamed : bytes := debug_file (schema nameless ++ [sized_table 0 16 [ex_record [33; 0] (be_enc 4 7)]]).
Definition short : bytes := debug_file (schema (labl 6) ++ [sized_table (-2) 16 [ex_record [33; 0] (be_enc 4 7)]]).

Definition outcome {A} (r : result A) : option exn := match r with Ok _ => None | Err e => Some e end.

(** Whether the text has the given part. *)
Fixpoint has_part (p s : str) : bool := starts_with p s || match s with [] => false | _ :: r => has_part p r end.

Example C111_case :
  map (fun f => outcome (read_keychain f)) [good; swapped; behind; unnamed; short] = [None; None; None; None; None] /\
  map (fun f => outcome (kd_read f)) [good; swapped; behind; unnamed; short] = [None; None; Some IndexError; Some TypeError; Some ValueError] /\
  match kd_read good with
  | Ok (t, _) => has_part (s2z "Attribute value: 0 (Age) data:" ++ [10] ++ s2z "0x00000000  00 00 00 07") t = true /\
                 has_part (s2z "Attribute value: 1 (labl) data:" ++ [10] ++ s2z "0x00000000  00 00 00 02 aa 00    ") t = true
  | Err _ => False
  end /\
  match kd_read swapped with
  | Ok (t, _) => has_part (s2z "Attribute value: 1 (labl) data:" ++ [10] ++ s2z "0x00000000  00 00 00 02 aa 00 00 00  00 07 ") t = true
  | Err _ => False
  end.
Proof. vm_compute. repeat split. Qed.

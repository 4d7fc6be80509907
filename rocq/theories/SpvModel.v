(** Model of the output of the Spotlight script.

    Source: /repo/scripts/spotlight_storedb.py; the reader is that of SpotModel.
    Simplified: the values of a row are their texts ([f"{value!s}"]); [str] of attribute values other than integers and strings, and the
    text of a date and time, which the library dfDateTime makes, are parameters. Without debug output. *)

From Verif Require Import Base CoreModel StrModel DictModel SpotModel.
From Coq Require String.
Import String.StringSyntax.

(** ** Tables, scripts/spotlight_storedb.py:88-160 *)

(** scripts/spotlight_storedb.py:91-101: the header, which is empty if there is none, the number of values and the rows. *)
Record table_view := mktv { tv_header : str; tv_number : Z; tv_rows : list (list str) }.
Definition new_view (header : str) : table_view := mktv header 0 [].

(** scripts/spotlight_storedb.py:103-117 [AddRow]. *)
Definition add_row (t : table_view) (values : list str) : result table_view :=
  if tv_number t =? 0 then Ok (mktv (tv_header t) (len values) (tv_rows t ++ [values]))
  else if negb (tv_number t =? len values) then Err ValueError
  else Ok (mktv (tv_header t) (tv_number t) (tv_rows t ++ [values])).

Fixpoint add_rows (t : table_view) (rows : list (list str)) : result table_view :=
  match rows with
  | [] => Ok t
  | r :: rows => do t <- add_row t r; add_rows t rows
  end.

(** scripts/spotlight_storedb.py:135-139. *)
Definition cell_width (n : Z) : Z :=
  let q := n / 8 in
  let q := if 0 <? n mod 8 then q + 1 else q in
  q * 8.

(** scripts/spotlight_storedb.py:134-143, the loop over the values of a row. *)
Fixpoint row_widths (ws : list Z) (row : list str) : result (list Z) :=
  match row, ws with
  | [], _ => Ok ws
  | _ :: _, [] => Err IndexError
  | v :: row, w :: ws => do ws <- row_widths ws row; Ok (Z.max w (cell_width (len v)) :: ws)
  end.

(** scripts/spotlight_storedb.py:128-143. *)
Fixpoint table_widths (ws : list Z) (rows : list (list str)) : result (list Z) :=
  match rows with
  | [] => Ok ws
  | r :: rows => do ws <- row_widths ws r; table_widths ws rows
  end.

(** scripts/spotlight_storedb.py:151-153: a tab for every eight columns. *)
Fixpoint tab_loop (fuel : nat) (w : Z) : str :=
  match fuel with
  | O => []
  | S fuel => if 0 <? w then 9 :: tab_loop fuel (w - 8) else []
  end.
Definition tabs (w : Z) : str := tab_loop (Z.to_nat w) w.

(** scripts/spotlight_storedb.py:145-158: a row from the value with the index [i]; [n] is the number of values. *)
Fixpoint row_text (n i : Z) (ws : list Z) (row : list str) : result str :=
  match row with
  | [] => Ok [10]
  | v :: row =>
      if i <? n - 1 then
        match ws with
        | [] => Err IndexError
        | w :: ws => do t <- row_text n (i + 1) ws row; Ok (v ++ tabs (w - len v) ++ t)
        end
      else do t <- row_text n (i + 1) (tl ws) row; Ok (v ++ t)
  end.

Fixpoint rows_text (n : Z) (ws : list Z) (rows : list (list str)) : result str :=
  match rows with
  | [] => Ok []
  | r :: rows => do a <- row_text n 0 ws r; do b <- rows_text n ws rows; Ok (a ++ b)
  end.

(** scripts/spotlight_storedb.py:119-160 [Write]. *)
Definition view_text (t : table_view) : result str :=
  do ws <- table_widths (repeat 0 (Z.to_nat (tv_number t))) (tv_rows t);
  do s <- rows_text (tv_number t) ws (tv_rows t);
  Ok ((match tv_header t with [] => [] | h => h ++ [10] end) ++ s ++ [10]).

(** ** A metadata item, scripts/spotlight_storedb.py:321-351 *)

(** scripts/spotlight_storedb.py:20-51 [ATTRIBUTE_NAMES]. *)
Definition attribute_names : list str := map s2z [
  "_kMDItemDisplayNameWithExtensions"; "kMDItemContentCreationDate"; "kMDItemContentCreationDate_Ranking";
  "kMDItemContentModificationDate"; "kMDItemContentModificationDate_Ranking"; "kMDItemContentType"; "kMDItemContentTypeTree";
  "kMDItemDateAdded"; "kMDItemDateAdded_Ranking"; "kMDItemDisplayName"; "kMDItemDocumentIdentifier"; "kMDItemFSContentChangeDate";
  "kMDItemFSCreationDate"; "kMDItemFSCreatorCode"; "kMDItemFSFinderFlags"; "kMDItemFSHasCustomIcon"; "kMDItemFSInvisible";
  "kMDItemFSIsExtensionHidden"; "kMDItemFSIsStationery"; "kMDItemFSLabel"; "kMDItemFSName"; "kMDItemFSNodeCount";
  "kMDItemFSOwnerGroupID"; "kMDItemFSOwnerUserID"; "kMDItemFSSize"; "kMDItemFSTypeCode"; "kMDItemInterestingDate_Ranking";
  "kMDItemKind"; "kMDItemLogicalSize"; "kMDItemPhysicalSize"]%string.

(** scripts/spotlight_storedb.py:54-65 [LOOKUP_ATTRIBUTE_NAMES]. *)
Definition lookup_table : sdict str := map (fun p => (s2z (fst p), s2z (snd p))) [
  ("kMDItemFSContentChangeDate", "_kMDItemContentChangeDate"); ("kMDItemFSCreationDate", "_kMDItemCreationDate");
  ("kMDItemFSCreatorCode", "_kMDItemCreatorCode"); ("kMDItemFSFinderFlags", "_kMDItemFinderFlags");
  ("kMDItemFSIsExtensionHidden", "_kMDItemIsExtensionHidden"); ("kMDItemFSLabel", "_kMDItemFinderLabel");
  ("kMDItemFSName", "_kMDItemFileName"); ("kMDItemFSNodeCount", "_kMDItemNodeCount");
  ("kMDItemFSOwnerGroupID", "_kMDItemOwnerGroupID"); ("kMDItemFSOwnerUserID", "_kMDItemOwnerUserID")]%string.
Definition lookup_name (name : str) : str := match sdict_get name lookup_table with Some n => n | None => name end.

(** [f"{value!s}"]. *)
Definition value_str (pystr : attr_value -> str) (v : attr_value) : str :=
  match v with AInt z | AByte z => fmt_d z | AString s => s | v => pystr v end.

(** scripts/spotlight_storedb.py:336-347; the format [s] is for strings only. *)
Definition value_string (pystr : attr_value -> str) (date : attr_value -> result str) (a : option attribute) : result str :=
  match a with
  | None => Ok (s2z "(null)")
  | Some a =>
      if at_type a =? 11 then match at_value a with AString s => Ok ([34] ++ s ++ [34]) | _ => Err TypeError end
      else if at_type a =? 12 then date (at_value a)
      else Ok (value_str pystr (at_value a))
  end.

(** scripts/spotlight_storedb.py:333-349. *)
Fixpoint item_rows (pystr : attr_value -> str) (date : attr_value -> result str) (attrs : sdict attribute) (t : table_view) (names : list str) : result table_view :=
  match names with
  | [] => Ok t
  | name :: names =>
      do s <- value_string pystr date (sdict_get (lookup_name name) attrs);
      do t <- add_row t [name; s2z "= " ++ s];
      item_rows pystr date attrs t names
  end.

(** What is written, and how it ends. *)
Definition output : Type := str * result unit.

(** scripts/spotlight_storedb.py:321-351: the item [id] is [i]. The table is written whether or not there is an item; without one the
    variable of the table has no value. *)
Definition show_item (pystr : attr_value -> str) (date : attr_value -> result str) (id : Z) (i : option item) : output :=
  match i with
  | None => (s2z "No such metadata item: " ++ fmt_d id ++ [10], Err UnboundLocalError)
  | Some i =>
      match (do t <- item_rows pystr date (it_attrs i) (new_view []) attribute_names; view_text t) with
      | Ok s => (s, Ok tt)
      | Err e => ([], Err e)
      end
  end.

(** ** The database, scripts/spotlight_storedb.py:278-319 *)

Definition int_value (v : attr_value) : result Z := match v with AInt z | AByte z => Ok z | _ => Err TypeError end.

(** scripts/spotlight_storedb.py:281-298: the properties and the version of the metadata, of the item 1. *)
Definition properties_of (utf8 : bytes -> option str) (attrs : sdict attribute) : result str :=
  match sdict_get (s2z "kMDStoreProperties") attrs with
  | None => Ok []
  | Some a => match at_value a with
              | AData d => match utf8 d with Some s => Ok s | None => Err UnicodeDecodeError end
              | _ => Err AttributeError
              end
  end.
Definition version_of (attrs : sdict attribute) : result str :=
  match sdict_get (s2z "_kStoreMetadataVersion") attrs with
  | None => Ok []
  | Some a => do v <- int_value (at_value a); Ok (fmt_d (Z.shiftr v 16) ++ s2z "." ++ fmt_d (Z.land v 65535))
  end.

(** scripts/spotlight_storedb.py:278-319: [i] is the item 1, [n] the number of items. *)
Definition show_database (utf8 : bytes -> option str) (i : option item) (n : Z) : result str :=
  do p <- match i with None => Ok [] | Some i => properties_of utf8 (it_attrs i) end;
  do v <- match i with None => Ok [] | Some i => version_of (it_attrs i) end;
  do t <- add_row (new_view (s2z "Apple Spotlight database information:")) [s2z "Metadata version:"; v];
  do t <- add_row t [s2z "Number of metadata items:"; fmt_d n];
  do s <- view_text t;
  Ok (s ++ match p with [] => [] | p => s2z "Properties:" ++ [10] ++ p ++ [10] end).

(** scripts/spotlight_storedb.py:268-353: a store database file; [id] is the option --item. *)
Definition show_store (pystr : attr_value -> str) (date : attr_value -> result str) (utf8 : bytes -> option str) (lz4 : lz4_fun) (zlib : bytes -> result bytes)
  (streams : Z -> option streams_files) (fuel : nat) (content : bytes) (id : option Z) : run output :=
  rdo st <- read_store fuel utf8 lz4 zlib streams content;
  rdo (i, st') <- get_item fuel utf8 lz4 zlib content st (match id with Some id => id | None => 1 end);
  Done (Ok match id with
           | Some id => show_item pystr date id i
           | None => match show_database utf8 i (number_of_items st') with Ok s => (s, Ok tt) | Err e => ([], Err e) end
           end).

(** Model of the reading of the files of a WMI repository with debug output: wmi_repository.py.

    [_FormatIntegerAsPageNumber], [_FormatIntegerAsOffset] and [_FormatValue] return a string, which is assigned
    to two variables where they are used below. Simplified: only these lines are modelled, the other debug output
    (hexadecimal dumps, numbers and structures, TextModel) does not change what is read. *)

From Verif Require Import Base CoreModel StrModel SeqModel VarModel DictModel TextModel RdModel WmiModel WcdModel WcmModel WciModel WcrModel.
From Coq Require String.
Import String.StringSyntax.

(** [value_string, _ = s]: the characters of the string are its parts. *)
Definition unpack (s : str) : result str := do (a, _) <- unpack2 s; Ok [a].

(** wmi_repository.py:375-387 and 705-717 [_FormatIntegerAsPageNumber]. *)
Definition page_number_text (unavailable : list Z) (n : Z) : str :=
  if existsb (Z.eqb n) unavailable then s2z "0x" ++ fmt_x 8 n ++ s2z " (unavailable)" else fmt_d n.

(** A page number and an offset as they are printed, wmi_repository.py:347-350 and 353-354. *)
Definition debug_number (unavailable : list Z) (description : str) (n : Z) : result str :=
  do v <- unpack (page_number_text unavailable n); format_value (Some description) (TextModel.DStr v).
Definition debug_offset (description : str) (n : Z) : result str :=
  do v <- unpack (format_offset n); format_value (Some description) (TextModel.DStr v).

(** [for index, x in enumerate(l)] *)
Fixpoint enum {A B} (f : Z -> A -> result B) (i : Z) (l : list A) : result (list B) :=
  match l with
  | [] => Ok []
  | x :: l => do y <- f i x; do ys <- enum f (i + 1) l; Ok (y :: ys)
  end.

(** ** Index *)

(** wmi_repository.py:335-373 [_DebugPrintPageBody]: the lines of sub pages, keys and values. *)
Definition debug_body (subs key_offsets value_offsets : list Z) : result (list str) :=
  do a <- enum (fun i => debug_number [0; 0xffffffff] (s2z "Sub page: " ++ fmt_d i ++ s2z " mapped page number")) 0 subs;
  do b <- enum (fun i => debug_offset (s2z "Key: " ++ fmt_d i ++ s2z " offset")) 0 key_offsets;
  do c <- enum (fun i => debug_offset (s2z "Value: " ++ fmt_d i ++ s2z " offset")) 0 value_offsets;
  Ok (a ++ b ++ c).

(** wmi_repository.py:517-569 [_ReadPageKeyData]. *)
Definition debug_key (key_data : bytes) (i offset : Z) : result (str * list Z) :=
  do t <- debug_offset (s2z "Page key: " ++ fmt_d i ++ s2z " offset") (2 * offset);
  do l <- key_segments key_data offset;
  Ok (t, l).

(** wmi_repository.py:401-487 [_ReadPage], as in WmiModel. *)
Definition debug_index_page (content : bytes) (off : Z) : result (list str * wpage) :=
  do (data, _) <- read_next content off 8192;
  do vs <- struct_bs [FU LE 4; FU LE 4; FU LE 4; FU LE 4] (zfirstn 16 data);
  match vs with
  | [VI type; VI _; VI _; VI root] =>
      if type =? 0xaccc then
        do (subs, key_offsets, key_data, value_offsets, value_data) <- page_body (zskipn 16 data);
        do lines <- debug_body subs key_offsets value_offsets;
        do segments <- enum (debug_key key_data) 0 key_offsets;
        do values <- mapr (page_value value_data) value_offsets;
        do keys <- mapr (key_path values) (map snd segments);
        Ok (lines ++ map fst segments, mkwpage type root (filter (fun n => negb (existsb (Z.eqb n) [0; 0xffffffff])) subs) keys)
      else Ok ([], mkwpage type root [] [])
  | _ => Err OtherError
  end.

(** wmi_repository.py:623-635 [ReadFileObject]: with debug output all pages are read. Simplified: the number of
    pages is computed first. *)
Fixpoint debug_pages (n : nat) (content : bytes) (off : Z) : result (list (list str * wpage)) :=
  match n with
  | O => Ok []
  | S n => do p <- debug_index_page content off; do l <- debug_pages n content (off + 8192); Ok (p :: l)
  end.

Definition debug_index_open (content : bytes) : result (list (list str * wpage)) :=
  debug_pages (Z.to_nat ((len content + 8191) / 8192)) content 0.

(** wmi_repository.py:606-621 [GetPage] and 3633-3650 [_GetIndexPageByMappedPageNumber]; the text is dropped. *)
Definition debug_mapped_page (table : list Z) (content : bytes) (n : Z) : result (option wpage) :=
  do p <- resolve table n;
  if len content <=? p * 8192 then Ok None
  else do (_, p) <- debug_index_page content (p * 8192); Ok (Some p).

(** wmi_repository.py:3705-3718 [_GetKeysFromIndexPage], as in WmiModel. *)
Fixpoint debug_page_keys (fuel : nat) (table : list Z) (content : bytes) (page : option wpage) : run (list str) :=
  match page with
  | None => Done (Ok [])
  | Some p =>
      match fuel with
      | O => OutOfFuel
      | S fuel =>
          rdo l <- (fix subs (l : list Z) : run (list str) :=
             match l with
             | [] => Done (Ok [])
             | n :: l =>
                 match debug_mapped_page table content n with
                 | Err e => Done (Err e)
                 | Ok q => rdo a <- debug_page_keys fuel table content q; rdo b <- subs l; Done (Ok (a ++ b))
                 end
             end) (wp_subs p);
          Done (Ok (wp_keys p ++ l))
      end
  end.

(** wmi_repository.py:3652-3676 [_GetIndexFirstMappedPage] and 3678-3703 [_GetIndexRootPage]. *)
Definition debug_index_root (v21 : bool) (table : list Z) (content : bytes) : result (option wpage) :=
  do root <-
    (if v21 then
       do p <- debug_mapped_page table content 0;
       match p with
       | None => Err RuntimeError
       | Some p => do _ <- guard (wp_type p =? 0xaddd) RuntimeError; Ok (wp_root p)
       end
     else Ok 1);
  debug_mapped_page table content root.

(** wmi_repository.py:4234-4242 [GetIndexKeys]. *)
Definition debug_index_keys (fuel : nat) (v21 : bool) (table : list Z) (content : bytes) : run (list str) :=
  match debug_index_root v21 table content with
  | Err e => Done (Err e)
  | Ok p => debug_page_keys fuel table content p
  end.

(** ** Mapping files *)

(** wmi_repository.py:689-703 [_DebugPrintUnknownTable]: the lines of the entries. *)
Definition debug_unknown (l : list Z) : result (list str) :=
  enum (fun i => debug_number [0xffffffff] (s2z "  Entry: " ++ fmt_d i ++ s2z " page number")) 0 l.

(** wmi_repository.py:790-841 and 737-758, as in WmiModel. *)
Definition debug_map_tables (version : Z) (content : bytes) (off : Z) : result (list str * (list Z * Z)) :=
  do (table, n) <- read_table (map_entry_size version) content off;
  do (unknown, m) <- read_table 4 content (off + n);
  do lines <- debug_unknown unknown;
  do vs <- read_struct content [FU LE 4] (off + n + m);
  match vs with
  | [VI signature] => do _ <- guard (signature =? 0xdcba) ParseError; Ok (lines, (table, off + n + m + 4))
  | _ => Err OtherError
  end.

(** wmi_repository.py:859-900 [ReadFileObject], as in WmiModel. *)
Definition debug_map (content : bytes) : result (list str * mapfile) :=
  do version <- map_version content;
  do vs <- read_map_header version content 0;
  match vs with
  | VI sequence :: _ =>
      do (lines, t) <- debug_map_tables version content (map_header_size version);
      let (table1, pos) := t in
      if (version =? 2) || (pos <? len content) then
        match read_map_header version content pos with
        | Ok _ =>
            do (lines', t') <- debug_map_tables version content (pos + map_header_size version);
            Ok (lines ++ lines', mkmapfile version sequence table1 (Some (fst t')))
        | Err ParseError => if version =? 2 then Err ParseError else Ok (lines, mkmapfile version sequence table1 None)
        | Err e => Err e
        end
      else Ok (lines, mkmapfile version sequence table1 None)
  | _ => Err OtherError
  end.

(** ** Repository file *)

(** wmi_repository.py:1679-1713 [_ReadNodeCell]. *)
Definition debug_cell (content : bytes) (off : Z) : result (Z * bytes * Z) :=
  do (cell, p) <- rd_cell content off;
  do _ <- debug_offset (s2z "Node cell offset") off;
  do _ <- debug_offset (s2z "Data offset") (off + 4);
  Ok (cell, p).

(** wmi_repository.py:2111-2137 and 2087-2137 [ReadFileObject], as in WcrModel. *)
Fixpoint debug_find_cells (fuel : nat) (content : bytes) (h : rheader) (off number next : Z) (root system : option Z) : run (option Z * option Z) :=
  if off <? len content then
    match fuel with
    | O => OutOfFuel
    | S fuel =>
        rdo (off, next) <- Done (next_bin content off next);
        rdo (cell, p) <- Done (debug_cell content off);
        if fst cell =? 0 then Done (Ok (root, system))
        else
          let is_root := rh_root h =? number in
          let root := if is_root then Some (off + 4) else root in
          let system := if negb is_root && (rh_system h =? number) then Some (off + 4) else system in
          match root, system with
          | Some _, Some _ => Done (Ok (root, system))
          | _, _ => debug_find_cells fuel content h (off + cell_size (fst cell)) (number + 1) next root system
          end
    end
  else Done (Ok (root, system)).

Definition debug_rep_file (fuel : nat) (content : bytes) : run (option Z * option Z) :=
  rdo (h, p) <- Done (rd_rheader content 0);
  debug_find_cells fuel content h 40 0 (rh_bin h) None None.

(** ** Objects *)

(** wmi_repository.py:2298-2326 [_FormatArrayOfPropertyDescriptors]. *)
Definition debug_descriptor (i : Z) (d : Z * Z) : result str :=
  do v <- unpack (format_offset (fst d));
  do t <- format_value (Some (s2z "    Property descriptor: " ++ fmt_d i ++ s2z " name offset")) (TextModel.DStr v);
  do a <- unpack t;
  do v <- unpack (format_offset (snd d));
  do t <- format_value (Some (s2z "    Property descriptor: " ++ fmt_d i ++ s2z " definition offset")) (TextModel.DStr v);
  do b <- unpack t;
  Ok (a ++ b).

(** wmi_repository.py:2705-2778 [ReadClassDefinitionBlock], as in WcdModel. *)
Definition debug_class_block (ansi : bytes -> option str) (lower : str -> str) (data : bytes) : result cdef :=
  do b <- rd_stream rd_cblock data;
  do _ <- enum debug_descriptor 0 (cb_descs b);
  do name <- cim_string ansi (cb_name b) (cb_values b);
  do super <- if 0 <? len (cb_super b) then do s <- cim_string ansi 0 (cb_super b); Ok (Some s) else Ok None;
  do quals <- if 0 <? len (cb_quals b) then qualifiers ansi lower (cb_values b) (cb_quals b) else Ok [];
  do props <- properties ansi lower (cb_values b) (cb_descs b) [];
  Ok (mkcdef name super quals props).

(** wmi_repository.py:3052-3132, as in WciModel. *)
Definition debug_instance_head (nbits vsize : Z) (data : bytes) : result (iblock * Z) :=
  do (b, off) <- rd_stream_size (rd_iblock nbits vsize) data;
  do off <- (if ib_dyn b =? 2 then
      do n <- rd_stream (rd_int (FU LE 4)) (pyslice_from data off); dyn_entries (Z.to_nat n) data (off + 4)
    else Ok off);
  do u <- rd_stream (rd_int (FU LE 4)) (pyslice_from data off);
  do _ <- debug_offset (s2z "Unknown offset") u;
  Ok (b, off + 4).

(** wmi_repository.py:3019-3246 [ReadInstanceBlockData], as in WciModel. *)
Definition debug_instance (ansi : bytes -> option str) (cm : cmap) (data : bytes) : result (str * sdict pval) :=
  do (b, off) <- debug_instance_head (state_size (len (cm_props cm))) (cm_size cm) data;
  let values := pyslice_from data off in
  do name <- cim_string ansi (ib_name b) values;
  do t <- property_values ansi (ib_values b) values (map snd (cm_props cm)) [];
  Ok (name, t).

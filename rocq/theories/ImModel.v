(** Model of how the format string and the image of a firehose tracepoint are looked up.

    UUIDs are their 16 bytes. [fs] is the directory of the uuidtext and DSC files: the content of the file
    with a path, relative to the directory, if there is one; without directory there are no files. A file
    that cannot be read is an error that ends reading, so that the state is not used any more. Debug output
    is not modelled. *)

From Verif Require Import Base CoreModel StrModel UuidModel DictModel AulModel CatModel FhModel.
From Coq Require String.
Import String.StringSyntax.

(** ** References and addresses *)

Definition truthy (o : option Z) : bool := match o with Some v => negb (v =? 0) | None => false end.
Definition or0 (o : option Z) : Z := match o with Some v => v | None => 0 end.

(** unified_logging.py:2689-2721 [_CalculateFormatStringReference]. *)
Definition format_reference (loc : location) (r : Z) : Z * bool :=
  let dynamic := negb (Z.land r 0x80000000 =? 0) in
  let r := if dynamic then Z.land r 0x7fffffff else r in
  let r := if truthy (lo_shared loc) then Z.lor r (Z.shiftl (or0 (lo_shared loc)) 31)
           else if truthy (lo_large loc) then Z.lor r (Z.shiftl (or0 (lo_large loc)) 31) else r in
  (r, dynamic).

(** unified_logging.py:2723-2751 [_CalculateNameStringReference]. *)
Definition name_reference (lower upper : option Z) : Z * bool :=
  let r := or0 lower in
  let dynamic := negb (Z.land r 0x80000000 =? 0) in
  let r := if dynamic then Z.land r 0x7fffffff else r in
  let r := if truthy upper then Z.lor r (Z.shiftl (or0 upper) 31) else r in
  (r, dynamic).

(** unified_logging.py:2753-2792 [_CalculateProgramCounter]. *)
Definition program_counter (loc : location) (text : Z) : Z :=
  let address := Z.lor (Z.shiftl (or0 (lo_upper loc)) 32) (lo_lower loc) in
  let address :=
    if truthy (lo_shared loc) then
      if truthy (lo_large loc) && negb (or0 (lo_large loc) =? Z.shiftr (or0 (lo_shared loc)) 1)
      then Z.lor address (Z.shiftl (or0 (lo_large loc)) 32)
      else Z.lor address (Z.shiftl (or0 (lo_shared loc)) 31)
    else if truthy (lo_large loc) then Z.lor address (Z.shiftl (or0 (lo_large loc)) 31)
    else address in
  address - text.

(** ** Caches: ordered dictionaries, the entry that was used last comes first. *)

Fixpoint drop_key {A} (k : str) (l : sdict A) : sdict A :=
  match l with [] => [] | (k', v) :: r => if list_eqb k' k then r else (k', v) :: drop_key k r end.

(** unified_logging.py:3108-3122, 3200-3252, 3419-3434: a value that is in the cache and [ready] is used;
    otherwise it is determined, the last entry is removed if there are [max], the value is set and moved to
    the front. *)
Definition cached {A} (max : Z) (ready : A -> bool) (open : result A) (k : str) (l : sdict A) : result (A * sdict A) :=
  let miss :=
    do v <- open;
    let l := if max <=? len l then removelast l else l in
    Ok (v, (k, v) :: drop_key k l) in
  match sdict_get k l with
  | Some v => if ready v then Ok (v, (k, v) :: drop_key k l) else miss
  | None => miss
  end.

(** ** Files *)

Definition upper_char (c : Z) : Z := if (97 <=? c) && (c <=? 122) then c - 32 else c.

(** [strings_file_identifier.hex.upper()]. *)
Definition uuid_key (u : bytes) : str := map upper_char (bytes_hex u).

Record ut_file := mkuf { uf_content : bytes; uf_entries : list ut_entry; uf_path : str }.
Record dsc_file := mkdf { df_content : bytes; df_ranges : list dsc_range }.

(** unified_logging.py:3485-3508 [_OpenUUIDTextFile]. *)
Definition open_text (utf8 : bytes -> option str) (fs : list str -> option bytes) (k : str) : result (option ut_file) :=
  match fs [firstn 2 k; skipn 2 k] with
  | None => Ok None
  | Some c => do (es, path) <- read_uuidtext utf8 c; Ok (Some (mkuf c es path))
  end.

(** unified_logging.py:3436-3457 [_OpenDSCFile]. *)
Definition open_dsc (utf8 : bytes -> option str) (fs : list str -> option bytes) (k : str) : result (option dsc_file) :=
  match fs [s2z "dsc"%string; k] with
  | None => Ok None
  | Some c => do l <- read_dsc utf8 c; Ok (Some (mkdf c l))
  end.

(** unified_logging.py:69-101 [ImageValues]. *)
Record image := mkim { im_id : bytes; im_path : option str; im_string : option str; im_text : Z }.

Record caches := mkca { cc_texts : sdict (option ut_file); cc_dscs : sdict (option dsc_file); cc_images : sdict image }.

Definition is_some {A} (o : option A) : bool := match o with Some _ => true | None => false end.

(** unified_logging.py:3408-3434 [_GetUUIDTextFile]. *)
Definition get_text (utf8 : bytes -> option str) (fs : list str -> option bytes) (u : bytes) (st : caches) : result (option ut_file * caches) :=
  do (f, l) <- cached 64 is_some (open_text utf8 fs (uuid_key u)) (uuid_key u) (cc_texts st);
  Ok (f, mkca l (cc_dscs st) (cc_images st)).

(** unified_logging.py:3099-3122 [_GetDSCFile]. *)
Definition get_dsc (utf8 : bytes -> option str) (fs : list str -> option bytes) (u : bytes) (st : caches) : result (option dsc_file * caches) :=
  do (f, l) <- cached 64 is_some (open_dsc utf8 fs (uuid_key u)) (uuid_key u) (cc_dscs st);
  Ok (f, mkca (cc_texts st) l (cc_images st)).

(** ** Images *)

(** unified_logging.py:3166-3187: the first UUID entry with the address, the UUID from the catalog and the
    load address. *)
Fixpoint find_entry (uuids : list bytes) (upper lower : Z) (l : list uuid_entry) : result (option (bytes * Z)) :=
  match l with
  | [] => Ok None
  | e :: r =>
      if negb (upper =? ue_upper e) || (lower <? ue_lower e) then find_entry uuids upper lower r
      else if lower <=? ue_lower e + ue_size e then
        do u <- pyindex uuids (ue_index e);
        Ok (Some (u, Z.lor (ue_lower e) (Z.shiftl (ue_upper e) 32)))
      else find_entry uuids upper lower r
  end.

(** An attribute of the process information entry; the entry can be None, and it may not have the
    attribute. *)
Definition attribute (k : option known) (f : known -> option bytes) : result bytes :=
  match k with
  | Some k => match f k with Some u => Ok u | None => Err AttributeError end
  | None => Err AttributeError
  end.

(** unified_logging.py:3147-3198: the identifier of the strings file and the text offset; there is a
    catalog if there is a process information entry. *)
Definition strings_file (flags : Z) (k : option known) (uuids : list bytes) (loc : location) : result (option (bytes * Z)) :=
  let type := Z.land flags 0x000e in
  do _ <- guard (one_of type [0x0002; 0x0004; 0x0008; 0x000a; 0x000c]) ParseError;
  if type =? 0x0002 then do u <- attribute k kn_main; Ok (Some (u, 0))
  else if one_of type [0x0004; 0x000c] then do u <- attribute k kn_dsc; Ok (Some (u, 0))
  else if type =? 0x0008 then
    match k with
    | Some k => find_entry uuids (or0 (lo_upper loc)) (lo_lower loc) (pr_uuids (kn_process k))
    | None => Err AttributeError
    end
  else match lo_uuid loc with Some u => Ok (Some (u, 0)) | None => Err ParseError end.

Definition image_key (u : bytes) (r : Z) : str := uuid_key u ++ s2z ":0x"%string ++ fmt_x 0 r.

(** unified_logging.py:3204-3247: the image values, the caches of the files. *)
Definition load_image (utf8 : bytes -> option str) (fs : list str -> option bytes) (type : Z) (u : bytes) (text : Z) (loc : location) (r : Z) (dynamic : bool) (st : caches)
  : result (image * caches) :=
  let large := or0 (lo_large loc) in
  if one_of type [0x0002; 0x0008; 0x000a] then
    do (f, st) <- get_text utf8 fs u st;
    match f with
    | None => Ok (mkim u None None text, st)
    | Some f =>
        if dynamic then Ok (mkim u (Some (uf_path f)) (Some (s2z "%s"%string)) text, st)
        else
          do s <- get_string utf8 (uf_content f) (uf_entries f) r;
          match s with
          | Some s => Ok (mkim u (Some (uf_path f)) (Some s) text, st)
          | None => Ok (mkim u (Some (uf_path f)) None (Z.shiftl large 31), st)
          end
    end
  else
    do (f, st) <- get_dsc utf8 fs u st;
    do v <- (match f with Some f => get_image_values utf8 (df_content f) (df_ranges f) r dynamic | None => Ok None end);
    let i := match v with
             | Some v => mkim (iv_id v) (Some (iv_path v)) (Some (iv_string v)) (iv_text_offset v)
             | None => mkim u None None text
             end in
    if negb (large =? 0) && truthy (lo_shared loc) && negb (large =? Z.shiftr (or0 (lo_shared loc)) 1)
    then Ok (mkim u (Some []) (im_string i) 0, st)
    else Ok (i, st).

(** unified_logging.py:3124-3272 [_GetImageValues]. *)
Definition get_image (utf8 : bytes -> option str) (fs : list str -> option bytes) (uuids : list bytes) (k : option known) (flags : Z) (loc : location) (r : Z) (dynamic : bool)
  (st : caches) : result (option image * caches) :=
  do o <- strings_file flags k uuids loc;
  match o with
  | None => Ok (None, st)
  | Some (u, text) =>
      let key := image_key u r in
      let keep (x : image * caches) (l : sdict image) := (Some (fst x), mkca (cc_texts (snd x)) (cc_dscs (snd x)) l) in
      match sdict_get key (cc_images st) with
      | Some i => Ok (keep (i, st) ((key, i) :: drop_key key (cc_images st)))
      | None =>
          do (i, st') <- load_image utf8 fs (Z.land flags 0x000e) u text loc r dynamic st;
          do (i, l) <- cached 8192 (fun _ => true) (Ok i) key (cc_images st');
          Ok (keep (i, st') l)
      end
  end.

(** Model of the catalog of a tracev3 file (Apple Unified Logging).

    UTF-8 decoding is external. UUIDs are their 16 bytes. Debug output is not modelled. *)

From Verif Require Import Base CoreModel GzipModel StrModel DictModel RdModel.

(** aul_tracev3.yaml cstring: a UTF-8 string with end-of-string character. *)
Definition rd_cstring (utf8 : bytes -> option str) : reader str :=
  fun content pos =>
    match cstring_end (zskipn pos content) with
    | Some s => match utf8 s with Some t => Ok (t, pos + len s + 1) | None => Err ParseError end
    | None => Err ParseError
    end.

(** A structure with padding to a multiple of 8 of its own size. *)
Definition rd_aligned {A} (r : reader A) : reader A :=
  fun content pos =>
    do (a, p) <- r content pos;
    do (_, q) <- rd_bytes ((- (p - pos)) mod 8) content p;
    Ok (a, q).

(** dtFabric: a sequence of elements of variable size with elements_data_size; elements are mapped as
    long as fewer bytes than the size have been mapped, the last one can go beyond it. A negative size
    is a MappingError. The fuel is the size: every element has at least one byte. *)
Fixpoint rd_sized {A} (fuel : nat) (r : reader A) (size : Z) : reader (list A) :=
  match fuel with
  | O => rd_ret []
  | S fuel =>
      fun content pos =>
        if 0 <? size then
          do (a, p) <- r content pos;
          do (l, q) <- rd_sized fuel r (size - (p - pos)) content p;
          Ok (a :: l, q)
        else Ok ([], pos)
  end.

(** aul_tracev3.yaml tracev3_catalog_uuid_entry, without the member unknown1. *)
Record uuid_entry := mkue { ue_size : Z; ue_index : Z; ue_lower : Z; ue_upper : Z }.

Definition rd_uuid_entry : reader uuid_entry :=
  rd size <- rd_int (FU LE 4);
  rd u1 <- rd_int (FU LE 4);
  rd index <- rd_int (FU LE 2);
  rd lower <- rd_int (FU LE 4);
  rd upper <- rd_int (FU LE 2);
  rd_ret (mkue size index lower upper).

(** aul_tracev3.yaml tracev3_catalog_sub_system_entry. *)
Record sub_entry := mkse { se_id : Z; se_sub : Z; se_cat : Z }.

Definition rd_sub_entry : reader sub_entry :=
  rd id <- rd_int (FU LE 2);
  rd sub <- rd_int (FU LE 2);
  rd cat <- rd_int (FU LE 2);
  rd_ret (mkse id sub cat).

(** aul_tracev3.yaml tracev3_catalog_process_information_entry, without the unknown members. *)
Record process := mkpr {
  pr_main : Z; pr_dsc : Z; pr_upper : Z; pr_lower : Z; pr_pid : Z; pr_euid : Z; pr_uuids : list uuid_entry; pr_subs : list sub_entry }.

Definition rd_process : reader process := rd_aligned (
  rd index <- rd_int (FU LE 2);
  rd u1 <- rd_int (FU LE 2);
  rd main <- rd_int (FS LE 2);
  rd dsc <- rd_int (FS LE 2);
  rd upper <- rd_int (FU LE 8);
  rd lower <- rd_int (FU LE 4);
  rd pid <- rd_int (FU LE 4);
  rd euid <- rd_int (FU LE 4);
  rd u2 <- rd_int (FU LE 4);
  rd n <- rd_int (FU LE 4);
  rd u3 <- rd_int (FU LE 4);
  rd uuids <- rd_times (Z.to_nat n) rd_uuid_entry;
  rd m <- rd_int (FU LE 4);
  rd u4 <- rd_int (FU LE 4);
  rd subs <- rd_times (Z.to_nat m) rd_sub_entry;
  rd_ret (mkpr main dsc upper lower pid euid uuids subs)).

(** aul_tracev3.yaml tracev3_catalog_sub_chunk; the values are read and not used. *)
Definition rd_sub_chunk : reader unit := rd_aligned (
  rd start <- rd_int (FU LE 8);
  rd stop <- rd_int (FU LE 8);
  rd size <- rd_int (FU LE 4);
  rd algorithm <- rd_int (FU LE 4);
  rd n <- rd_int (FU LE 4);
  rd indexes <- rd_times (Z.to_nat n) (rd_int (FU LE 2));
  rd m <- rd_int (FU LE 4);
  rd offsets <- rd_times (Z.to_nat m) (rd_int (FU LE 2));
  rd_ret tt).

Record catalog := mkcat { ca_earliest : Z; ca_uuids : list bytes; ca_strings : list str; ca_processes : list process }.

(** unified_logging.py:3519-3590 [_ReadCatalog] with aul_tracev3.yaml tracev3_catalog: the entries are
    read one after the other behind the strings, the offsets of the entries and of the sub chunks are
    used for the size of the strings only. *)
Definition rd_catalog (utf8 : bytes -> option str) : reader catalog :=
  rd so <- rd_int (FU LE 2);
  rd po <- rd_int (FU LE 2);
  rd n <- rd_int (FU LE 2);
  rd co <- rd_int (FU LE 2);
  rd m <- rd_int (FU LE 2);
  rd u1 <- rd_bytes 6;
  rd earliest <- rd_int (FU LE 8);
  rd uuids <- rd_times (Z.to_nat (so / 16)) (rd_bytes 16);
  rd x <- rd_guard (so <=? po);
  rd strings <- rd_sized (Z.to_nat (po - so)) (rd_cstring utf8) (po - so);
  rd processes <- rd_times (Z.to_nat n) rd_process;
  rd chunks <- rd_times (Z.to_nat m) rd_sub_chunk;
  rd_ret (mkcat earliest uuids strings processes).

(** unified_logging.py:3043-3059 [_GetCatalogSubSystemStringMap]: the strings with their offsets; a
    dictionary with the later value of equal keys, though the offsets are all different. *)
Fixpoint strings_map (off : Z) (l : list str) : list (Z * str) :=
  match l with [] => [] | s :: r => (off, s) :: strings_map (off + len s + 1) r end.

Fixpoint zget {A} (k : Z) (l : list (Z * A)) : option A :=
  match l with [] => None | (k', v) :: r => match zget k r with Some x => Some x | None => if k' =? k then Some v else None end end.

(** A process information entry with the UUIDs it was given; without a main (dsc) UUID the object has
    no attribute main_uuid (dsc_uuid). *)
Record known := mkkn { kn_process : process; kn_main : option bytes; kn_dsc : option bytes }.

Definition by_index (uuids : list bytes) (i : Z) : result (option bytes) :=
  if i <? 0 then Ok None else match nth_error uuids (Z.to_nat i) with Some u => Ok (Some u) | None => Err IndexError end.

Definition proc_id (upper lower : Z) : str := fmt_d upper ++ [64] ++ fmt_d lower.

Fixpoint build_processes (uuids : list bytes) (l : list process) (t : sdict known) : result (sdict known) :=
  match l with
  | [] => Ok t
  | p :: r =>
      do main <- by_index uuids (pr_main p);
      do dsc <- by_index uuids (pr_dsc p);
      match sdict_get (proc_id (pr_upper p) (pr_lower p)) t with
      | Some _ => Err ParseError
      | None => build_processes uuids r (sdict_set (proc_id (pr_upper p) (pr_lower p)) (mkkn p main dsc) t)
      end
  end.

(** The state that the catalog leaves in the file object. *)
Record cat_state := mkcs { cs_catalog : catalog; cs_strings : list (Z * str); cs_processes : sdict known }.

(** unified_logging.py:5067-5073, 2639-2687 [_BuildCatalogProcessInformationEntries]. *)
Definition load_catalog (utf8 : bytes -> option str) (content : bytes) (off : Z) : result cat_state :=
  do (c, _) <- rd_catalog utf8 content off;
  do t <- build_processes (ca_uuids c) (ca_processes c) [];
  Ok (mkcs c (strings_map 0 (ca_strings c)) t).

(** unified_logging.py:3935-3939, 4721, 4798: the process information of a proc_id. *)
Definition find_process (cs : cat_state) (upper lower : Z) : option known := sdict_get (proc_id upper lower) (cs_processes cs).

(** unified_logging.py:3302-3333 [_GetSubSystemStrings]: category and sub system. *)
Definition sub_system (cs : cat_state) (k : option known) (id : option Z) : option str * option str :=
  match k, id with
  | Some k, Some id =>
      fold_left (fun r e => if se_id e =? id then (zget (se_cat e) (cs_strings cs), zget (se_sub e) (cs_strings cs)) else r)
        (pr_subs (kn_process k)) (None, None)
  | _, _ => (None, None)
  end.

(** unified_logging.py:3274-3300 [_GetProcessImageValues]; [file] gives the image path of the uuidtext
    file with the name, [None] if there is no such file. *)
Definition process_image (file : bytes -> option str) (k : option known) : result (option bytes * option str) :=
  match k with
  | None => Ok (None, None)
  | Some k =>
      match kn_main k with
      | None => Err AttributeError
      | Some u => match file u with Some path => Ok (Some u, Some path) | None => Ok (None, None) end
      end
  end.

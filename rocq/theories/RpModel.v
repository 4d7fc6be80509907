(** Model of the rp.log reader (Windows Restore Points). *)

From Verif Require Import Base CoreModel StrModel TextModel SeqModel RdModel.
From Coq Require String.
Import String.StringSyntax.

(** rp_log.yaml rp_log_file_header. *)
Record rp_header := mkrph { rh_event : Z; rh_type : Z; rh_sequence : Z; rh_description : str }.

(** rp_log.py:94-111 [_ReadFileHeader]. *)
Definition rd_rp_header : reader rp_header :=
  rd e <- rd_int (FU LE 4);
  rd t <- rd_int (FU LE 4);
  rd s <- rd_int (FU LE 8);
  rd d <- rd_wide;
  rd_ret (mkrph e t s d).

(** [file_object.read(n)] at a position: -1 is the rest of the file, a smaller number a ValueError. *)
Definition raw_read (content : bytes) (pos n : Z) : result bytes :=
  if n <? -1 then Err ValueError
  else if n =? -1 then Ok (zskipn pos content)
  else Ok (zfirstn n (zskipn pos content)).

(** rp_log.py:113-126 [ReadFileObject] with [_ReadFileFooter] rp_log.py:74-92; the values are those that
    are printed. *)
Definition read_rp (content : bytes) : result (rp_header * bytes * Z) :=
  do (h, pos) <- rd_rp_header content 0;
  do data <- raw_read content pos (len content - 8 - pos);
  do (t, _) <- rd_int (FU LE 8) content (len content - 8);
  Ok (h, data, t).

(** rp_log.py:14-28. *)
Definition rp_event_types : list (Z * str) :=
  [(100, s2z "BEGIN_SYSTEM_CHANGE"%string); (101, s2z "END_SYSTEM_CHANGE"%string); (102, s2z "BEGIN_NESTED_SYSTEM_CHANGE"%string); (103, s2z "END_NESTED_SYSTEM_CHANGE"%string)].
Definition rp_point_types : list (Z * str) :=
  [(0, s2z "APPLICATION_INSTALL"%string); (1, s2z "APPLICATION_UNINSTALL"%string); (10, s2z "DEVICE_DRIVER_INSTALL"%string); (12, s2z "MODIFY_SETTINGS"%string); (13, s2z "CANCELLED_OPERATION"%string)].

Definition rp_name (l : list (Z * str)) (v : Z) : str :=
  match find (fun p => fst p =? v) l with Some (_, s) => s | None => s2z "UNKNOWN"%string end.

(** rp_log.py:50-72 [_DebugPrintFileHeader]: the four values that are printed. *)
Definition rp_header_texts (h : rp_header) : list str :=
  [s2z "0x"%string ++ fmt_x 8 (rh_event h) ++ s2z " ("%string ++ rp_name rp_event_types (rh_event h) ++ s2z ")"%string;
   s2z "0x"%string ++ fmt_x 8 (rh_type h) ++ s2z " ("%string ++ rp_name rp_point_types (rh_type h) ++ s2z ")"%string;
   s2z "0x"%string ++ fmt_x 8 (rh_sequence h);
   rh_description h].

(** Model of the MacOS file system events (fseventsd) reader.

    Source: /repo/dtformats/fseventsd.py, /repo/dtformats/fseventsd.yaml. [content] is the
    uncompressed data of the gzip file, which the library pygzipf provides; [utf8] tells whether
    bytes are valid UTF-8. *)

From Verif Require Import Base CoreModel SeqModel DictModel MemModel.

(** fseventsd.yaml [dls_page_header] *)
Definition dls_header_kinds : list fkind := [FB 4; FB 4; FU LE 4].

(** fseventsd.py:22-25, the only supported values of the signature: "1SLD" and "2SLD". *)
Definition dls_v1_signature : bytes := [49; 83; 76; 68].
Definition dls_v2_signature : bytes := [50; 83; 76; 68].

(** fseventsd.yaml [dls_record_v1] and [dls_record_v2] *)
Definition dls_record (utf8 : bytes -> bool) (version : Z) : list mem :=
  [MCText utf8; MInt (FU LE 8); MInt (FU LE 4)] ++ (if version =? 1 then [] else [MInt (FU LE 8)]).

(** fseventsd.py:36-60 [_ReadDLSPageHeader] with 119-124: the format version and the page size. *)
Definition read_page_header (content : bytes) (off : Z) : result (Z * Z) :=
  do vs <- read_struct content dls_header_kinds off;
  match vs with
  | [VB signature; _; VI size] =>
      if list_eqb signature dls_v1_signature then Ok (1, size)
      else if list_eqb signature dls_v2_signature then Ok (2, size)
      else Err ParseError
  | _ => Err OtherError
  end.

(** fseventsd.py:118-130 with 62-93 [_ReadDLSRecord]: the records of a page and the file offset
    behind them. *)
Fixpoint read_page_records (utf8 : bytes -> bool) (fuel : nat) (content : bytes) (version off page_end : Z)
  : run (list (list mval) * Z) :=
  if off <? page_end then
    match fuel with
    | O => OutOfFuel
    | S fuel =>
        if len content <? off then Done (Err ParseError)
        else
          match read_mems content off [] (dls_record utf8 version) with
          | Err e => Done (Err e)
          | Ok (vs, pos) =>
              rdo (l, pos) <- read_page_records utf8 fuel content version pos page_end;
              Done (Ok (vs :: l, pos))
          end
    end
  else Done (Ok ([], off)).

(** fseventsd.py:105-130 [ReadFileObject]: the records with their format version. *)
Fixpoint read_pages (utf8 : bytes -> bool) (fuel : nat) (content : bytes) (off : Z) : run (list (Z * list mval)) :=
  if off <? len content then
    match fuel with
    | O => OutOfFuel
    | S fuel' =>
        match read_page_header content off with
        | Err e => Done (Err e)
        | Ok (version, size) =>
            rdo (rs, pos) <- read_page_records utf8 fuel content version (off + 12) (off + size);
            rdo l <- read_pages utf8 fuel' content pos;
            Done (Ok (map (pair version) rs ++ l))
        end
    end
  else Done (Ok []).

(** Model of the Firefox cache version 1 readers.

    Source: /repo/dtformats/firefox_cache1.py, /repo/dtformats/firefox_cache1.yaml. *)

From Verif Require Import Base StrModel CoreModel SeqModel DictModel MemModel.
From Coq Require String.
Import String.StringSyntax.

(** firefox_cache1.py:42-46 and 149-153: the parts of a cache location. *)
Definition block_number (z : Z) : Z := Z.land z 16777215.
Definition extra_blocks (z : Z) : Z := Z.shiftr (Z.land z 50331648) 24.
Definition location_selector (z : Z) : Z := Z.shiftr (Z.land z 805306368) 28.
Definition location_reserved (z : Z) : Z := Z.shiftr (Z.land z 1275068416) 26.
Definition location_flag (z : Z) : Z := Z.shiftr (Z.land z 2147483648) 31.

(** firefox_cache1.py:33-51 and 140-158 [_FormatCacheLocation]. *)
Definition format_location (z : Z) : str :=
  s2z "block number: " ++ fmt_d (block_number z) ++ s2z ", extra blocks: " ++ fmt_d (extra_blocks z)
  ++ s2z ", location selector: " ++ fmt_d (location_selector z) ++ s2z ", reserved: " ++ fmt_x 2 (location_reserved z)
  ++ s2z ", location flag: " ++ fmt_d (location_flag z).

(** firefox_cache1.yaml [firefox_cache1_map_header] *)
Definition ff_header_kinds : list fkind :=
  [FU BE 2; FU BE 2; FU BE 4; FS BE 4; FU BE 4; FS BE 4] ++ repeat (FU BE 4) 64.

(** firefox_cache1.yaml [firefox_cache1_map_record] *)
Definition ff_record_kinds : list fkind := repeat (FU BE 4) 4.

(** firefox_cache1.py:53-82 [_ReadFileHeader]. *)
Definition read_map_header (content : bytes) : result (list fval) :=
  do vs <- read_struct content ff_header_kinds 0;
  match vs with
  | VI major :: _ :: VI data_size :: _ =>
      do _ <- guard (major =? 1) ParseError;
      do _ <- guard (data_size =? len content - 276) ParseError;
      Ok vs
  | _ => Err OtherError
  end.

(** firefox_cache1.py:115-118 with 84-102 [_ReadRecord]. *)
Fixpoint read_map_records (fuel : nat) (content : bytes) (off : Z) : run (list (list Z)) :=
  if off <? len content then
    match fuel with
    | O => OutOfFuel
    | S fuel =>
        match read_struct content ff_record_kinds off with
        | Err e => Done (Err e)
        | Ok vs => rdo l <- read_map_records fuel content (off + 16); Done (Ok (ints vs :: l))
        end
    end
  else Done (Ok []).

(** firefox_cache1.py:104-118 [ReadFileObject]: the header values and the records. *)
Definition read_map_file (fuel : nat) (content : bytes) : run (list fval * list (list Z)) :=
  match read_map_header content with
  | Err e => Done (Err e)
  | Ok h => rdo l <- read_map_records fuel content 276; Done (Ok (h, l))
  end.

(** firefox_cache1.yaml [firefox_cache1_entry] *)
Definition ff_entry : list mem :=
  [MInt (FU BE 2); MInt (FU BE 2); MInt (FU BE 4); MInt (FS BE 4)] ++ repeat (MInt (FU BE 4)) 6 ++ [MAscii (mint 8); MData (mint 9)].

(** firefox_cache1.py:160-189 [_ReadCacheEntry]: the entry, if there is one, and the next file
    position. *)
Definition read_entry (content : bytes) (block_size off : Z) : option (list mval) * Z :=
  match read_mems content off [] ff_entry with
  | Err _ => (None, off + block_size)
  | Ok (vs, pos) =>
      let trailing := (pos - off) mod block_size in
      (Some vs, if 0 <? trailing then pos + (block_size - trailing) else pos)
  end.

(** firefox_cache1.py:211-214. *)
Fixpoint read_blocks (fuel : nat) (content : bytes) (block_size off : Z) : run (list (list mval)) :=
  if off <? len content then
    match fuel with
    | O => OutOfFuel
    | S fuel =>
        let '(e, pos) := read_entry content block_size off in
        rdo l <- read_blocks fuel content block_size pos;
        Done (Ok (match e with Some vs => vs :: l | None => l end))
    end
  else Done (Ok []).

(** firefox_cache1.py:191-214 [ReadFileObject], by the name of the file. *)
Definition block_size_of (filename : str) : result Z :=
  if list_eqb filename (s2z "_CACHE_001_") then Ok 256
  else if list_eqb filename (s2z "_CACHE_002_") then Ok 1024
  else if list_eqb filename (s2z "_CACHE_003_") then Ok 4096
  else Err ParseError.

(** firefox_cache1.py:187-189: only entries with major format version 1 are reported. *)
Definition reported (e : list mval) : bool := mint 0 e =? 1.

Definition read_block_file (fuel : nat) (filename : str) (content : bytes) : run (list (list mval)) :=
  match block_size_of filename with
  | Err e => Done (Err e)
  | Ok block_size => rdo l <- read_blocks fuel content block_size 0; Done (Ok (filter reported l))
  end.

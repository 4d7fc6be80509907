(** Model of how the chunks of a tracev3 file (Apple Unified Logging) are read.

    What is done with a chunk is given by functions, see [tv_calls]: the catalog and the firehose,
    StateDump and SimpleDump chunks are modelled elsewhere. LZ4 decompression is external. Debug output
    is not modelled. Reading more than the memory holds is not modelled. *)

From Verif Require Import Base CoreModel StrModel DictModel RdModel.
From Coq Require String.
Import String.StringSyntax.

(** What a generator yields before it ends, and how it ends; [None] if the fuel does not suffice. *)
Definition gen (E A : Type) : Type := option (list E * result A).

Definition gen_of {E A} (r : result A) : gen E A := Some ([], r).

Definition gen_bind {E A B} (g : gen E A) (f : A -> gen E B) : gen E B :=
  match g with
  | None => None
  | Some (l, Err e) => Some (l, Err e)
  | Some (l, Ok a) => match f a with None => None | Some (l', r) => Some (l ++ l', r) end
  end.

Notation "'gdo' x <- r ; k" := (gen_bind r (fun x => k)) (at level 200, x pattern, r at level 100, k at level 200, right associativity).

(** aul_tracev3.yaml tracev3_chunk_header: chunk tag, chunk sub tag, chunk data size;
    unified_logging.py:3592-3615 [_ReadChunkHeader]. *)
Definition rd_chunk : reader (Z * Z) :=
  rd tag <- rd_int (FU LE 4);
  rd sub <- rd_int (FU LE 4);
  rd size <- rd_int (FU LE 8);
  rd_ret (tag, size).

(** The offset behind the alignment padding, unified_logging.py:3730-3736, 5084-5090. *)
Definition tv_align (off : Z) : Z := let a := off mod 8 in off + (if 0 <? a then 8 - a else 0).

(** aul_tracev3.yaml tracev3_lz4_block_header: signature, uncompressed data size, compressed data size. *)
Definition rd_block : reader (bytes * Z * Z) :=
  rd sig <- rd_bytes 4;
  rd u <- rd_int (FU LE 4);
  rd c <- rd_int (FU LE 4);
  rd_ret (sig, u, c).

(** aul_tracev3.yaml tracev3_data_item: a range of the values data, or inline data. *)
Inductive tv_item := TRange (type offset size : Z) | TInline (type : Z) (data : bytes).

Definition item_ranges : list Z := [0x20; 0x21; 0x22; 0x30; 0x32; 0x40; 0x41; 0x42; 0xf2].

Definition rd_item : reader tv_item :=
  rd type <- rd_int (FU LE 1);
  rd size <- rd_int (FU LE 1);
  if existsb (Z.eqb type) item_ranges then
    rd x <- rd_guard (size =? 4);
    rd o <- rd_int (FU LE 2);
    rd n <- rd_int (FU LE 2);
    rd_ret (TRange type o n)
  else
    rd data <- rd_bytes size;
    rd_ret (TInline type data).

(** aul_tracev3.yaml tracev3_oversize_chunk, without the members unknown1, unknown2 and unknown3. *)
Record oversize := mkov {
  ov_upper : Z; ov_lower : Z; ov_ttl : Z; ov_time : Z; ov_reference : Z; ov_items : list tv_item; ov_values : bytes; ov_private : bytes }.

Definition rd_oversize : reader (Z * Z * Z * Z * Z * Z * Z * list tv_item) :=
  rd upper <- rd_int (FU LE 8);
  rd lower <- rd_int (FU LE 4);
  rd ttl <- rd_int (FU LE 1);
  rd u1 <- rd_int (FU LE 1);
  rd u2 <- rd_int (FU LE 2);
  rd time <- rd_int (FU LE 8);
  rd ref <- rd_int (FU LE 4);
  rd size <- rd_int (FU LE 2);
  rd private <- rd_int (FU LE 2);
  rd u3 <- rd_int (FU LE 1);
  rd n <- rd_int (FU LE 1);
  rd items <- rd_times (Z.to_nat n) rd_item;
  rd_ret (upper, lower, ttl, time, ref, size, private, items).

(** unified_logging.py:4648-4685 [_ReadOversizeChunkData]; the structure of empty data is a ValueError
    (data_format.py:653-654). *)
Definition read_oversize (data : bytes) : result oversize :=
  do _ <- guard (0 <? len data) ValueError;
  do ((((((((upper, lower), ttl), time), ref), size), private), items), pos) <- rd_oversize data 0;
  Ok (mkov upper lower ttl time ref items (pyslice data pos (pos + size)) (pyslice data (pos + size) (pos + size + private))).

(** unified_logging.py:3708-3713, 3086-3088: the key of an oversize chunk. *)
Definition oversize_key (upper lower ref : Z) : str := fmt_d upper ++ [64] ++ fmt_d lower ++ [58] ++ fmt_x 4 ref.

(** What is done with the chunks; [E] are the log entries and [S] is the state of the file object
    (catalog and caches). The catalog is read from the file at an offset, [tc_catalog] also tells where
    it leaves the file. A firehose chunk looks up oversize chunks. *)
Record tv_calls (E S : Type) := mkcalls {
  tc_catalog : S -> Z -> Z -> result (S * Z);
  tc_firehose : S -> (Z -> Z -> Z -> option oversize) -> bytes -> Z -> list E * result S;
  tc_statedump : S -> bytes -> Z -> list E * result S;
  tc_simpledump : S -> bytes -> Z -> list E * result S }.
Arguments mkcalls {E S}.
Arguments tc_catalog {E S}.
Arguments tc_firehose {E S}.
Arguments tc_statedump {E S}.
Arguments tc_simpledump {E S}.

Definition keep {E S} (ov : sdict oversize) (g : list E * result S) : gen E (S * sdict oversize) :=
  let (l, r) := g in Some (l, do s <- r; Ok (s, ov)).

(** unified_logging.py:3693-3728: a chunk of a chunk set. *)
Definition tv_chunk {E S} (c : tv_calls E S) (st : S) (ov : sdict oversize) (tag : Z) (data : bytes) (size : Z) : gen E (S * sdict oversize) :=
  if tag =? 0x6001 then keep ov (tc_firehose c st (fun upper lower ref => sdict_get (oversize_key upper lower ref) ov) data size)
  else if tag =? 0x6002 then gen_of (do o <- read_oversize data; Ok (st, sdict_set (oversize_key (ov_upper o) (ov_lower o) (ov_reference o)) o ov))
  else if tag =? 0x6003 then keep ov (tc_statedump c st data size)
  else if tag =? 0x6004 then keep ov (tc_simpledump c st data size)
  else gen_of (Ok (st, ov)).

(** unified_logging.py:3666-3736: the chunks of the data of a chunk set. *)
Fixpoint tv_inner {E S} (fuel : nat) (c : tv_calls E S) (plain : bytes) (size : Z) (off : Z) (st : S) (ov : sdict oversize) : gen E (S * sdict oversize) :=
  if off <? size then
    match fuel with
    | O => None
    | S fuel =>
        gdo (tag, n) <- gen_of (do _ <- guard (off <? len plain) ValueError; rd_data rd_chunk (zskipn off plain));
        gdo (st, ov) <- tv_chunk c st ov tag (pyslice plain (off + 16) (off + 16 + n)) n;
        tv_inner fuel c plain size (tv_align (off + 16 + n)) st ov
    end
  else gen_of (Ok (st, ov)).

(** unified_logging.py:3636-3664: the data of the chunk set at [off]. The block header is read from the
    file, a size of 2^63 is too large for read(). *)
Definition tv_block (lz4 : bytes -> Z -> result bytes) (content : bytes) (off size : Z) : result (bytes * Z) :=
  do _ <- guard (size <? 2 ^ 63) OverflowError;
  let data := zfirstn size (zskipn off content) in
  do (((sig, u), c), _) <- rd_block content off;
  do (plain, stop) <-
    (if list_eqb sig (s2z "bv41"%string) then do plain <- lz4 (pyslice data 12 (12 + c)) u; Ok (plain, 12 + c)
     else if list_eqb sig (s2z "bv4-"%string) then Ok (pyslice data 8 (8 + u), 8 + u)
     else Err ParseError);
  do _ <- guard (list_eqb (pyslice data stop (stop + 4)) (s2z "bv4$"%string)) ParseError;
  Ok (plain, u).

(** unified_logging.py:3617-3736 [_ReadChunkSet]. *)
Definition tv_set {E S} (lz4 : bytes -> Z -> result bytes) (c : tv_calls E S) (content : bytes) (off size : Z) (st : S) (ov : sdict oversize) : gen E (S * sdict oversize) :=
  gdo (plain, u) <- gen_of (tv_block lz4 content off size);
  tv_inner (Datatypes.S (length plain)) c plain u 0 st ov.

(** unified_logging.py:5055-5090: the loop of [ReadLogEntries]; [tell] is the position of the file object. *)
Fixpoint tv_walk {E S} (fuel : nat) (lz4 : bytes -> Z -> result bytes) (c : tv_calls E S) (content : bytes) (off tell : Z) (st : S) (ov : sdict oversize)
    : gen E (S * sdict oversize * Z) :=
  if off <? len content then
    match fuel with
    | O => None
    | S fuel =>
        gdo ((tag, size), pos) <- gen_of (rd_chunk content off);
        let next := tv_align (off + 16 + size) in
        if tag =? 0x600b then
          gdo (st, tell) <- gen_of (tc_catalog c st (off + 16) size);
          tv_walk fuel lz4 c content next tell st ov
        else if tag =? 0x600d then
          gdo (st, ov) <- tv_set lz4 c content (off + 16) size st ov;
          tv_walk fuel lz4 c content next (off + 16 + 12) st ov
        else gen_of (Err ParseError)
    end
  else gen_of (Ok (st, ov, tell)).

(** The entries of the chunks from the position [tell] of the file object on. *)
Definition tv_entries {E S} (lz4 : bytes -> Z -> result bytes) (c : tv_calls E S) (content : bytes) (tell : Z) (st : S) : gen E (S * Z) :=
  gdo (x, tell) <- tv_walk (Datatypes.S (length content)) lz4 c content tell tell st [];
  gen_of (Ok (fst x, tell)).

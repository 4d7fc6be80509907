(** Model of how the values and the backtrace of a firehose tracepoint are determined.

    [decode] is unified_logging.py [_DecodeValue] with the string formatter of the tracepoint: a function
    of the index of the value and its data, [None] if the value has none. UUIDs are their 16 bytes. Debug
    output (and its ParseError for unknown kinds of items) is not modelled. *)

From Verif Require Import Base CoreModel StrModel DictModel RdModel TvModel CatModel FhModel.
From Coq Require String.
Import String.StringSyntax.

Definition item_type (i : tv_item) : Z := match i with TRange t _ _ => t | TInline t _ => t end.

(** unified_logging.py:3817-3843: the data of a data item; the structure of a data item has a range if
    its type is one of [item_ranges]. *)
Definition item_value (values private : bytes) (poff : Z) (i : tv_item) : option bytes :=
  match i with
  | TInline t d => if one_of t [0x00; 0x02] then Some d else if one_of t [0x10; 0x12] then Some d else None
  | TRange t o n =>
      if one_of t [0x20; 0x22; 0x40; 0x42] then Some (pyslice values o (o + n))
      else if one_of t [0x21; 0x41] then Some (pyslice private (poff + o) (poff + o + n))
      else if one_of t [0x30; 0x32; 0xf2] then Some (pyslice values o (o + n))
      else None
  end.

Definition private_text : str := s2z "<private>"%string.

(** unified_logging.py:3788-3896 [_ReadDataItems]; the precision is not used. *)
Fixpoint read_items (decode : Z -> option bytes -> result str) (values private : bytes) (poff index : Z) (items : list tv_item) : result (list str) :=
  match items with
  | [] => Ok []
  | i :: rest =>
      let data := item_value values private poff i in
      if one_of (item_type i) [0x10; 0x12] then read_items decode values private poff index rest
      else
        do v <- (if one_of (item_type i) [0x01; 0x21; 0x25; 0x31; 0x35; 0x41; 0x45] && (match data with None => true | Some d => len d =? 0 end)
                 then Ok private_text else decode index data);
        do l <- read_items decode values private poff (index + 1) rest;
        Ok (v :: l)
  end.

(** unified_logging.py:4555-4595 [_ReadFirehoseTracepointTraceValuesData]: the loop; [n] is the number of
    values left, [o] the offset of the next value. *)
Fixpoint read_trace (decode : Z -> option bytes -> result str) (values : bytes) (n : nat) (index o : Z) : result (list str) :=
  match n with
  | O => Ok []
  | S n =>
      do size <- pyindex values (- (1 + Z.of_nat (S n)));
      do _ <- guard (one_of size [4; 8]) ParseError;
      do v <- decode index (Some (pyslice values o (o + size)));
      do l <- read_trace decode values n (index + 1) (o + size);
      Ok (v :: l)
  end.

(** aul_tracev3.yaml tracev3_firehose_tracepoint_backtrace_data: identifiers, offsets, indexes. *)
Definition rd_backtrace : reader (list bytes * list Z * list Z) :=
  rd u1 <- rd_int (FU LE 2);
  rd u2 <- rd_int (FU LE 1);
  rd n <- rd_int (FU LE 1);
  rd k <- rd_int (FU LE 1);
  rd u3 <- rd_int (FU LE 1);
  rd ids <- rd_times (Z.to_nat n) (rd_bytes 16);
  rd offsets <- rd_times (Z.to_nat k) (rd_int (FU LE 4));
  rd indexes <- rd_times (Z.to_nat k) (rd_int (FU LE 1));
  rd_ret (ids, offsets, indexes).

(** A frame: image identifier and image offset. *)
Fixpoint frames (ids : list bytes) (offsets indexes : list Z) : result (list (bytes * Z)) :=
  match offsets, indexes with
  | o :: offsets, i :: indexes =>
      do u <- (if i =? 0xff then Ok (repeat 0 16) else pyindex ids i);
      do l <- frames ids offsets indexes;
      Ok ((u, o) :: l)
  | _, _ => Ok []
  end.

(** unified_logging.py:3738-3786 [_ReadBacktraceData]. *)
Definition read_backtrace (flags : Z) (data : bytes) : result (list (bytes * Z)) :=
  if Z.land flags 0x1000 =? 0 then Ok []
  else
    do _ <- guard (0 <? len data) ValueError;
    do (ids, offsets, indexes) <- rd_data rd_backtrace data;
    frames ids offsets indexes.

(** unified_logging.py:4126-4133: the private data of the chunk. *)
Definition chunk_private (h : fh_header) (data : bytes) : bytes :=
  let v := Z.land (fh_private h) 0x0fff in
  if v =? 0 then [] else pyslice_from data (- (4096 - v)).

Definition body_range (b : body) : option (Z * Z) :=
  match b with Log _ r _ _ _ _ _ => r | Signpost _ r _ _ _ _ _ _ _ _ => r | _ => None end.
Definition body_ref (b : body) : option Z :=
  match b with Log _ _ _ _ _ r _ => r | Signpost _ _ _ _ _ _ r _ _ _ => r | _ => None end.
Definition body_items (b : body) : option (list tv_item) :=
  match b with Log _ _ _ _ _ _ i => Some i | Signpost _ _ _ _ _ _ _ _ _ i => Some i | _ => None end.

(** unified_logging.py:3060-3098 [_GetDataItemsAndValuesData]; [oversize] looks up the oversize chunk of the
    process with the data reference. *)
Definition data_items (oversize : Z -> option oversize) (b : body) (values private : bytes) : option (list tv_item) * bytes * bytes :=
  match body_ref b with
  | None => (body_items b, values, private)
  | Some r =>
      if r =? 0 then (body_items b, values, private)
      else match oversize r with
           | Some o => (Some (ov_items o), ov_values o, ov_private o)
           | None => (None, values, private)
           end
  end.

(** unified_logging.py:4153-4163. *)
Definition private_offset (h : fh_header) (b : body) : Z :=
  match body_range b with None => 0 | Some r => fst r - Z.land (fh_private h) 0x0fff end.

(** unified_logging.py:4118-4172: the backtrace frames and the values of a tracepoint that is no loss. *)
Definition fh_values (decode : Z -> option bytes -> result str) (oversize : Z -> option oversize) (h : fh_header) (chunk : bytes) (flags : Z) (b : body) (values : bytes)
  : result (list (bytes * Z) * list str) :=
  match b with
  | Trace _ n =>
      do l <- (if n =? 0 then Ok [] else read_trace decode values (Z.to_nat n) 0 0);
      Ok ([], l)
  | _ =>
      let '(items, values, private) := data_items oversize b values (chunk_private h chunk) in
      do fs <- read_backtrace flags values;
      do l <- (match items with
               | Some (i :: rest) => read_items decode values private (private_offset h b) 0 (i :: rest)
               | _ => Ok []
               end);
      Ok (fs, l)
  end.

(** Model of how the tracepoints of a firehose chunk of a tracev3 file are read.

    What is done with a tracepoint to get its log entry is given by a function. Debug output is not
    modelled. *)

From Verif Require Import Base CoreModel StrModel DictModel RdModel TvModel CatModel.

(** aul_tracev3.yaml tracev3_firehose_header, without the members that are not used. *)
Record fh_header := mkfh { fh_upper : Z; fh_lower : Z; fh_size : Z; fh_private : Z; fh_time : Z }.

Definition rd_fh_header : reader fh_header :=
  rd upper <- rd_int (FU LE 8);
  rd lower <- rd_int (FU LE 4);
  rd ttl <- rd_int (FU LE 1);
  rd collapsed <- rd_int (FU LE 1);
  rd u1 <- rd_int (FU LE 2);
  rd size <- rd_int (FU LE 2);
  rd private <- rd_int (FU LE 2);
  rd u2 <- rd_int (FU LE 2);
  rd stream <- rd_int (FU LE 1);
  rd u3 <- rd_int (FU LE 1);
  rd time <- rd_int (FU LE 8);
  rd_ret (mkfh upper lower size private time).

(** aul_tracev3.yaml tracev3_firehose_tracepoint. *)
Record tracepoint := mktp {
  tp_record : Z; tp_log : Z; tp_flags : Z; tp_format : Z; tp_thread : Z; tp_lower : Z; tp_upper : Z; tp_data : bytes }.

Definition rd_tracepoint : reader tracepoint := rd_aligned (
  rd record <- rd_int (FU LE 1);
  rd log <- rd_int (FU LE 1);
  rd flags <- rd_int (FU LE 2);
  rd format <- rd_int (FU LE 4);
  rd thread <- rd_int (FU LE 8);
  rd lower <- rd_int (FU LE 4);
  rd upper <- rd_int (FU LE 2);
  rd size <- rd_int (FU LE 2);
  rd data <- rd_bytes size;
  rd_ret (mktp record log flags format thread lower upper data)).

(** What a tracepoint contains: the members of tracev3_firehose_tracepoint_activity, _log, _signpost and
    _trace, [None] for members that are not there. *)
Record location := mkloc { lo_lower : Z; lo_large : option Z; lo_upper : option Z; lo_uuid : option bytes; lo_shared : option Z }.

Inductive body :=
| Activity (current pid other new : option Z) (l : location)
| Trace (l : location) (count : Z)
| Log (current : option Z) (private : option (Z * Z)) (l : location) (sub ttl ref : option Z) (items : list tv_item)
| Signpost (current : option Z) (private : option (Z * Z)) (l : location) (sub : option Z) (id : Z) (ttl ref name_lower name_upper : option Z) (items : list tv_item)
| Loss (start stop count : Z).

(** A member with a condition. *)
Definition rd_opt {A} (b : bool) (r : reader A) : reader (option A) :=
  if b then rd x <- r; rd_ret (Some x) else rd_ret None.

Definition has (flags mask : Z) : bool := negb (Z.land flags mask =? 0).
Definition file_type (flags : Z) : Z := Z.land flags 0x000e.

Definition rd_location (flags : Z) : reader location :=
  rd lower <- rd_int (FU LE 4);
  rd large <- rd_opt (has flags 0x0020) (rd_int (FU LE 2));
  rd upper <- rd_opt (file_type flags =? 0x0008) (rd_int (FU LE 2));
  rd uuid <- rd_opt (file_type flags =? 0x000a) (rd_bytes 16);
  rd shared <- rd_opt (file_type flags =? 0x000c) (rd_int (FU LE 2));
  rd_ret (mkloc lower large upper uuid shared).

Definition rd_range : reader (Z * Z) :=
  rd o <- rd_int (FU LE 2);
  rd n <- rd_int (FU LE 2);
  rd_ret (o, n).

Definition rd_items : reader (list tv_item) :=
  rd u <- rd_int (FU LE 1);
  rd n <- rd_int (FU LE 1);
  rd_times (Z.to_nat n) rd_item.

Definition rd_activity (log flags : Z) : reader body :=
  rd current <- rd_opt (has flags 0x0001) (rd_int (FU LE 8));
  rd pid <- rd_opt (has flags 0x0010) (rd_int (FU LE 8));
  rd other <- rd_opt (has flags 0x0200) (rd_int (FU LE 8));
  rd new <- rd_opt (negb (log =? 0x03)) (rd_int (FU LE 8));
  rd l <- rd_location flags;
  rd_ret (Activity current pid other new l).

Definition rd_log (flags : Z) : reader body :=
  rd current <- rd_opt (has flags 0x0001) (rd_int (FU LE 8));
  rd private <- rd_opt (has flags 0x0100) rd_range;
  rd l <- rd_location flags;
  rd sub <- rd_opt (has flags 0x0200) (rd_int (FU LE 2));
  rd ttl <- rd_opt (has flags 0x0400) (rd_int (FU LE 1));
  rd ref <- rd_opt (has flags 0x0800) (rd_int (FU LE 1));
  rd items <- rd_items;
  rd_ret (Log current private l sub ttl ref items).

Definition rd_signpost (flags : Z) : reader body :=
  rd current <- rd_opt (has flags 0x0001) (rd_int (FU LE 8));
  rd private <- rd_opt (has flags 0x0100) rd_range;
  rd l <- rd_location flags;
  rd sub <- rd_opt (has flags 0x0200) (rd_int (FU LE 2));
  rd id <- rd_int (FU LE 8);
  rd ttl <- rd_opt (has flags 0x0400) (rd_int (FU LE 1));
  rd ref <- rd_opt (has flags 0x0800) (rd_int (FU LE 1));
  rd name_lower <- rd_opt (has flags 0x8000) (rd_int (FU LE 4));
  rd name_upper <- rd_opt (Z.land flags 0x8020 =? 0x8020) (rd_int (FU LE 2));
  rd items <- rd_items;
  rd_ret (Signpost current private l sub id ttl ref name_lower name_upper items).

Definition rd_loss : reader body :=
  rd start <- rd_int (FU LE 8);
  rd stop <- rd_int (FU LE 8);
  rd count <- rd_int (FU LE 8);
  rd_ret (Loss start stop count).

(** The number of values of a trace is the last byte of the data, unified_logging.py:4545. *)
Definition rd_trace (data : bytes) : reader body :=
  rd lower <- rd_int (FU LE 4);
  rd_ret (Trace (mkloc lower None None None None) (last data 0)).

(** unified_logging.py:4345-4553: flags that are not supported are a ParseError, empty data is a
    ValueError (data_format.py:653-654); the result is the body and the number of bytes read. *)
Definition read_body (supported : Z) (r : reader body) (tp : tracepoint) : result (body * Z) :=
  do _ <- guard (Z.land (tp_flags tp) (Z.lnot supported) =? 0) ParseError;
  do _ <- guard (0 <? len (tp_data tp)) ValueError;
  r (tp_data tp) 0.

Definition one_of (v : Z) (l : list Z) : bool := existsb (Z.eqb v) l.

(** unified_logging.py:3948-4053: the data of a tracepoint that is not unused. *)
Definition tp_body (tp : tracepoint) : result (body * Z) :=
  let log_type l := guard (one_of (tp_log tp) l) ParseError in
  if tp_record tp =? 0x02 then
    do _ <- log_type [0x01; 0x03];
    read_body (Z.lor 0x0001 (Z.lor 0x000e (Z.lor 0x0010 (Z.lor 0x0020 (Z.lor 0x0100 0x0200))))) (rd_activity (tp_log tp) (tp_flags tp)) tp
  else if tp_record tp =? 0x03 then
    do _ <- log_type [0x00];
    read_body 0x0002 (rd_trace (tp_data tp)) tp
  else if tp_record tp =? 0x04 then
    do _ <- log_type [0x00; 0x01; 0x02; 0x10; 0x11];
    read_body (Z.lor 0x0001 (Z.lor 0x000e (Z.lor 0x0020 (Z.lor 0x0100 (Z.lor 0x0200 (Z.lor 0x0400 (Z.lor 0x0800 0x1000))))))) (rd_log (tp_flags tp)) tp
  else if tp_record tp =? 0x06 then
    do _ <- log_type [0x40; 0x41; 0x42; 0x80; 0x81; 0x82; 0xc0; 0xc1; 0xc2];
    read_body (Z.lor 0x0001 (Z.lor 0x000e (Z.lor 0x0020 (Z.lor 0x0100 (Z.lor 0x0200 (Z.lor 0x0400 (Z.lor 0x0800 0x8000))))))) (rd_signpost (tp_flags tp)) tp
  else
    do _ <- log_type [0x00];
    read_body 0x0000 rd_loss tp.

(** unified_logging.py:4055-4058. *)
Definition tp_time (h : fh_header) (tp : tracepoint) : Z := Z.lor (tp_lower tp) (Z.shiftl (tp_upper tp) 32) + fh_time h.

(** Records that set the variable private_data, unified_logging.py:4126-4133. *)
Definition sets_private (record : Z) : bool := one_of record [0x02; 0x04; 0x06].

(** What becomes of a tracepoint: the log entry, from the header, the process information, the tracepoint,
    its body and the data behind the body. [S] is the state of the file object. *)
Definition fh_entry (E S : Type) : Type := S -> fh_header -> option known -> tracepoint -> body -> bytes -> result (E * S).

(** unified_logging.py:3942-4299: the loop over the tracepoints; [bound] tells if the variable
    private_data has a value. The offset is a multiple of 8. *)
Fixpoint fh_walk {E S} (fuel : nat) (entry : fh_entry E S) (data : bytes) (h : fh_header) (k : option known) (off : Z) (bound : bool) (st : S) : gen E (S * bool) :=
  if off <? fh_size h then
    match fuel with
    | O => None
    | Datatypes.S fuel =>
        gdo (tp, n) <- gen_of (do _ <- guard (off <? len data) ValueError; rd_tracepoint (zskipn off data) 0);
        gdo _ <- gen_of (guard (one_of (tp_record tp) [0x00; 0x02; 0x03; 0x04; 0x06; 0x07]) ParseError);
        if tp_record tp =? 0x00 then fh_walk fuel entry data h k (off + n) bound st
        else
          gdo (b, read) <- gen_of (tp_body tp);
          gdo (e, st) <- gen_of (entry st h k tp b (pyslice_from (tp_data tp) read));
          gdo _ <- Some ([e], Ok tt);
          fh_walk fuel entry data h k (tv_align (off + 24 + len (tp_data tp))) (bound || sets_private (tp_record tp)) st
    end
  else gen_of (Ok (st, bound)).

(** unified_logging.py:3898-4307 [_ReadFirehoseChunkData]: the process information is looked up when
    there is a catalog; at the end the size of private_data is used. *)
Definition firehose {E S} (entry : fh_entry E S) (cat : option cat_state) (data : bytes) (st : S) : gen E S :=
  gdo h <- gen_of (do _ <- guard (0 <? len data) ValueError; rd_data rd_fh_header data);
  gdo k <- gen_of (match cat with
                   | None => Ok None
                   | Some cs => match find_process cs (fh_upper h) (fh_lower h) with Some k => Ok (Some k) | None => Err ParseError end
                   end);
  gdo (st, bound) <- fh_walk (length data) entry data h k 32 false st;
  gen_of (if bound then Ok st else Err UnboundLocalError).

(** The values and the backtrace of a firehose tracepoint.

    Source: /repo/documentation/Apple Unified Logging and Activity Tracing formats.asciidoc, sections
    "Firehose chunk", "Firehose tracepoint data item", "Firehose tracepoint backtrace data" and "Trace
    firehose tracepoint". *)

From Verif Require Import Base BaseFacts SeqSpec CoreModel TvModel TvSpec CatSpec FhModel FhSpec FvModel.
From Coq Require String.
Import String.StringSyntax.

(** ** Data items *)

(** The [size] bytes at [off], or what there is of them. *)
Definition part (data : bytes) (off size : Z) (d : bytes) : Prop :=
  (off <= len data -> available data off size d) /\ (len data < off -> d = []).

(** The data of an item: integers are in the item, strings and binary data in the values data or, if they
    are private, in the private data, where [poff] is added to the offsets. *)
Inductive item_data (values private : bytes) (poff : Z) : tv_item -> option bytes -> Prop :=
| id_number t d : In t [0; 2] -> item_data values private poff (TInline t d) (Some d)
| id_public t o n d : In t [32; 34; 48; 50; 64; 66; 242] -> part values o n d -> item_data values private poff (TRange t o n) (Some d)
| id_private t o n d : In t [33; 65] -> part private (poff + o) n d -> item_data values private poff (TRange t o n) (Some d)
| id_none t d : ~ In t [0; 2] -> item_data values private poff (TInline t d) None.

Definition kind (i : tv_item) : Z := match i with TRange t _ _ => t | TInline t _ => t end.

Definition private_kind (i : tv_item) : Prop := In (kind i) [1; 33; 37; 49; 53; 65; 69].

(** Items that give a precision are no values. *)
Definition is_value (i : tv_item) : bool := negb ((kind i =? 16) || (kind i =? 18)).

(** What an item is shown as. *)
Inductive item_shows (decode : Z -> option bytes -> result str) (values private : bytes) (poff index : Z) (i : tv_item) : result str -> Prop :=
| is_private data : item_data values private poff i data -> private_kind i -> data = None \/ data = Some [] ->
    item_shows decode values private poff index i (Ok (s2z "<private>"%string))
| is_decoded data : item_data values private poff i data -> ~ (private_kind i /\ (data = None \/ data = Some [])) ->
    item_shows decode values private poff index i (decode index data).

(** Every item that is a value is shown, with its index among the values. *)
Definition values_of (decode : Z -> option bytes -> result str) (values private : bytes) (poff : Z) (items : list tv_item) (vs : list str) : Prop :=
  let shown := filter is_value items in
  length vs = length shown /\
  forall k i v, nth_error shown k = Some i -> nth_error vs k = Some v -> item_shows decode values private poff (Z.of_nat k) i (Ok v).

(** The first value that cannot be shown. *)
Definition values_fail (decode : Z -> option bytes -> result str) (values private : bytes) (poff : Z) (items : list tv_item) (x : exn) : Prop :=
  let shown := filter is_value items in
  exists k i, nth_error shown k = Some i /\ item_shows decode values private poff (Z.of_nat k) i (Err x) /\
    forall j i', (j < k)%nat -> nth_error shown j = Some i' -> exists v, item_shows decode values private poff (Z.of_nat j) i' (Ok v).

(** Ranges as they occur in data items. *)
Definition item_wf (poff : Z) (i : tv_item) : Prop :=
  match i with
  | TRange t o n => by_range t /\ 0 <= o /\ 0 <= n /\ (In t [33; 65] -> 0 <= poff + o)
  | TInline t d => ~ by_range t
  end.

(** ** Backtraces *)

Definition backtrace_bytes (ids : list bytes) (offsets indexes : list Z) (d : bytes) : Prop :=
  len indexes = len offsets /\ Forall (fun u => len u = 16) ids /\ Forall n32 offsets /\ Forall n8 indexes /\
  fields [any i16; any i8; i8 (len ids); i8 (len offsets); any i8; eq (concat ids); eq (concat (map (le_enc 4) offsets)); eq indexes] d.

(** The image of a frame: index 255 stands for none. *)
Inductive image_of (ids : list bytes) (i : Z) : option bytes -> Prop :=
| im_none : i = 255 -> image_of ids i (Some (repeat 0 16))
| im_id u pre post : i <> 255 -> ids = pre ++ u :: post -> len pre = i -> image_of ids i (Some u)
| im_missing : i <> 255 -> len ids <= i -> image_of ids i None.

Definition frames_of (ids : list bytes) (offsets indexes : list Z) (fs : list (bytes * Z)) : Prop :=
  map snd fs = offsets /\ Forall2 (fun i f => image_of ids i (Some (fst f))) indexes fs.

(** ** Where the data comes from *)

(** The private data of a chunk is at its end. *)
Definition private_of (h : fh_header) (chunk private : bytes) : Prop :=
  (fh_private h mod 4096 = 0 -> private = []) /\
  (fh_private h mod 4096 <> 0 -> exists pre, chunk = pre ++ private /\ len private = Z.min (4096 - fh_private h mod 4096) (len chunk)).

(** Items, values data and private data: those of the tracepoint, or those of an oversize chunk if it
    has a reference. *)
Inductive selected (oversize : Z -> option oversize) (own : list tv_item) (ref : option Z) (values private : bytes) : list tv_item -> bytes -> bytes -> Prop :=
| se_own : ref = None \/ ref = Some 0 -> selected oversize own ref values private own values private
| se_oversize r o : ref = Some r -> r <> 0 -> oversize r = Some o -> selected oversize own ref values private (ov_items o) (ov_values o) (ov_private o)
| se_missing r : ref = Some r -> r <> 0 -> oversize r = None -> selected oversize own ref values private [] values private.

(** Log messages and signposts: items, reference and offset of the private data. *)
Inductive message (h : fh_header) : body -> list tv_item -> option Z -> Z -> Prop :=
| me_log c l s t r i : message h (Log c None l s t r i) i r 0
| me_log_private c o n l s t r i : message h (Log c (Some (o, n)) l s t r i) i r (o - fh_private h mod 4096)
| me_signpost c l s id t r nl nu i : message h (Signpost c None l s id t r nl nu i) i r 0
| me_signpost_private c o n l s id t r nl nu i : message h (Signpost c (Some (o, n)) l s id t r nl nu i) i r (o - fh_private h mod 4096).

(** The backtrace of values data. *)
Definition backtrace_of (flags : Z) (values : bytes) (fs : list (bytes * Z)) : Prop :=
  (~ flag flags 12 -> fs = []) /\
  (flag flags 12 -> exists ids offsets indexes d rest, values = d ++ rest /\ backtrace_bytes ids offsets indexes d /\ frames_of ids offsets indexes fs).

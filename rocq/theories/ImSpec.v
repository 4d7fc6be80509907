(** The format string and the image of a firehose tracepoint.

    Source: /repo/documentation/Apple Unified Logging and Activity Tracing formats.asciidoc, sections
    "Firehose tracepoint string reference", "Firehose tracepoint strings file type" and "Catalog process
    information UUID information entry". Strings and images in uuidtext and DSC files: C41. *)

From Verif Require Import Base BaseFacts CoreModel AulModel CatModel FhModel ImModel.
From Coq Require String.
Import String.StringSyntax.

(** ** References and addresses *)

(** The first value that is there and not 0, or 0. *)
Inductive first_set : list (option Z) -> Z -> Prop :=
| fs_none : first_set [] 0
| fs_this v l : v <> 0 -> first_set (Some v :: l) v
| fs_next o l v : o = None \/ o = Some 0 -> first_set l v -> first_set (o :: l) v.

(** A reference has 31 bits in the lower part, the others are in the upper part; the most significant
    bit of the lower part tells if the string is dynamic. *)
Definition reference (lower upper : Z) (r : Z) (dynamic : bool) : Prop :=
  r = lower mod 2 ^ 31 + 2 ^ 31 * upper /\ (dynamic = true <-> 2 ^ 31 <= lower).

(** The bits of [a] and those of [b] from bit [s] on. *)
Definition joined (a s b c : Z) : Prop :=
  forall i, 0 <= i -> Z.testbit c i = true <-> Z.testbit a i = true \/ (s <= i /\ Z.testbit b (i - s) = true).

Definition not_set (o : option Z) : Prop := o = None \/ o = Some 0.

Inductive load_address (loc : location) : Z -> Prop :=
| la_plain upper : not_set (lo_shared loc) -> not_set (lo_large loc) -> first_set [lo_upper loc] upper ->
    load_address loc (lo_lower loc + 2 ^ 32 * upper)
| la_large v a upper : not_set (lo_shared loc) -> lo_large loc = Some v -> v <> 0 -> first_set [lo_upper loc] upper ->
    joined (lo_lower loc + 2 ^ 32 * upper) 31 v a -> load_address loc a
| la_shared v a upper : lo_shared loc = Some v -> v <> 0 -> not_set (lo_large loc) \/ lo_large loc = Some (v / 2) -> first_set [lo_upper loc] upper ->
    joined (lo_lower loc + 2 ^ 32 * upper) 31 v a -> load_address loc a
| la_invalid v w a upper : lo_shared loc = Some v -> v <> 0 -> lo_large loc = Some w -> w <> 0 -> w <> v / 2 -> first_set [lo_upper loc] upper ->
    joined (lo_lower loc + 2 ^ 32 * upper) 32 w a -> load_address loc a.

(** Values as they can be stored. *)
Definition opt_in (n : Z) (o : option Z) : Prop := match o with Some v => 0 <= v < 2 ^ n | None => True end.
Definition stored_location (loc : location) : Prop :=
  0 <= lo_lower loc < 2 ^ 32 /\ opt_in 16 (lo_large loc) /\ opt_in 16 (lo_upper loc) /\ opt_in 16 (lo_shared loc).

(** ** Files *)

(** The hexadecimal digits of the bytes. *)
Inductive hex_of : bytes -> str -> Prop :=
| hx_nil : hex_of [] []
| hx_cons b l s c d : hex_of l s -> nth_error (s2z "0123456789ABCDEF"%string) (Z.to_nat (b / 16)) = Some c ->
    nth_error (s2z "0123456789ABCDEF"%string) (Z.to_nat (b mod 16)) = Some d -> hex_of (b :: l) (c :: d :: s).

(** The uuidtext and DSC files of a UUID, as they can be read. *)
Inductive text_file (utf8 : bytes -> option str) (fs : list str -> option bytes) (u : bytes) : option ut_file -> Prop :=
| tf_none c d s : hex_of u (c :: d :: s) -> fs [[c; d]; s] = None -> text_file utf8 fs u None
| tf_file c d s content es path : hex_of u (c :: d :: s) -> fs [[c; d]; s] = Some content -> read_uuidtext utf8 content = Ok (es, path) ->
    text_file utf8 fs u (Some (mkuf content es path)).

Inductive shared_file (utf8 : bytes -> option str) (fs : list str -> option bytes) (u : bytes) : option dsc_file -> Prop :=
| sf_none s : hex_of u s -> fs [s2z "dsc"%string; s] = None -> shared_file utf8 fs u None
| sf_file s content l : hex_of u s -> fs [s2z "dsc"%string; s] = Some content -> read_dsc utf8 content = Ok l ->
    shared_file utf8 fs u (Some (mkdf content l)).

(** ** Requests *)

Record request := mkrq { rq_uuids : list bytes; rq_flags : Z; rq_process : option known; rq_loc : location; rq_ref : Z; rq_dynamic : bool }.

(** The strings file type: bits 1, 2 and 3 of the flags. *)
Definition type_bits (flags : Z) (b1 b2 b3 : bool) : Prop :=
  Z.testbit flags 1 = b1 /\ Z.testbit flags 2 = b2 /\ Z.testbit flags 3 = b3.

(** An address in an image, or directly behind it. *)
Definition entry_has (upper lower : Z) (e : uuid_entry) : Prop :=
  ue_upper e = upper /\ ue_lower e <= lower < ue_lower e + ue_size e.
Definition entry_ends (upper lower : Z) (e : uuid_entry) : Prop := ue_upper e = upper /\ lower = ue_lower e + ue_size e.

(** The strings file of a request and the text offset. *)
Inductive strings_of (q : request) : option (bytes * Z) -> Prop :=
| so_main k u : type_bits (rq_flags q) true false false -> rq_process q = Some k -> kn_main k = Some u -> strings_of q (Some (u, 0))
| so_dsc b k u : type_bits (rq_flags q) false true b -> rq_process q = Some k -> kn_dsc k = Some u -> strings_of q (Some (u, 0))
| so_absolute k pre e post u upper : type_bits (rq_flags q) false false true -> rq_process q = Some k -> first_set [lo_upper (rq_loc q)] upper ->
    pr_uuids (kn_process k) = pre ++ e :: post -> entry_has upper (lo_lower (rq_loc q)) e \/ entry_ends upper (lo_lower (rq_loc q)) e ->
    Forall (fun e => ~ entry_has upper (lo_lower (rq_loc q)) e /\ ~ entry_ends upper (lo_lower (rq_loc q)) e) pre ->
    nth_error (rq_uuids q) (Z.to_nat (ue_index e)) = Some u -> strings_of q (Some (u, ue_lower e + 2 ^ 32 * ue_upper e))
| so_nowhere k upper : type_bits (rq_flags q) false false true -> rq_process q = Some k -> first_set [lo_upper (rq_loc q)] upper ->
    Forall (fun e => ~ entry_has upper (lo_lower (rq_loc q)) e /\ ~ entry_ends upper (lo_lower (rq_loc q)) e) (pr_uuids (kn_process k)) ->
    strings_of q None
| so_own u : type_bits (rq_flags q) true false true -> lo_uuid (rq_loc q) = Some u -> strings_of q (Some (u, 0)).

(** The stored code pointer does not agree with the shared cache. *)
Definition invalid_pointer (loc : location) : Prop :=
  exists v w, lo_shared loc = Some v /\ v <> 0 /\ lo_large loc = Some w /\ w <> 0 /\ w <> v / 2.

Definition by_dsc (flags : Z) : Prop := exists b, type_bits flags false true b.

(** The image of a request. *)
Inductive image_for (utf8 : bytes -> option str) (fs : list str -> option bytes) (q : request) (u : bytes) (text : Z) : image -> Prop :=
| if_missing : ~ by_dsc (rq_flags q) -> text_file utf8 fs u None -> image_for utf8 fs q u text (mkim u None None text)
| if_dynamic f : ~ by_dsc (rq_flags q) -> text_file utf8 fs u (Some f) -> rq_dynamic q = true ->
    image_for utf8 fs q u text (mkim u (Some (uf_path f)) (Some (s2z "%s"%string)) text)
| if_string f s : ~ by_dsc (rq_flags q) -> text_file utf8 fs u (Some f) -> rq_dynamic q = false -> get_string utf8 (uf_content f) (uf_entries f) (rq_ref q) = Ok (Some s) ->
    image_for utf8 fs q u text (mkim u (Some (uf_path f)) (Some s) text)
| if_bounds f v : ~ by_dsc (rq_flags q) -> text_file utf8 fs u (Some f) -> rq_dynamic q = false -> get_string utf8 (uf_content f) (uf_entries f) (rq_ref q) = Ok None ->
    first_set [lo_large (rq_loc q)] v -> image_for utf8 fs q u text (mkim u (Some (uf_path f)) None (2 ^ 31 * v))
| if_shared f v : by_dsc (rq_flags q) -> ~ invalid_pointer (rq_loc q) -> shared_file utf8 fs u (Some f) ->
    get_image_values utf8 (df_content f) (df_ranges f) (rq_ref q) (rq_dynamic q) = Ok (Some v) ->
    image_for utf8 fs q u text (mkim (iv_id v) (Some (iv_path v)) (Some (iv_string v)) (iv_text_offset v))
| if_not_shared f : by_dsc (rq_flags q) -> ~ invalid_pointer (rq_loc q) -> shared_file utf8 fs u (Some f) ->
    get_image_values utf8 (df_content f) (df_ranges f) (rq_ref q) (rq_dynamic q) = Ok None -> image_for utf8 fs q u text (mkim u None None text)
| if_no_cache : by_dsc (rq_flags q) -> ~ invalid_pointer (rq_loc q) -> shared_file utf8 fs u None -> image_for utf8 fs q u text (mkim u None None text)
| if_invalid f v : by_dsc (rq_flags q) -> invalid_pointer (rq_loc q) -> shared_file utf8 fs u (Some f) ->
    get_image_values utf8 (df_content f) (df_ranges f) (rq_ref q) (rq_dynamic q) = Ok v ->
    image_for utf8 fs q u text (mkim u (Some []) (match v with Some v => Some (iv_string v) | None => None end) 0)
| if_invalid_none : by_dsc (rq_flags q) -> invalid_pointer (rq_loc q) -> shared_file utf8 fs u None -> image_for utf8 fs q u text (mkim u (Some []) None 0).

(** What one request after the other gives. *)
Fixpoint requests (utf8 : bytes -> option str) (fs : list str -> option bytes) (l : list request) (st : caches) : result (list (option image) * caches) :=
  match l with
  | [] => Ok ([], st)
  | q :: l =>
      do (i, st) <- get_image utf8 fs (rq_uuids q) (rq_process q) (rq_flags q) (rq_loc q) (rq_ref q) (rq_dynamic q) st;
      do (is, st) <- requests utf8 fs l st;
      Ok (i :: is, st)
  end.

(** Requests for which the same image is right: same kind of file, same text offset, and same other
    values. *)
Definition alike (q q' : request) (text text' : Z) : Prop :=
  (by_dsc (rq_flags q) <-> by_dsc (rq_flags q')) /\ text = text' /\ rq_dynamic q = rq_dynamic q' /\
  lo_large (rq_loc q) = lo_large (rq_loc q') /\ lo_shared (rq_loc q) = lo_shared (rq_loc q').

Definition is_uuid (u : bytes) : Prop := is_bytes u /\ len u = 16.
Definition opt_uuid (o : option bytes) : Prop := match o with Some u => is_uuid u | None => True end.

Definition stored_entry (e : uuid_entry) : Prop := 0 <= ue_index e /\ 0 <= ue_size e /\ 0 <= ue_lower e < 2 ^ 32.

(** A request as it can be stored. *)
Definition stored_request (q : request) : Prop :=
  Forall is_uuid (rq_uuids q) /\ opt_uuid (lo_uuid (rq_loc q)) /\ 0 <= rq_ref q /\
  match rq_process q with
  | Some k => opt_uuid (kn_main k) /\ opt_uuid (kn_dsc k) /\ Forall stored_entry (pr_uuids (kn_process k))
  | None => True
  end.

(** What a request gives: nothing if there is no strings file, otherwise the image of one of the requests
    [earlier] with the same identifier and reference. *)
Definition gives (utf8 : bytes -> option str) (fs : list str -> option bytes) (earlier : request -> Prop) (q : request) (o : option image) : Prop :=
  match o with
  | None => strings_of q None
  | Some i => exists u text q' text', strings_of q (Some (u, text)) /\ earlier q' /\ strings_of q' (Some (u, text')) /\
      rq_ref q' = rq_ref q /\ image_for utf8 fs q' u text' i
  end.

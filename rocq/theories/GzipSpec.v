(** Independent description of gzip members and of the zlib stream contract. *)

From Verif Require Import Base BaseFacts GzipModel.

Record gzmember := mkgz {
  z_mtime : Z; z_xfl : Z; z_os : Z; z_ftext : bool;
  z_extra : option bytes; z_name : option bytes; z_comment : option bytes; z_hcrc : option bytes;
  z_compressed : bytes; z_payload : bytes; z_crc : Z }.

Definition bit (b : bool) (v : Z) : Z := if b then v else 0.
Definition present {A} (o : option A) : bool := match o with Some _ => true | None => false end.
Definition cstr (o : option bytes) : bytes := match o with Some s => s ++ [0] | None => [] end.

(** RFC 1952. *)
Definition gz_flags (m : gzmember) : Z :=
  bit (z_ftext m) 1 + bit (present (z_hcrc m)) 2 + bit (present (z_extra m)) 4 +
  bit (present (z_name m)) 8 + bit (present (z_comment m)) 16.

Definition gz_header (m : gzmember) : bytes :=
  [31; 139; 8; gz_flags m] ++ le_enc 4 (z_mtime m) ++ [z_xfl m; z_os m] ++
  (match z_extra m with Some x => le_enc 2 (len x) ++ x | None => [] end) ++
  cstr (z_name m) ++ cstr (z_comment m) ++
  (match z_hcrc m with Some x => x | None => [] end).

Definition gz_footer (m : gzmember) : bytes :=
  le_enc 4 (z_crc m) ++ le_enc 4 (len (z_payload m) mod 4294967296).

Definition gz_member (m : gzmember) : bytes := gz_header m ++ z_compressed m ++ gz_footer m.

Definition no_nul (o : option bytes) : Prop :=
  match o with Some s => ~ In 0 s | None => True end.

Definition gz_ok (m : gzmember) : Prop :=
  is_byte (z_xfl m) /\ is_byte (z_os m) /\ 0 <= z_crc m < 4294967296 /\
  match z_extra m with Some x => len x < 65536 | None => True end /\
  no_nul (z_name m) /\ no_nul (z_comment m) /\
  match z_hcrc m with Some x => len x = 2 | None => True end.

(** The contract of zlib.decompressobj for a complete stream [c] that inflates to
    [payload]: [out p] is the output that is determined by the first bytes [p] of the
    stream; output of a call is what the new input adds; bytes behind the end of the
    stream are not consumed but collected in [unused_data]; afterwards nothing is output. *)
Record inflates (d : decomp) (c payload : bytes) (out : bytes -> bytes) : Prop := mkinflates {
  inf_nonempty : c <> [];
  inf_start : out [] = [];
  inf_end : out c = payload;
  inf_inside : forall calls y q, c = concat calls ++ y ++ q ->
    exists r, out (concat calls ++ y) = out (concat calls) ++ r /\ d_step d calls y = Ok r /\
              d_unused d (calls ++ [y]) = [];
  inf_last : forall calls x y u, c = concat calls ++ x -> x <> [] -> y = x ++ u ->
    exists r, out c = out (concat calls) ++ r /\ d_step d calls y = Ok r /\
              d_unused d (calls ++ [y]) = u;
  inf_after : forall calls u y, concat calls = c ++ u -> d_step d calls y = Ok [] }.

(** Every buffer of the stream produces output. *)
Definition every_buffer_outputs (buf : Z) (c : bytes) (out : bytes -> bytes) : Prop :=
  forall i, 0 <= i -> i * buf < len c ->
    out (zfirstn (i * buf) c) <> out (zfirstn ((i + 1) * buf) c).

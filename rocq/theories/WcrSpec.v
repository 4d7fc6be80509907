(** The node cells of a repository file.

    Source: /repo/documentation/WMI repository file format.asciidoc, section "The repository file
    (cim.rep)": file header, node bin header and node cell. *)

From Verif Require Import Base BaseFacts SeqSpec CoreModel TvSpec FhSpec WcrModel.

(** The file header with the numbers of two cells and the size of the first node bin. *)
Definition rheader_bytes (h : rheader) (d : bytes) : Prop :=
  fields [i32 (rh_system h); i32 (rh_root h); any i32; any i32; any i32; any i32; any i32; any i32; any i32; i32 (rh_bin h)] d.

(** A node cell: a size and data. The size includes the 4 bytes of the size; its upper 5 bits do not count. A
    size of 0 and one with only upper bits has no data. *)
Definition cell_bytes (size : Z) (data : bytes) (d : bytes) : Prop :=
  fields [i32 size; eq data] d /\ (size mod 2 ^ 27 = len data + 4 \/ size mod 2 ^ 27 = 0 /\ data = []).

(** A new node bin begins where the one before ends. *)
Inductive bin_at (content : bytes) : Z -> Z -> Z -> Z -> Prop :=
| ba_same off next : off <> next -> bin_at content off next off next
| ba_new off size d : i32 size d -> stored_at content off d -> bin_at content off off (off + 4) (off + size).

(** After [n] cells in use the file goes on at [off] and the node bin ends at [next]; [first] is where the
    first one ends. *)
Inductive after_cells (content : bytes) (first : Z) : Z -> Z -> Z -> Prop :=
| ac_start : after_cells content first 0 40 first
| ac_cell n off next off' next' size data d :
    after_cells content first n off next -> off < len content -> bin_at content off next off' next' ->
    stored_at content off' d -> cell_bytes size data d -> size <> 0 ->
    after_cells content first (n + 1) (off' + size mod 2 ^ 27) next'.

(** Cell number [n] has its data at an offset. *)
Definition cell_number (content : bytes) (first n at_ : Z) : Prop :=
  exists off next off' next' size data d,
    after_cells content first n off next /\ off < len content /\ bin_at content off next off' next' /\
    stored_at content off' d /\ cell_bytes size data d /\ size <> 0 /\ at_ = off' + 4.

(** There are [n] cells in use. *)
Definition number_of_cells (content : bytes) (first n : Z) : Prop :=
  exists off next, after_cells content first n off next /\
    (len content <= off \/
     off < len content /\ exists off' next' data d, bin_at content off next off' next' /\ stored_at content off' d /\ cell_bytes 0 data d).

(** The offset of a cell if there is one with this number. *)
Definition cell_or_none (content : bytes) (first n number : Z) (o : option Z) : Prop :=
  match o with Some a => cell_number content first number a | None => n <= number end.

(** What is found: the offsets of two cells, that of the system class only if it is not the same cell. All
    cells up to the later of the two are looked at. *)
Definition found (content : bytes) (h : rheader) (root system : option Z) : Prop :=
  (exists a b, root = Some a /\ system = Some b /\ rh_root h <> rh_system h /\
     cell_number content (rh_bin h) (rh_root h) a /\ cell_number content (rh_bin h) (rh_system h) b) \/
  (exists n, number_of_cells content (rh_bin h) n /\ cell_or_none content (rh_bin h) n (rh_root h) root /\
     (rh_root h <> rh_system h -> cell_or_none content (rh_bin h) n (rh_system h) system) /\ (rh_root h = rh_system h -> system = None)).

(** Every cell in use has a size besides its upper bits. *)
Definition sized (content : bytes) (first : Z) : Prop :=
  forall n off next off' next' size data d,
    after_cells content first n off next -> off < len content -> bin_at content off next off' next' ->
    stored_at content off' d -> cell_bytes size data d -> size mod 2 ^ 27 = 0 -> size = 0.

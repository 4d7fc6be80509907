(** Model of the node cells of the repository file of a WMI repository (cim.rep).

    The file is read without debug output. *)

From Verif Require Import Base CoreModel SeqModel StrModel DictModel RdModel WcdModel.

(** wmi_repository.yaml cim_rep_file_header: what is used of it. *)
Record rheader := mkrh { rh_system : Z; rh_root : Z; rh_bin : Z }.

(** [n] 32-bit integers one after the other. *)
Definition rd_words (n : nat) : reader (list Z) := rd_times n (rd_int (FU LE 4)).

Definition word (l : list Z) (i : nat) : Z := nth i l 0.

(** The members: system_class_cell_number, root_namespace_cell_number, data_size, unknown1, unknown2,
    unused_space_offset, unknown3, unknown4, unknown5, node_bin_size. *)
Definition rd_rheader : reader rheader :=
  rd l <- rd_words 10;
  rd_ret (mkrh (word l 0) (word l 1) (word l 9)).

(** [size & 0x7ffffff] *)
Definition cell_size (size : Z) : Z := Z.land size 0x7ffffff.

(** wmi_repository.yaml cim_rep_node_cell; wmi_repository.py:1679-1713 [_ReadNodeCell]. *)
Definition rd_cell : reader (Z * bytes) :=
  rd size <- rd_int (FU LE 4);
  rd data <- rd_bytes (if cell_size size =? 0 then 0 else cell_size size - 4);
  rd_ret (size, data).

(** wmi_repository.py:2112-2116: a node bin header at the end of a node bin; wmi_repository.yaml
    cim_rep_node_bin_header. *)
Definition next_bin (content : bytes) (off next : Z) : result (Z * Z) :=
  if off =? next then do (size, _) <- rd_int (FU LE 4) content off; Ok (off + 4, next + size) else Ok (off, next).

(** wmi_repository.py:2111-2137: the loop over the node cells; [root] and [system] are the offsets of the
    nodes that were found. *)
Fixpoint find_cells (fuel : nat) (content : bytes) (h : rheader) (off number next : Z) (root system : option Z) : run (option Z * option Z) :=
  if off <? len content then
    match fuel with
    | O => OutOfFuel
    | S fuel =>
        rdo (off, next) <- Done (next_bin content off next);
        rdo (cell, p) <- Done (rd_cell content off);
        if fst cell =? 0 then Done (Ok (root, system))
        else
          let is_root := rh_root h =? number in
          let root := if is_root then Some (off + 4) else root in
          let system := if negb is_root && (rh_system h =? number) then Some (off + 4) else system in
          match root, system with
          | Some _, Some _ => Done (Ok (root, system))
          | _, _ => find_cells fuel content h (off + cell_size (fst cell)) (number + 1) next root system
          end
    end
  else Done (Ok (root, system)).

(** wmi_repository.py:2087-2137 [ReadFileObject]: the offsets of the root namespace node and of the system
    class definition root node. *)
Definition rep_file (fuel : nat) (content : bytes) : run (option Z * option Z) :=
  rdo (h, p) <- Done (rd_rheader content 0);
  find_cells fuel content h 40 0 (rh_bin h) None None.

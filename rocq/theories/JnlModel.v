(** Model of the systemd journal file reader.

    Source: /repo/dtformats/systemd.py, /repo/dtformats/systemd.yaml. *)

From Verif Require Import Base CoreModel SeqModel DictModel MemModel.
From Coq Require String.
Import String.StringSyntax.

Definition u64 : mem := MInt (FU LE 8).

(** systemd.yaml:44-109 [systemd_journal_file_header]. Members 9 and 20 are the header size and
    the offset of the first entry array. *)
Definition sd_header : list mem :=
  [MText (list_eqb (s2z "LPKSHHRH")) (fun _ => 8); MInt (FU LE 4); MInt (FU LE 4); MInt (FU LE 1); MData (fun _ => 7);
   MData (fun _ => 16); MData (fun _ => 16); MData (fun _ => 16); MData (fun _ => 16)] ++ repeat u64 15.

(** systemd.yaml:111-125: type, flags, reserved and size of an object. *)
Definition sd_object : list mem := [MInt (FU LE 1); MInt (FU LE 1); MData (fun _ => 6); u64].

(** A sequence of elements of [n] bytes, [k] integers each, that takes the rest of an object of
    which [fixed] bytes come before: a remainder is ignored, but has to be in the file when
    there are elements. *)
Definition sd_rest (fixed n : Z) (k : Z) : list mem :=
  [MInts (FU LE 8) (fun vs => (mint 3 vs - fixed) / n * k);
   MData (fun vs => if n <=? mint 3 vs - fixed then (mint 3 vs - fixed) mod n else 0)].

(** systemd.yaml:127-157, 159-199, 201-221: the members behind the object header. *)
Definition sd_data : list mem := repeat u64 6 ++ [MData (fun vs => mint 3 vs - 64)].
Definition sd_entry : list mem := [u64; u64; u64; MData (fun _ => 16); u64] ++ sd_rest 64 16 2.
Definition sd_array : list mem := [u64] ++ sd_rest 24 8 1.

(** data_format.py:671-742 [_ReadStructureFromFileObject]: the file object cannot move to a position,
    nor read a size, that does not fit into 63 bits ([big] is what it then raises for positions:
    OverflowError or ValueError). The size is known after the fixed-size members. *)
Definition sd_read (big : exn) (content : bytes) (off fixed : Z) (ms : list mem) : result (list mval) :=
  do _ <- guard (off <? 2 ^ 63) big;
  do (vs, pos) <- read_mems content off [] sd_object;
  do _ <- guard (off + fixed <=? len content) ParseError;
  do _ <- guard (mint 3 vs - fixed <? 2 ^ 63) OverflowError;
  do (vs, _) <- read_mems content pos vs ms;
  Ok vs.

(** The list of integers of member [i]. *)
Definition mlist (i : nat) (vs : list mval) : list Z := match nth_error vs i with Some (ML l) => l | _ => [] end.

(** systemd.py:193-235 [_ReadEntryArrayObject]: the next offset and the entry object offsets. *)
Definition read_sd_array (big : exn) (content : bytes) (off : Z) : result (Z * list Z) :=
  do vs <- sd_read big content off 24 sd_array;
  do _ <- guard (mint 0 vs =? 6) ParseError;
  do _ <- guard (mint 1 vs =? 0) ParseError;
  Ok (mint 4 vs, mlist 5 vs).

(** The data of member [i]. *)
Definition mdata (i : nat) (vs : list mval) : bytes := match nth_error vs i with Some (MB d) => d | _ => [] end.

Record sd_dat := mkdat { d_flags : Z; d_hash : Z; d_next_hash : Z; d_next_field : Z; d_entry : Z; d_array : Z; d_number : Z; d_payload : bytes }.

(** systemd.py:145-191 [_ReadDataObject]: its values without the reserved ones. *)
Definition read_sd_data (big : exn) (content : bytes) (off : Z) : result sd_dat :=
  do vs <- sd_read big content off 64 sd_data;
  do _ <- guard (mint 0 vs =? 1) ParseError;
  do _ <- guard ((mint 1 vs =? 0) || (mint 1 vs =? 1) || (mint 1 vs =? 2)) ParseError;
  Ok (mkdat (mint 1 vs) (mint 4 vs) (mint 5 vs) (mint 6 vs) (mint 7 vs) (mint 8 vs) (mint 9 vs) (mdata 10 vs)).

(** Pairs of an offset and a hash. *)
Fixpoint pairs (l : list Z) : list (Z * Z) :=
  match l with
  | o :: h :: l => (o, h) :: pairs l
  | _ => []
  end.

Record sd_ent := mkent { n_sequence : Z; n_real : Z; n_monotonic : Z; n_boot : bytes; n_xor : Z; n_items : list (Z * Z) }.

(** systemd.py:237-279 [_ReadEntryObject]: its values without the reserved ones. *)
Definition read_sd_entry (big : exn) (content : bytes) (off : Z) : result sd_ent :=
  do vs <- sd_read big content off 64 sd_entry;
  do _ <- guard (mint 0 vs =? 3) ParseError;
  do _ <- guard (mint 1 vs =? 0) ParseError;
  Ok (mkent (mint 4 vs) (mint 5 vs) (mint 6 vs) (mdata 7 vs) (mint 8 vs) (pairs (mlist 9 vs))).

(** systemd.py:281-315 [_ReadFileHeader]. *)
Definition read_sd_header (content : bytes) : result Z :=
  do (vs, _) <- read_mems content 0 [] sd_header;
  do _ <- guard (existsb (Z.eqb (mint 9 vs)) [208; 224; 240]) ParseError;
  Ok (mint 20 vs).

(** systemd.py:355-363: the entry arrays from the one at an offset. *)
Fixpoint read_sd_arrays (fuel : nat) (big : exn) (content : bytes) (off : Z) : run (list Z) :=
  match fuel with
  | O => OutOfFuel
  | S fuel =>
      match read_sd_array big content off with
      | Err e => Done (Err e)
      | Ok (next, l) =>
          if next =? 0 then Done (Ok l)
          else rdo r <- read_sd_arrays fuel big content next; Done (Ok (l ++ r))
      end
  end.

(** systemd.py:365-374: the entries and their data objects. *)
Definition read_sd_entries (big : exn) (content : bytes) (offs : list Z) : result (list (sd_ent * list sd_dat)) :=
  mapr (fun o => do n <- read_sd_entry big content o;
                 do ds <- mapr (fun p => read_sd_data big content (fst p)) (n_items n);
                 Ok (n, ds))
       (filter (fun o => negb (o =? 0)) offs).

(** systemd.py:345-374 [ReadFileObject]: the entries with their data objects. *)
Definition read_sd (fuel : nat) (big : exn) (content : bytes) : run (list (sd_ent * list sd_dat)) :=
  match read_sd_header content with
  | Err e => Done (Err e)
  | Ok first =>
      rdo offs <- read_sd_arrays fuel big content first;
      Done (read_sd_entries big content offs)
  end.

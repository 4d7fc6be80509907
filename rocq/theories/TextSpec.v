(** Independent specification of the text renderings. *)

From Verif Require Import Base StrModel TextModel.

(** ** Reading a hexadecimal dump back *)

(** Column position of the i-th byte value in the 48-character byte column. *)
Definition cell_pos (i : nat) : nat := 3 * i + (if Nat.leb 8 i then 1 else 0).

Definition read_cell (column : str) (i : nat) : option Z :=
  match nth_error column (cell_pos i), nth_error column (S (cell_pos i)) with
  | Some a, Some b =>
      match char_digit a, char_digit b with
      | Some x, Some y => Some (16 * x + y)
      | _, _ => None
      end
  | _, _ => None
  end.

(** Byte values up to the first blank cell. *)
Fixpoint read_cells (column : str) (cells : list nat) : bytes :=
  match cells with
  | [] => []
  | i :: r => match read_cell column i with
              | Some b => b :: read_cells column r
              | None => []
              end
  end.

Fixpoint take_word (s : str) : str * str :=
  match s with
  | [] => ([], [])
  | c :: r => if c =? 32 then ([], s) else let (w, t) := take_word r in (c :: w, t)
  end.

(** "0x" offset, two blanks, byte column. *)
Definition read_line (line : str) : option (Z * bytes) :=
  match line with
  | 48 :: 120 :: rest =>
      let (w, t) := take_word rest in
      match parse_nat 16 w with
      | Some off => Some (off, read_cells (firstn 48 (skipn 2 t)) (seq 0 16))
      | None => None
      end
  | _ => None
  end.

Fixpoint repeat_block (n : nat) (b : bytes) : bytes :=
  match n with O => [] | S k => b ++ repeat_block k b end.

(** [last] is the block of the previous data line, [pending] says that "..." was seen:
    the previous block repeats up to the next offset. *)
Fixpoint read_dump (lines : list str) (acc last : bytes) (pending : bool) : option bytes :=
  match lines with
  | [] => None
  | [] :: rest => if pending then None
                  else match rest with [[]] => Some acc | _ => None end
  | line :: rest =>
      if list_eqb line [46; 46; 46] then read_dump rest acc last true
      else match read_line line with
           | Some (off, block) =>
               let fill := if pending then repeat_block (Z.to_nat ((off - len acc) / 16)) last
                           else [] in
               if off =? len (acc ++ fill) then read_dump rest (acc ++ fill ++ block) block false
               else None
           | None => None
           end
  end.

Definition decode_hexdump (text : str) : option bytes :=
  read_dump (split_on 10 text) [] [] false.

(** ** Layout of a dump *)

(** Items of a dump: a printed block (by number) or an abbreviation. *)
Inductive item := IBlock (k : nat) | IGap.

Definition block (data : bytes) (k : nat) : bytes := firstn 16 (skipn (16 * k) data).

(** [items_from k items]: the items print the blocks from number [k] on, in order; a gap
    stands for one or more blocks that are equal to the block before it, and is followed by
    a printed block. *)
Inductive items_from (data : bytes) (n : nat) : nat -> list item -> Prop :=
| items_end : items_from data n n []
| items_block k l : (k < n)%nat -> items_from data n (S k) l -> items_from data n k (IBlock k :: l)
| items_gap k j l :
    (0 < k)%nat -> (k < j < n)%nat ->
    (forall i, (k <= i < j)%nat -> block data i = block data (k - 1)) ->
    items_from data n (S j) l ->
    items_from data n k (IGap :: IBlock j :: l).

(** A data line: offset, 48 columns, printable characters. *)
Definition line_of (data : bytes) (k : nat) (line : str) : Prop :=
  exists column,
    line = [48; 120] ++ fmt_x 8 (16 * Z.of_nat k) ++ [32; 32] ++ column ++ [32; 32] ++
           map (fun b => if (32 <=? b) && (b <=? 126) then b else 46) (block data k) /\
    length column = 48%nat /\
    Forall (fun c => c = 32 \/ char_digit c <> None) column /\
    read_cells column (seq 0 16) = block data k.

Definition item_line (data : bytes) (i : item) (line : str) : Prop :=
  match i with
  | IBlock k => line_of data k line
  | IGap => line = [46; 46; 46]
  end.

(** ** Streams *)

Definition stream_char (b : Z) : str :=
  if (32 <=? b) && (b <=? 126) then [b]
  else if b =? 255 then [255]
  else [92; 120; digit_char (b / 16); digit_char (b mod 16)].

(** Reads "\xNN" escapes; only unambiguous when no literal backslash occurs. *)
Fixpoint unescape (s : str) (fuel : nat) : bytes :=
  match fuel with
  | O => []
  | S k =>
      match s with
      | 92 :: 120 :: a :: b :: r =>
          match char_digit a, char_digit b with
          | Some x, Some y => (16 * x + y) :: unescape r k
          | _, _ => []
          end
      | c :: r => c :: unescape r k
      | [] => []
      end
  end.

(** ** Structures *)

(** The described attributes that have a value. *)
Definition present (l : list dattr) : list (dattr * dval) :=
  flat_map (fun a => match a_value a with Some v => [(a, v)] | None => [] end) l.


(** ** Debug definitions *)

(** An attribute the reader has to accept: named, described, with a known format. *)
Definition good_attr (a : yattr) : Prop :=
  y_name a <> [] /\ y_description a <> [] /\ y_format a <> [] /\
  (In (y_format a) (map s2z ["binary_data"; "decimal"; "floating_point"; "hexadecimal";
      "hexadecimal_2digits"; "hexadecimal_4digits"; "hexadecimal_8digits"; "string"; "uuid"]%string) \/
   exists r, y_format a = s2z "custom:" ++ r).

Definition good_def (d : ydef) : Prop :=
  y_keys d <> [] /\
  Forall (fun k => k = s2z "attributes" \/ k = s2z "data_type_map") (y_keys d) /\
  y_map d <> [] /\ y_attributes d <> [] /\
  Forall good_attr (y_attributes d) /\ NoDup (map y_name (y_attributes d)).

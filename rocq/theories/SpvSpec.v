(** What the tables of the Spotlight script look like. *)

From Verif Require Import Base StrModel.

(** The text [s] as a terminal with tab stops at every eighth column shows it, from column [pos] on. *)
Fixpoint expand (pos : nat) (s : str) : str :=
  match s with
  | [] => []
  | c :: s =>
      if c =? 9 then repeat 32 (8 - pos mod 8) ++ expand (pos + (8 - pos mod 8)) s
      else c :: expand (if c =? 10 then 0%nat else S pos) s
  end.

(** A text without tabs and line breaks. *)
Definition plain (s : str) : Prop := ~ In 9 s /\ ~ In 10 s.

(** [w] is the least multiple of eight that no value of the column [col] is longer than. *)
Definition column_width (w : nat) (col : list str) : Prop :=
  (w mod 8 = 0)%nat /\ (forall s, In s col -> (length s <= w)%nat) /\
  forall w', (w' mod 8 = 0)%nat -> (forall s, In s col -> (length s <= w')%nat) -> (w <= w')%nat.

(** The values at index [i] of the rows. *)
Definition column (i : nat) (rows : list (list str)) : list str := map (fun r => nth i r []) rows.

(** A row with every value but the last filled up with spaces. *)
Fixpoint aligned (ws : list nat) (row : list str) : str :=
  match row, ws with
  | [], _ => []
  | [v], _ => v
  | v :: row, w :: ws => v ++ repeat 32 (w - length v) ++ aligned ws row
  | v :: row, [] => v ++ aligned [] row
  end.

(** Every value of the columns but the last is shorter than the column is wide. *)
Definition separated (n : nat) (rows : list (list str)) : Prop :=
  forall i w r, (S i < n)%nat -> column_width w (column i rows) -> In r rows -> (length (nth i r []) < w)%nat.

(** The line of an attribute: its name, tabs up to column 40, and the text of its value. *)
Definition item_line (name s : str) : str := name ++ repeat 9 ((47 - length name) / 8) ++ [61; 32] ++ s ++ [10].

(** The version of the metadata: the upper and the lower 16 bits. *)
Definition version_text (v : Z) : str := fmt_d (v / 65536) ++ [46] ++ fmt_d (v mod 65536).

(** Independent description of CPIO archives. *)

From Verif Require Import Base BaseFacts CpioModel.

(** What was archived.  [m_extra] are bytes that the writer put behind the
    terminator of the name (they count for the name size). *)
Record member := mkmember {
  m_dev : Z; m_ino : Z; m_mode : Z; m_uid : Z; m_gid : Z; m_nlink : Z; m_rdev : Z;
  m_devminor : Z; m_rdevminor : Z; m_mtime : Z; m_check : Z;
  m_path : str; m_extra : bytes; m_data : bytes }.

Definition name_field (m : member) : bytes := m_path m ++ [0] ++ m_extra m.

(** A path that can be stored: ASCII without NUL. *)
Definition good_name (m : member) : Prop :=
  Forall (fun c => 0 < c < 128) (m_path m) /\ Forall (fun c => 0 <= c < 128) (m_extra m).

(** Digit strings, most significant digit first, both letter cases. *)
Definition digit_of (c d : Z) : Prop :=
  (d < 10 /\ c = 48 + d) \/ (10 <= d < 16 /\ (c = 97 + (d - 10) \/ c = 65 + (d - 10))).

Inductive numeral (base : Z) : Z -> list Z -> Prop :=
| num_nil : numeral base 0 []
| num_snoc : forall v s d c,
    numeral base v s -> 0 <= d < base -> digit_of c d -> numeral base (v * base + d) (s ++ [c]).

(** Consecutive numerals of the given widths. *)
Inductive text_fields (base : Z) : list (nat * Z) -> bytes -> Prop :=
| tf_nil : text_fields base [] []
| tf_cons : forall w v a l b,
    numeral base v a -> length a = w -> text_fields base l b ->
    text_fields base ((w, v) :: l) (a ++ b).

(** 16-bit values in the byte order of the archive; 32-bit values are stored as two
    of them, the most significant one first in both byte orders. *)
Definition words (e : endian) (l : list Z) : bytes := concat (map (enc_int e 2) l).
Definition word_ok (v : Z) : Prop := 0 <= v < 65536.

Definition header_of (f : cfmt) (m : member) (h : bytes) : Prop :=
  let n := len (name_field m) in
  let d := len (m_data m) in
  match f with
  | CBin e =>
      h = words e [29127; m_dev m; m_ino m; m_mode m; m_uid m; m_gid m; m_nlink m; m_rdev m;
                   m_mtime m / 65536; m_mtime m mod 65536; n; d / 65536; d mod 65536] /\
      Forall word_ok [m_dev m; m_ino m; m_mode m; m_uid m; m_gid m; m_nlink m; m_rdev m; n] /\
      0 <= m_mtime m < 4294967296 /\ d < 4294967296
  | COdc =>
      exists t, h = s2z "070707" ++ t /\
        text_fields 8 [(6%nat, m_dev m); (6%nat, m_ino m); (6%nat, m_mode m); (6%nat, m_uid m);
                       (6%nat, m_gid m); (6%nat, m_nlink m); (6%nat, m_rdev m);
                       (11%nat, m_mtime m); (6%nat, n); (11%nat, d)] t
  | CNewc | CCrc =>
      exists t, h = (match f with CNewc => s2z "070701" | _ => s2z "070702" end) ++ t /\
        text_fields 16 [(8%nat, m_ino m); (8%nat, m_mode m); (8%nat, m_uid m); (8%nat, m_gid m);
                        (8%nat, m_nlink m); (8%nat, m_mtime m); (8%nat, d); (8%nat, m_dev m);
                        (8%nat, m_devminor m); (8%nat, m_rdev m); (8%nat, m_rdevminor m);
                        (8%nat, n); (8%nat, m_check m)] t
  end.

Definition alignment (f : cfmt) : Z := match f with CBin _ => 2 | COdc => 1 | _ => 4 end.

(** Members one after the other, starting at an offset; names and data are followed
    by arbitrary bytes up to the next multiple of the alignment.  Each member is
    paired with the offset of its data. *)
Inductive stored (f : cfmt) : Z -> list (member * Z) -> bytes -> Prop :=
| st_nil : forall off, stored f off [] []
| st_cons : forall off m ms h p1 p2 rest,
    header_of f m h -> good_name m ->
    len p1 = (- (off + len h + len (name_field m))) mod alignment f ->
    len p2 = (- (off + len h + len (name_field m) + len p1 + len (m_data m))) mod alignment f ->
    stored f (off + len (h ++ name_field m ++ p1 ++ m_data m ++ p2)) ms rest ->
    stored f off ((m, off + len (h ++ name_field m ++ p1)) :: ms)
      (h ++ name_field m ++ p1 ++ m_data m ++ p2 ++ rest).

Definition trailer_name : str := s2z "TRAILER!!!".

(** An entry tells the truth about a member stored with its data at an offset. *)
Definition describes (e : centry) (p : member * Z) : Prop :=
  let (m, off) := p in
  ce_path e = m_path m /\ ce_offset e = off /\ ce_dsize e = len (m_data m) /\
  ce_mode e = m_mode m /\ ce_mtime e = m_mtime m /\ ce_uid e = m_uid m /\
  ce_gid e = m_gid m /\ ce_ino e = m_ino m.

(** The first member of each path. *)
Fixpoint first_of_each (l : list (member * Z)) : list (member * Z) :=
  match l with
  | [] => []
  | p :: r => p :: filter (fun x => negb (list_eqb (m_path (fst x)) (m_path (fst p))))
                          (first_of_each r)
  end.

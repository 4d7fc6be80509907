(** Model of the CPIO archive reader.

    Source: /repo/dtformats/cpio.py, structure layouts from /repo/dtformats/cpio.yaml. *)

From Verif Require Import Base CoreModel StrModel.

(** ** Python [int(bytes, base)] for base 8 and 16 (CPython PyLong_FromString):
    surrounding white space, a sign, the prefix [0o] or [0x], single underscores
    between digits and both letter cases are accepted. [None] is ValueError. *)
Definition py_isspace (c : Z) : bool := (c =? 32) || ((9 <=? c) && (c <=? 13)).

Definition py_digit (c : Z) : Z :=
  if (48 <=? c) && (c <=? 57) then c - 48
  else if (97 <=? c) && (c <=? 122) then c - 87
  else if (65 <=? c) && (c <=? 90) then c - 55
  else 37.

Fixpoint lstrip_space (s : bytes) : bytes :=
  match s with
  | [] => []
  | c :: r => if py_isspace c then lstrip_space r else s
  end.

(** The digit loop: value so far, whether a digit was seen, whether the previous
    character is an underscore. *)
Fixpoint py_int_digits (base : Z) (s : bytes) (acc : Z) (seen prev_us : bool) : option Z :=
  match s with
  | [] => if seen && negb prev_us then Some acc else None
  | c :: r =>
      if c =? 95 then
        if prev_us then None else py_int_digits base r acc seen true
      else if py_digit c <? base then py_int_digits base r (acc * base + py_digit c) true false
      else if seen && negb prev_us then
        match lstrip_space s with [] => Some acc | _ => None end
      else None
  end.

Definition py_int_prefix (base : Z) (s : bytes) : bytes :=
  match s with
  | z :: c :: r =>
      if (z =? 48) &&
         (((base =? 16) && ((c =? 120) || (c =? 88))) || ((base =? 8) && ((c =? 111) || (c =? 79))))
      then match r with
           | u :: r' => if u =? 95 then r' else r
           | [] => r
           end
      else s
  | _ => s
  end.

Definition py_int_sign (s : bytes) : bool * bytes :=
  match s with
  | c :: r => if c =? 43 then (false, r) else if c =? 45 then (true, r) else (false, s)
  | [] => (false, [])
  end.

Definition py_int (base : Z) (s : bytes) : option Z :=
  let '(neg, s2) := py_int_sign (lstrip_space s) in
  let s3 := py_int_prefix base s2 in
  match py_int_digits base s3 0 false (match s3 with c :: _ => c =? 95 | [] => false end) with
  | Some v => Some (if neg : bool then - v else v)
  | None => None
  end.

(** ** File entries *)

(** [CPIOArchiveFile.file_format] (cpio.py:405-416): bin-big-endian,
    bin-little-endian, odc, newc, crc. *)
Inductive cfmt := CBin (e : endian) | COdc | CNewc | CCrc.

(** cpio.yaml: cpio_binary_*_file_entry, cpio_portable_ascii_file_entry,
    cpio_new_ascii_file_entry.  dtFabric hands the byte order of a structure down to
    its members, so the nested [uint32] (upper, lower) has it too. *)
Definition cpio_layout (f : cfmt) : list fkind :=
  match f with
  | CBin e => [FU e 2; FU e 2; FU e 2; FU e 2; FU e 2; FU e 2; FU e 2; FU e 2;
               FU e 2; FU e 2; FU e 2; FU e 2; FU e 2]
  | COdc => [FB 6; FB 6; FB 6; FB 6; FB 6; FB 6; FB 6; FB 6; FB 11; FB 6; FB 11]
  | CNewc | CCrc => [FB 6; FB 8; FB 8; FB 8; FB 8; FB 8; FB 8; FB 8; FB 8; FB 8; FB 8; FB 8;
                     FB 8; FB 8]
  end.

(** The header values that are used later. *)
Record chdr := mkchdr {
  h_ino : Z; h_mode : Z; h_uid : Z; h_gid : Z; h_mtime : Z; h_path_size : Z; h_file_size : Z }.

(** cpio.py:203-212, 217-226: [int(value, base)], ValueError becomes ParseError. *)
Definition to_int (base : Z) (b : bytes) : result Z :=
  match py_int base b with Some v => Ok v | None => Err ParseError end.

(** cpio.py:192-228, the conversion of the mapped structure. The last branch
    cannot be reached: the structure map yields exactly these shapes. *)
Definition cpio_header (f : cfmt) (vs : list fval) : result chdr :=
  match f, vs with
  | CBin _, [VI _; VI _; VI ino; VI mode; VI uid; VI gid; VI _; VI _; VI mu; VI ml; VI psize;
             VI fu; VI fl] =>
      Ok (mkchdr ino mode uid gid (Z.lor (Z.shiftl mu 16) ml) psize (Z.lor (Z.shiftl fu 16) fl))
  | COdc, [VB _; VB dev; VB ino; VB mode; VB uid; VB gid; VB nlink; VB rdev; VB mtime; VB psize;
           VB fsize] =>
      do _ <- to_int 8 dev;
      do ino <- to_int 8 ino;
      do mode <- to_int 8 mode;
      do uid <- to_int 8 uid;
      do gid <- to_int 8 gid;
      do _ <- to_int 8 nlink;
      do _ <- to_int 8 rdev;
      do mtime <- to_int 8 mtime;
      do psize <- to_int 8 psize;
      do fsize <- to_int 8 fsize;
      Ok (mkchdr ino mode uid gid mtime psize fsize)
  | (CNewc | CCrc), [VB _; VB ino; VB mode; VB uid; VB gid; VB nlink; VB mtime; VB fsize;
                     VB dmaj; VB dmin; VB rmaj; VB rmin; VB psize; VB chk] =>
      do ino <- to_int 16 ino;
      do mode <- to_int 16 mode;
      do uid <- to_int 16 uid;
      do gid <- to_int 16 gid;
      do _ <- to_int 16 nlink;
      do mtime <- to_int 16 mtime;
      do psize <- to_int 16 psize;
      do fsize <- to_int 16 fsize;
      do _ <- to_int 16 dmaj;
      do _ <- to_int 16 dmin;
      do _ <- to_int 16 rmaj;
      do _ <- to_int 16 rmin;
      do _ <- to_int 16 chk;
      Ok (mkchdr ino mode uid gid mtime psize fsize)
  | _, _ => Err OtherError
  end.

(** cpio.py:11-43 [CPIOArchiveFileEntry]. *)
Record centry := mkce {
  ce_path : str; ce_offset : Z; ce_dsize : Z; ce_size : Z;
  ce_mode : Z; ce_mtime : Z; ce_uid : Z; ce_gid : Z; ce_ino : Z }.

(** [bytes.decode("ascii")]. *)
Definition decode_ascii (b : bytes) : result str :=
  if forallb (fun c => (0 <=? c) && (c <? 128)) b then Ok b else Err UnicodeDecodeError.

(** [s.partition("\x00")[0]]. *)
Fixpoint before_nul (s : str) : str :=
  match s with
  | [] => []
  | c :: r => if c =? 0 then [] else c :: before_nul r
  end.

(** cpio.py:250-262 and 293-304: the alignment padding. *)
Definition cpio_padding (f : cfmt) (off : Z) : Z :=
  match f with
  | CBin _ => let p := off mod 2 in if 0 <? p then 2 - p else p
  | COdc => 0
  | CNewc | CCrc => let p := off mod 4 in if 0 <? p then 4 - p else p
  end.

(** cpio.py:169-319 [_ReadFileEntry] without debug output.  [read(path_size)]
    continues at the position behind the structure; a short read is not an error. *)
Definition read_file_entry (content : bytes) (f : cfmt) (off : Z) : result centry :=
  do vs <- read_struct content (cpio_layout f) off;
  let hsize := Z.of_nat (struct_size (cpio_layout f)) in
  do h <- cpio_header f vs;
  do path_data <- read_at content (off + hsize) (h_path_size h);
  let off1 := off + hsize + h_path_size h in
  do path <- decode_ascii path_data;
  let path := before_nul path in
  let pad1 := cpio_padding f off1 in
  let off2 := off1 + pad1 in
  let size := hsize + h_path_size h + pad1 + h_file_size h in
  let off3 := off2 + h_file_size h in
  let pad2 := cpio_padding f off3 in
  let size := if 0 <? pad2 then size + pad2 else size in
  Ok (mkce path off2 (h_file_size h) size (h_mode h) (h_mtime h) (h_uid h) (h_gid h) (h_ino h)).

(** The dictionary [_file_entries], in insertion order. *)
Definition ctable := list (str * centry).

Fixpoint ct_get (path : str) (t : ctable) : option centry :=
  match t with
  | [] => None
  | (p, e) :: r => if list_eqb p path then Some e else ct_get path r
  end.

(** cpio.py:321-342 [_ReadFileEntries].  [file_size] is [_file_size]. *)
Fixpoint read_file_entries (fuel : nat) (content : bytes) (file_size : Z) (f : cfmt)
  (off : Z) (t : ctable) : run (ctable * Z) :=
  match fuel with
  | O => OutOfFuel
  | S k =>
      if (off <? file_size) || (file_size =? 0) then
        match read_file_entry content f off with
        | Err e => Done (Err e)
        | Ok e =>
            let off' := off + ce_size e in
            if list_eqb (ce_path e) (s2z "TRAILER!!!") then Done (Ok (t, off'))
            else match ct_get (ce_path e) t with
                 | Some _ => read_file_entries k content file_size f off' t
                 | None => read_file_entries k content file_size f off' (t ++ [(ce_path e, e)])
                 end
        end
      else Done (Ok (t, off))
  end.

(** cpio.py:391-421 [ReadFileObject]. *)
Definition cpio_format (content : bytes) : option cfmt :=
  let sig := zfirstn 6 content in
  if 2 <? len sig then
    if list_eqb (zfirstn 2 sig) [113; 199] then Some (CBin BE)
    else if list_eqb (zfirstn 2 sig) [199; 113] then Some (CBin LE)
    else if list_eqb sig (s2z "070707") then Some COdc
    else if list_eqb sig (s2z "070701") then Some CNewc
    else if list_eqb sig (s2z "070702") then Some CCrc
    else None
  else None.

(** The outcome: file format, entry table, [size]. *)
Definition cpio_read (fuel : nat) (content : bytes) (file_size : Z) : run (cfmt * ctable * Z) :=
  match cpio_format content with
  | None => Done (Err ParseError)
  | Some f =>
      match read_file_entries fuel content file_size f 0 [] with
      | OutOfFuel => OutOfFuel
      | Done (Err e) => Done (Err e)
      | Done (Ok (t, size)) => Done (Ok (f, t, size))
      end
  end.

(** ** Lookups; [_file_entries] is [None] before reading and after Close. *)

(** cpio.py:349-361 [FileEntryExistsByPath]. *)
Definition cpio_exists (t : option ctable) (path : str) : bool :=
  match t with
  | None | Some [] => false
  | Some t => match ct_get path t with Some _ => true | None => false end
  end.

(** cpio.py:363-375 [GetFileEntries]. *)
Definition cpio_entries (t : option ctable) (prefix : str) : list centry :=
  match t with
  | None | Some [] => []
  | Some t => map snd (filter (fun pe => starts_with prefix (fst pe)) t)
  end.

(** cpio.py:377-389 [GetFileEntryByPath]: False, None or an entry. *)
Inductive cget := GFalse | GNone | GEntry (e : centry).

Definition cpio_get (t : option ctable) (path : str) : cget :=
  match t with
  | None | Some [] => GFalse
  | Some t => match ct_get path t with Some e => GEntry e | None => GNone end
  end.

(** Reading a member: the entry is a [DataRange] with its own offset. *)
Definition cpio_member_range (e : centry) : drange := dr_new (ce_offset e) (ce_dsize e).

(** Independent description of the auxiliary files of Apple Unified Logging (documentation/
    Apple Unified Logging and Activity Tracing formats.asciidoc) and of the clock. *)

From Verif Require Import Base BaseFacts AulModel.

Definition u (n : nat) (v : Z) : Prop := 0 <= v < 256 ^ Z.of_nat n.
Definition s64 (v : Z) : Prop := - 2 ^ 63 <= v < 2 ^ 63.
Definition s32 (v : Z) : Prop := - 2 ^ 31 <= v < 2 ^ 31.

(** The string [s] (without its NUL) is stored at offset [off] of the file. *)
Definition cstring_at (content : bytes) (off : Z) (s : bytes) : Prop :=
  exists pre post, content = pre ++ s ++ 0 :: post /\ len pre = off /\ ~ In 0 s.

(** ** DSC files *)

Definition desc_ok (version : Z) (d : dsc_desc) : Prop :=
  u 4 (dd_data_offset d) /\ u 4 (dd_range_size d) /\
  u (if version =? 1 then 4 else 8) (dd_range_offset d) /\
  u (if version =? 1 then 4 else 8) (dd_uuid_index d).

Definition desc_bytes (version : Z) (d : dsc_desc) : bytes :=
  if version =? 1
  then le_enc 4 (dd_uuid_index d) ++ le_enc 4 (dd_range_offset d) ++
       le_enc 4 (dd_data_offset d) ++ le_enc 4 (dd_range_size d)
  else le_enc 8 (dd_range_offset d) ++ le_enc 4 (dd_data_offset d) ++
       le_enc 4 (dd_range_size d) ++ le_enc 8 (dd_uuid_index d).

(** A UUID descriptor: the path is stored elsewhere in the file. *)
Record uuid_desc := mkud { ud_text_offset : Z; ud_text_size : Z; ud_id : bytes; ud_path_offset : Z }.

Definition uuid_ok (version : Z) (x : uuid_desc) : Prop :=
  u (if version =? 1 then 4 else 8) (ud_text_offset x) /\ u 4 (ud_text_size x) /\
  length (ud_id x) = 16%nat /\ is_bytes (ud_id x) /\ u 4 (ud_path_offset x).

Definition uuid_bytes (version : Z) (x : uuid_desc) : bytes :=
  le_enc (if version =? 1 then 4 else 8) (ud_text_offset x) ++ le_enc 4 (ud_text_size x) ++
  ud_id x ++ le_enc 4 (ud_path_offset x).

Definition dsc_bytes (version : Z) (descs : list dsc_desc) (uuids : list uuid_desc) (data : bytes) : bytes :=
  s2z "hcsd" ++ le_enc 2 version ++ le_enc 2 0 ++ le_enc 4 (len descs) ++ le_enc 4 (len uuids) ++
  concat (map (desc_bytes version) descs) ++ concat (map (uuid_bytes version) uuids) ++ data.

(** ** uuidtext files *)

(** A block of strings with the reference of its first byte. *)
Record ut_block := mkub { ub_offset : Z; ub_data : bytes }.

Definition block_ok (b : ut_block) : Prop := u 4 (ub_offset b) /\ u 4 (len (ub_data b)).

Definition uuidtext_bytes (blocks : list ut_block) (path trailing : bytes) : bytes :=
  [153; 136; 119; 102] ++ le_enc 4 2 ++ le_enc 4 1 ++ le_enc 4 (len blocks) ++
  concat (map (fun b => le_enc 4 (ub_offset b) ++ le_enc 4 (len (ub_data b))) blocks) ++
  concat (map ub_data blocks) ++ path ++ 0 :: trailing.

(** ** Ranges *)

(** [x] lies in the half-open range, resp. in the range or directly behind it. *)
Definition inside (start size x : Z) : Prop := start <= x < start + size.
Definition touches (start size x : Z) : Prop := start <= x <= start + size.

(** Where a DSC lookup looks: in the image text for dynamic strings. *)
Definition look_start (dyn : bool) (g : dsc_range) : Z :=
  if dyn then du_text_offset (dg_uuid g) else dd_range_offset (dg_desc g).
Definition look_size (dyn : bool) (g : dsc_range) : Z :=
  if dyn then du_text_size (dg_uuid g) else dd_range_size (dg_desc g).

(** ** Timesync files *)

(** Records with all stored members, and padding behind the known members. *)
Inductive ts_stored :=
| SBoot (unknown : Z) (id : bytes) (num den time tz dst : Z) (pad : bytes)
| SSync (unknown kernel time tz dst : Z) (pad : bytes).

Definition stored_size (r : ts_stored) : Z :=
  match r with
  | SBoot _ _ _ _ _ _ _ pad => 48 + len pad
  | SSync _ _ _ _ _ pad => 32 + len pad
  end.

Definition stored_ok (r : ts_stored) : Prop :=
  u 2 (stored_size r) /\
  match r with
  | SBoot unknown id num den time tz dst _ =>
      u 4 unknown /\ length id = 16%nat /\ is_bytes id /\ u 4 num /\ u 4 den /\ s64 time /\ s32 tz /\ u 4 dst
  | SSync unknown kernel time tz dst _ =>
      u 4 unknown /\ u 8 kernel /\ s64 time /\ s32 tz /\ u 4 dst
  end.

Definition s_enc (n : nat) (v : Z) : bytes := le_enc n (v mod 256 ^ Z.of_nat n).

Definition stored_bytes (r : ts_stored) : bytes :=
  match r with
  | SBoot unknown id num den time tz dst pad =>
      [176; 187] ++ le_enc 2 (stored_size r) ++ le_enc 4 unknown ++ id ++ le_enc 4 num ++ le_enc 4 den ++
      s_enc 8 time ++ s_enc 4 tz ++ le_enc 4 dst ++ pad
  | SSync unknown kernel time tz dst pad =>
      s2z "Ts" ++ le_enc 2 (stored_size r) ++ le_enc 4 unknown ++ le_enc 8 kernel ++
      s_enc 8 time ++ s_enc 4 tz ++ le_enc 4 dst ++ pad
  end.

(** What the reader reports of it. *)
Definition stored_view (r : ts_stored) : ts_rec :=
  match r with
  | SBoot _ id num den time _ _ _ => Boot (mkboot (stored_size r) id num den time)
  | SSync _ kernel time _ _ _ => Sync (mksync (stored_size r) kernel time)
  end.

Definition ts_file (l : list ts_stored) : bytes := concat (map stored_bytes l).

Definition is_boot_of (id : bytes) (r : ts_stored) : Prop :=
  match r with SBoot _ id' _ _ _ _ _ _ => id' = id | _ => False end.
Definition is_boot (r : ts_stored) : Prop :=
  match r with SBoot _ _ _ _ _ _ _ _ => True | _ => False end.
Definition sync_view (r : ts_stored) : list sync_rec :=
  match stored_view r with Sync s => [s] | Boot _ => [] end.

(** [sync] are the sync records between the boot record [b] (the first one of boot [id]) and
    the next boot record of the file. *)
Definition boot_session (id : bytes) (l : list ts_stored) (b : ts_stored) (sync : list ts_stored) : Prop :=
  exists before after, l = before ++ b :: sync ++ after /\
    is_boot_of id b /\ Forall (fun r => ~ is_boot_of id r) before /\
    Forall (fun r => ~ is_boot r) sync /\
    match after with [] => True | r :: _ => is_boot r end.

(** ** The clock *)

(** The sync record in force at a time: among the records that are not later than the time
    one with the greatest kernel time, the first of these in file order. *)
Definition in_force (l : list sync_rec) (time : Z) (i : nat) (r : sync_rec) : Prop :=
  nth_error l i = Some r /\ sy_kernel r <= time /\
  forall j r', nth_error l j = Some r' -> sy_kernel r' <= time ->
    sy_kernel r' <= sy_kernel r /\ (sy_kernel r' = sy_kernel r -> (i <= j)%nat).

(** [t] is x * num / den in whole nanoseconds, up to a relative error of 2^-51. *)
Definition close_to (t x num den : Z) : Prop :=
  den * t * 2 ^ 51 <= x * num * (2 ^ 51 + 1) /\
  x * num * (2 ^ 51 - 1) < den * (t + 1) * 2 ^ 51.

(** ** Files in context *)

(** The image that a UUID descriptor stands for. *)
Definition image_of (utf8 : bytes -> option str) (content : bytes) (x : uuid_desc) (v : dsc_uuid) : Prop :=
  du_id v = ud_id x /\ du_text_offset v = ud_text_offset x /\ du_text_size v = ud_text_size x /\
  exists s, cstring_at content (ud_path_offset x) s /\ utf8 s = Some (du_path v).

(** A directory entry that is passed over: not a timesync file, or one that has no record of
    the boot. *)
Definition passed_over (lower : str -> str) (id : bytes) (fuel : nat) (f : str * bytes) : Prop :=
  ends_with (lower (fst f)) (s2z ".timesync") = false \/
  exists l, snd f = ts_file l /\ Forall stored_ok l /\ (length l < fuel)%nat /\ Forall (fun r => ~ is_boot_of id r) l.

(** Time zone information files as RFC 8536 and the documentation of the project define them. *)

From Verif Require Import Base BaseFacts.

(** The data of one block. *)
Record tz_block := mktzb {
  tb_times : list Z; tb_index : list Z; tb_types : list bytes; tb_chars : bytes; tb_leap : list bytes;
  tb_standard : bytes; tb_utc : bytes }.

(** A block with times of [w] bytes; the entries for leap seconds have 4 bytes more. *)
Definition tz_block_ok (w : nat) (b : tz_block) : Prop :=
  Forall (fun t => - 2 ^ (8 * Z.of_nat w - 1) <= t < 2 ^ (8 * Z.of_nat w - 1)) (tb_times b) /\
  Forall is_byte (tb_index b) /\ length (tb_index b) = length (tb_times b) /\
  Forall (fun d => length d = 6%nat) (tb_types b) /\ Forall (fun d => length d = (w + 4)%nat) (tb_leap b) /\
  len (tb_times b) < 2 ^ 32 /\ len (tb_types b) < 2 ^ 32 /\ len (tb_chars b) < 2 ^ 32 /\
  len (tb_leap b) < 2 ^ 32 /\ len (tb_standard b) < 2 ^ 32 /\ len (tb_utc b) < 2 ^ 32.

Definition tz_header_bytes (version : Z) (reserved : bytes) (b : tz_block) : bytes :=
  s2z "TZif" ++ [version] ++ reserved ++
  concat (map (be_enc 4) [len (tb_utc b); len (tb_standard b); len (tb_leap b); len (tb_times b);
    len (tb_types b); len (tb_chars b)]).

Definition tz_body (w : nat) (b : tz_block) : bytes :=
  concat (map (fun t => be_enc w (t mod 256 ^ Z.of_nat w)) (tb_times b)) ++ tb_index b ++ concat (tb_types b) ++ tb_chars b ++
  concat (tb_leap b) ++ tb_standard b ++ tb_utc b.

(** A file of version 1, and a file of version 2 or 3. *)
Definition tzif1 (reserved : bytes) (b : tz_block) : bytes := tz_header_bytes 0 reserved b ++ tz_body 4 b.
Definition tzif2 (version : Z) (reserved reserved' : bytes) (b b' : tz_block) (footer : bytes) : bytes :=
  tz_header_bytes version reserved b ++ tz_body 4 b ++
  tz_header_bytes version reserved' b' ++ tz_body 8 b' ++ [10] ++ footer ++ [10].

(** The counts of a header, by their offset in the file. *)
Definition count_at (content : bytes) (off : Z) : Z := be_int (zfirstn 4 (zskipn off content)).

(** The size of a header and a body with times of [w] bytes and leap second entries of 8 bytes. *)
Definition tz_size (w : Z) (content : bytes) : Z :=
  44 + (w + 1) * count_at content 32 + 6 * count_at content 36 + count_at content 40 +
  8 * count_at content 28 + count_at content 24 + count_at content 20.

(** What the reader accepts. *)
Definition tz_accepted (content : bytes) : Prop :=
  44 <= len content /\ zfirstn 4 content = s2z "TZif" /\ 0 < count_at content 32 /\
  tz_size 4 content <= len content /\
  exists version, znth_error content 4 = Some version /\
    (version = 0 \/ (version = 50 \/ version = 51) /\ tz_size 8 content <= len content).

(** Model of the hash functions.

    Source: /repo/dtformats/prefetch.py, /repo/dtformats/chrome_cache.py:13-74. *)

From Verif Require Import Base CoreModel.

Definition m32 : Z := 4294967295.

(** ** Prefetch hashes *)

(** [str.encode("utf-16-le")]; a lone surrogate raises UnicodeEncodeError (a ValueError). *)
Definition utf16_unit (v : Z) : bytes := [v mod 256; v / 256].

Fixpoint utf16le_encode (s : str) : result bytes :=
  match s with
  | [] => Ok []
  | c :: r =>
      do rest <- utf16le_encode r;
      if (55296 <=? c) && (c <=? 57343) then Err ValueError
      else if c <? 65536 then Ok (utf16_unit c ++ rest)
      else let v := c - 65536 in
           Ok (utf16_unit (55296 + v / 1024) ++ utf16_unit (56320 + v mod 1024) ++ rest)
  end.

(** prefetch.py:17-18, 39-40. *)
Definition hash_step (h b : Z) : Z := (h * 37 + b) mod 4294967296.

(** prefetch.py:4-25 [CalculatePrefetchHashXP]; [upper] is [str.upper]. *)
Definition prefetch_xp_bytes (path : bytes) : Z :=
  let hash_value := fold_left hash_step path 0 in
  let hash_value := (hash_value * 314159269) mod 4294967296 in
  let hash_value := if 2147483648 <? hash_value then 4294967296 - hash_value else hash_value in
  ((Z.abs hash_value) mod 1000000007) mod 4294967296.

Definition prefetch_xp (upper : str -> str) (path : str) : result Z :=
  do d <- utf16le_encode (upper path); Ok (prefetch_xp_bytes d).

(** prefetch.py:28-44 [CalculatePrefetchHashVista]. *)
Definition prefetch_vista_bytes (path : bytes) : Z := fold_left hash_step path 314159.

Definition prefetch_vista (upper : str -> str) (path : str) : result Z :=
  do d <- utf16le_encode (upper path); Ok (prefetch_vista_bytes d).

(** prefetch.py:47-88 [CalculatePrefetchHash2008]. *)
Fixpoint loop_2008 (fuel : nat) (path : bytes) (path_index hash_value : Z) : run (Z * Z) :=
  if path_index + 8 <? len path then
    match fuel with
    | O => OutOfFuel
    | S k =>
        match (do b1 <- pyindex path (path_index + 1);
               do b2 <- pyindex path (path_index + 2);
               do b3 <- pyindex path (path_index + 3);
               do b4 <- pyindex path (path_index + 4);
               do b5 <- pyindex path (path_index + 5);
               do b6 <- pyindex path (path_index + 6);
               do b7 <- pyindex path (path_index + 7);
               do b0 <- pyindex path path_index;
               let block_value := ((((((b1 * 37 + b2) * 37 + b3) * 37 + b4) * 37 + b5) * 37 + b6) * 37 + b7) in
               let block_value := block_value + b0 * 442596621 in
               Ok ((block_value - (hash_value * 803794207)) mod 4294967296)) with
        | Err e => Done (Err e)
        | Ok h => loop_2008 k path (path_index + 8) h
        end
    end
  else Done (Ok (path_index, hash_value)).

Fixpoint loop_2008_rest (fuel : nat) (path : bytes) (path_index hash_value : Z) : run Z :=
  if path_index <? len path then
    match fuel with
    | O => OutOfFuel
    | S k =>
        match pyindex path path_index with
        | Err e => Done (Err e)
        | Ok b => loop_2008_rest k path (path_index + 1) ((37 * hash_value + b) mod 4294967296)
        end
    end
  else Done (Ok hash_value).

Definition prefetch_2008_bytes (fuel : nat) (path : bytes) : run Z :=
  match loop_2008 fuel path 0 314159 with
  | OutOfFuel => OutOfFuel
  | Done (Err e) => Done (Err e)
  | Done (Ok (path_index, hash_value)) => loop_2008_rest fuel path path_index hash_value
  end.

Definition prefetch_2008 (fuel : nat) (upper : str -> str) (path : str) : run Z :=
  match utf16le_encode (upper path) with
  | Err e => Done (Err e)
  | Ok d => prefetch_2008_bytes fuel d
  end.

(** ** SuperFastHash: chrome_cache.py:13-74 *)

(** chrome_cache.py:33-43: one iteration of the loop. *)
Definition sfh_block (key : bytes) (hash_value key_index : Z) : result Z :=
  do k0 <- pyindex key key_index;
  do k1 <- pyindex key (key_index + 1);
  let hash_value := Z.land (hash_value + k0 + Z.shiftl k1 8) m32 in
  do k2 <- pyindex key (key_index + 2);
  do k3 <- pyindex key (key_index + 3);
  let temp_value := k2 + Z.shiftl k3 8 in
  let temp_value := Z.lxor (Z.land (Z.shiftl temp_value 11) m32) hash_value in
  let hash_value := Z.lxor (Z.land (Z.shiftl hash_value 16) m32) temp_value in
  Ok (Z.land (hash_value + Z.shiftr hash_value 11) m32).

Fixpoint sfh_blocks (key : bytes) (hash_value : Z) (indexes : list Z) : result Z :=
  match indexes with
  | [] => Ok hash_value
  | i :: r => do h <- sfh_block key hash_value i; sfh_blocks key h r
  end.

(** [range(0, n, 4)]. *)
Definition range4 (n : Z) : list Z :=
  map (fun k => 4 * Z.of_nat k) (seq 0 (Z.to_nat ((n + 3) / 4))).

(** chrome_cache.py:45-64: the remaining bytes. *)
Definition sfh_rest (key : bytes) (hash_value key_index remainder : Z) : result Z :=
  if remainder =? 3 then
    do k0 <- pyindex key key_index;
    do k1 <- pyindex key (key_index + 1);
    let h := Z.land (hash_value + k0 + Z.shiftl k1 8) m32 in
    let h := Z.lxor h (Z.land (Z.shiftl h 16) m32) in
    do k2 <- pyindex key (key_index + 2);
    let h := Z.lxor h (Z.land (Z.shiftl k2 18) m32) in
    Ok (Z.land (h + Z.shiftr h 11) m32)
  else if remainder =? 2 then
    do k0 <- pyindex key key_index;
    do k1 <- pyindex key (key_index + 1);
    let h := Z.land (hash_value + k0 + Z.shiftl k1 8) m32 in
    let h := Z.lxor h (Z.land (Z.shiftl h 11) m32) in
    Ok (Z.land (h + Z.shiftr h 17) m32)
  else if remainder =? 1 then
    do k0 <- pyindex key key_index;
    let h := Z.land (hash_value + k0) m32 in
    let h := Z.lxor h (Z.land (Z.shiftl h 10) m32) in
    Ok (Z.land (h + Z.shiftr h 1) m32)
  else Ok hash_value.

(** chrome_cache.py:66-72. *)
Definition sfh_final (h : Z) : Z :=
  let h := Z.lxor h (Z.land (Z.shiftl h 3) m32) in
  let h := Z.land (h + Z.shiftr h 5) m32 in
  let h := Z.lxor h (Z.land (Z.shiftl h 4) m32) in
  let h := Z.land (h + Z.shiftr h 17) m32 in
  let h := Z.lxor h (Z.land (Z.shiftl h 25) m32) in
  Z.land (h + Z.shiftr h 6) m32.

(** A [str] key is converted to its code points first: the same model. *)
Definition super_fast_hash (key : bytes) : result Z :=
  match key with
  | [] => Ok 0
  | _ =>
      let key_length := len key in
      let hash_value := Z.land key_length m32 in
      let remainder := Z.land key_length 3 in
      let key_length := key_length - remainder in
      do h <- sfh_blocks key hash_value (range4 key_length);
      do h <- sfh_rest key h key_length remainder;
      Ok (sfh_final h)
  end.

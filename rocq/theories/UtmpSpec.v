(** Utmp files, after "Utmp login records format.asciidoc". *)

From Verif Require Import Base BaseFacts StrModel.
From Coq Require String.
Import String.StringSyntax.

(** The values at the documented offsets of an entry at offset [o]. *)
Definition part (content : bytes) (off n : Z) : bytes := zfirstn n (zskipn off content).
Definition unsigned_at (content : bytes) (off n : Z) : fval := VI (le_int (part content off n)).
Definition signed_at (content : bytes) (off n : Z) : fval :=
  let v := le_int (part content off n) in VI (if v <? 256 ^ n / 2 then v else v - 256 ^ n).
Definition data_at (content : bytes) (off n : Z) : fval := VB (part content off n).

Definition linux_entry (content : bytes) (o : Z) : list fval :=
  [signed_at content (o + 0) 4; unsigned_at content (o + 4) 4; data_at content (o + 8) 32; unsigned_at content (o + 40) 4; data_at content (o + 44) 32;
   data_at content (o + 76) 256; signed_at content (o + 332) 2; signed_at content (o + 334) 2; signed_at content (o + 336) 4; signed_at content (o + 340) 4;
   signed_at content (o + 344) 4; data_at content (o + 348) 16; data_at content (o + 364) 20].

Definition macos_entry (content : bytes) (o : Z) : list fval :=
  [data_at content (o + 0) 256; unsigned_at content (o + 256) 4; data_at content (o + 260) 32; unsigned_at content (o + 292) 4; signed_at content (o + 296) 2;
   signed_at content (o + 298) 2; signed_at content (o + 300) 4; signed_at content (o + 304) 4; data_at content (o + 308) 256; data_at content (o + 564) 64].

(** The entries [first] to [n] - 1 of [size] bytes. *)
Definition entries (entry : bytes -> Z -> list fval) (content : bytes) (size first n : Z) : list (list fval) :=
  map (fun i => entry content (size * Z.of_nat i)) (seq (Z.to_nat first) (Z.to_nat (n - first))).

Definition documented_linux_types : list (Z * String.string) :=
  [(0, "EMPTY"); (1, "RUN_LVL"); (2, "BOOT_TIME"); (3, "NEW_TIME"); (4, "OLD_TIME"); (5, "INIT_PROCESS"); (6, "LOGIN_PROCESS"); (7, "USER_PROCESS");
   (8, "DEAD_PROCESS"); (9, "ACCOUNTING")]%string.
Definition documented_macos_types : list (Z * String.string) :=
  [(0, "EMPTY"); (1, "RUN_LVL"); (2, "BOOT_TIME"); (3, "OLD_TIME"); (4, "NEW_TIME"); (5, "INIT_PROCESS"); (6, "LOGIN_PROCESS"); (7, "USER_PROCESS");
   (8, "DEAD_PROCESS"); (9, "ACCOUNTING"); (10, "SIGNATURE"); (11, "SHUTDOWN_TIME")]%string.

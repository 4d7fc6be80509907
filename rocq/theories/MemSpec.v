(** How structures whose members follow each other are stored. *)

From Verif Require Import Base BaseFacts SeqSpec MemModel.

(** Value [v] of member [m] behind members with the values [vs] is stored as the bytes. *)
Inductive mem_enc (vs : list mval) : mem -> mval -> bytes -> Prop :=
| me_int k z : fval_ok k (VI z) -> mem_enc vs (MInt k) (MI z) (enc_field k (VI z))
| me_const k z : fval_ok k (VI z) -> mem_enc vs (MConst k z) (MI z) (enc_field k (VI z))
| me_data size d : len d = size vs -> mem_enc vs (MData size) (MB d) d
| me_ascii size d : len d = size vs -> Forall (fun c => c < 128) d -> mem_enc vs (MAscii size) (MB d) d
| me_ints k count l : len l = count vs -> ints_ok k l -> mem_enc vs (MInts k count) (ML l) (enc_ints k l)
| me_cstr s : ~ In 0 s -> Forall (fun c => c < 128) s -> mem_enc vs MCStr (MB s) (s ++ [0])
| me_cstrs count l : len l = count vs -> Forall (fun s => ~ In 0 s /\ Forall (fun c => c < 128) s) l ->
    mem_enc vs (MCStrs count) (MS l) (concat (map (fun s => s ++ [0]) l))
| me_text ok size d : len d = size vs -> ok d = true -> mem_enc vs (MText ok size) (MB d) d
| me_ctext ok s : ~ In 0 s -> ok s = true -> mem_enc vs (MCText ok) (MB s) (s ++ [0]).

Inductive mems_enc : list mval -> list mem -> list mval -> bytes -> Prop :=
| mse_nil vs : mems_enc vs [] [] []
| mse_cons vs m ms v d vs' d' : mem_enc vs m v d -> mems_enc (vs ++ [v]) ms vs' d' -> mems_enc vs (m :: ms) (v :: vs') (d ++ d').

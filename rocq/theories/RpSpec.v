(** The format of rp.log files.

    Source: /repo/documentation/Restore point formats.asciidoc, section "The rp.log file". *)

From Verif Require Import Base BaseFacts Utf16Spec RpModel.

(** The Restore Point information. *)
Definition rp_information (h : rp_header) (d : bytes) : Prop :=
  0 <= rh_event h < 2 ^ 32 /\ 0 <= rh_type h < 2 ^ 32 /\ 0 <= rh_sequence h < 2 ^ 64 /\
  exists t, utf16_z (rh_description h) t /\ d = le_enc 4 (rh_event h) ++ le_enc 4 (rh_type h) ++ le_enc 8 (rh_sequence h) ++ t.

(** The file: information, unknown data, creation time. *)
Definition rp_file (h : rp_header) (unknown : bytes) (time : Z) (content : bytes) : Prop :=
  0 <= time < 2 ^ 64 /\ exists d, rp_information h d /\ content = d ++ unknown ++ le_enc 8 time.

(** The documented event types and Restore Point types. *)
Definition documented (v : Z) (s : str) (l : list (Z * str)) : Prop := In (v, s) l \/ (s = [85; 78; 75; 78; 79; 87; 78] (* UNKNOWN *) /\ ~ In v (map fst l)).

(** Internet Printing Protocol files, after RFC 8010 and "CUPS Internet Printing Protocol (IPP)
    format.asciidoc". *)

From Verif Require Import Base BaseFacts IppModel.

(** The value of an attribute by its tag: 33 integer, 35 enum, 34 boolean, 49 date and time, 65
    and 66 text in the last character set, 68 to 73 ASCII text, of which 71 is a character set.
    Data behind an integer or a date does not count. *)
Inductive ipp_value_of (decode : str -> bytes -> result str) (rfc2579 : list Z -> result unit) (charset : str)
  : Z -> bytes -> ipp_value -> str -> Prop :=
| ipv_int t z rest : In t [33; 35] -> - 2 ^ 31 <= z < 2 ^ 31 ->
    ipp_value_of decode rfc2579 charset t (be_enc 4 (z mod 2 ^ 32) ++ rest) (IppInt z) charset
| ipv_false : ipp_value_of decode rfc2579 charset 34 [0] (IppBool false) charset
| ipv_true : ipp_value_of decode rfc2579 charset 34 [1] (IppBool true) charset
| ipv_date year fields rest : 0 <= year < 2 ^ 16 -> is_bytes fields -> length fields = 9%nat -> rfc2579 (year :: fields) = Ok tt ->
    ipp_value_of decode rfc2579 charset 49 (be_enc 2 year ++ fields ++ rest) (IppDate (year :: fields)) charset
| ipv_text t d s : In t [65; 66] -> decode charset d = Ok s -> ipp_value_of decode rfc2579 charset t d (IppStr s) charset
| ipv_ascii t d : In t [68; 69; 70; 72; 73] -> Forall (fun c => c < 128) d -> ipp_value_of decode rfc2579 charset t d (IppStr d) charset
| ipv_charset d : Forall (fun c => c < 128) d -> ipp_value_of decode rfc2579 charset 71 d (IppStr d) d
| ipv_other t d : ~ In t [33; 34; 35; 49; 65; 66; 68; 69; 70; 71; 72; 73] -> ipp_value_of decode rfc2579 charset t d IppNone charset.

(** Attributes and delimiters up to the end-of-attributes tag 3. *)
Inductive ipp_items (utf8 : bytes -> option str) (decode : str -> bytes -> result str) (rfc2579 : list Z -> result unit)
  : str -> list ipp_item -> str -> bytes -> Prop :=
| ipi_end cs : ipp_items utf8 decode rfc2579 cs [] cs [3]
| ipi_delimiter cs t l cs' d : In t [1; 2; 4; 5] -> ipp_items utf8 decode rfc2579 cs l cs' d ->
    ipp_items utf8 decode rfc2579 cs (IppDelimiter t :: l) cs' (t :: d)
| ipi_attribute cs t name_data name value_data value cs1 l cs' d :
    16 <= t < 128 -> len name_data < 2 ^ 15 -> len value_data < 2 ^ 15 -> utf8 name_data = Some name ->
    ipp_value_of decode rfc2579 cs t value_data value cs1 -> ipp_items utf8 decode rfc2579 cs1 l cs' d ->
    ipp_items utf8 decode rfc2579 cs (IppAttribute t name value :: l) cs'
      (t :: be_enc 2 (len name_data) ++ name_data ++ be_enc 2 (len value_data) ++ value_data ++ d).

(** Properties of the reading of AMCache files. *)

From Verif Require Import Base BaseFacts CoreModel StrModel StrFacts DictModel AmcModel AmcSpec AmcProofs.
From Coq Require String.
Import String.StringSyntax.

(** *** C109: AMCache files *)

(** A reading without an error shows exactly the values of the files, programs and applications below Root, in
    their order, each with its description; a file with another root key shows nothing. *)
Theorem C109_shown : forall g top l, read_amcache g top = (l, Ok tt) <-> amcache_shown g top l.
Proof. exact read_iff. Qed.
Print Assumptions C109_shown.

(** A file whose values can be read, whose file names are as documented, whose versions are integers and whose
    lists are not integers is read without an error. *)
Theorem C109_succeeds : forall g top, good_amcache g top -> exists l, read_amcache g top = (l, Ok tt).
Proof. intros g top H. destruct (good_shown g top H) as (l & Hl). exists l. now apply read_iff. Qed.
Print Assumptions C109_succeeds.

(** The documented name of a file, its sequence number and its MFT entry with 0000 between them, is shown with
    both numbers when the sequence number is not a multiple of 16 and there is no other 0000 in the entry.
    The zeros at the end of a sequence number are lost. *)
Theorem C109_reference : forall g k s z r e, (forall t n, parse_nat 16 t = Some n -> g_int16 g t = Some n) -> 0 < s < 65536 -> 0 < e -> s = 16 ^ Z.of_nat z * r -> r mod 16 <> 0 ->
  k_name k = fmt_x 0 s ++ S "0000" ++ fmt_x 0 e ->
  (~ contains0 (fmt_x 0 e) -> file_title g k [EText (S "File: " ++ k_name k ++ S " (" ++ fmt_d e ++ S "-" ++ fmt_d r ++ S ")" ++ [10])]) /\
  (contains0 (fmt_x 0 e) -> reference_key g k = ([], Err ValueError)).
Proof.
  intros g k s z r e G Hs He Es Hm En. split.
  - intros N. apply reference_title_iff. eapply reference_numbers; eassumption.
  - intros C. unfold reference_key. rewrite (reference_twice g k s z r e) by assumption. reflexivity.
Qed.
Print Assumptions C109_reference.

(** A simple file system for the cases below. *)
Definition lower1 (c : Z) : Z := if (65 <=? c) && (c <=? 90) then c + 32 else c.
Definition g0 : regf :=
  mkregf (fun v => Ok (v_data v)) (fun v => match v_data v with [a; b; c; d] => Ok (a + 256 * b + 65536 * c + 16777216 * d) | _ => Err OSError end)
    (fun v => Ok (split_on 0 (v_data v))) (fun v => Ok (v_data v)) (map lower1) (parse_nat 16).
Definition vs (name : String.string) (text : String.string) : value := mkvalue (S name) 1 (S text).
Definition vi (name : String.string) (d : bytes) : value := mkvalue (S name) 4 d.
Definition top0 (file programs : list key) : key :=
  Key (S "{11517B7C-E79D-4E20-961B-75A811715ADD}") []
    [Key (S "ROOT") [] [Key (S "Programs") [] programs; Key (S "File") [] [Key (S "{volume}") [] file]; Key (S "InventoryApplication") [] [Key (S "app") [vs "ProgramId" "00a1"; vs "Name" "x"] []]]].

Definition file0 : key := Key (S "100001605a") [vs "0" "Windows"; vi "d" [3; 0; 6; 0]; vi "f" [0; 0; 0; 64]; mkvalue (S "11") 11 [1; 0; 0; 0]; vs "15" "C:\x.exe"] [].
Definition program0 : key := Key (S "0000f4") [vs "0" "Paint"; mkvalue (S "Files") 7 (S "a" ++ [0] ++ S "b"); vi "a" [1; 0; 0; 0]; mkvalue (S "d") 7 []] [].

Definition shown0 : list ev :=
  [EText (S "File: 100001605a (90202-1)" ++ [10]); EValue (S "Product name") (DStr (S "Windows")); EValue (S "PE/COFF image version") (DStr (S "6.3"));
   EPosix (S "PE/COFF compilation time") (DInt 1073741824); EFiletime (S "File modification time") (DInt 1); EValue (S "Path") (DStr (S "C:\x.exe")); EText [10];
   EText (S "Program: 0000f4" ++ [10]); EValue (S "Name") (DStr (S "Paint")); EValue (S "File reference key identifiers") (DStr (S "a")); EValue [] (DStr (S "b")); EPosix (S "Installation time") (DInt 1);
   EValue (S "Installation directories") (DStr []); EText [10];
   EText (S "Application: app" ++ [10]); EValue (S "Program identifier") (DStr (S "00a1")); EValue (S "Name") (DStr (S "x")); EText [10]].

Example C109_case : read_amcache g0 (top0 [file0] [program0]) = (shown0, Ok tt) /\
  k_name file0 = fmt_x 0 1 ++ S "0000" ++ fmt_x 0 90202 /\ ~ contains0 (fmt_x 0 90202) /\ (forall t n, parse_nat 16 t = Some n -> g_int16 g0 t = Some n) /\
  read_amcache g0 (Key (S "{other}") [] [Key (S "Root") [] []]) = ([], Ok tt).
Proof. split; [vm_compute; reflexivity|]. split; [vm_compute; reflexivity|]. split; [apply cut_none; vm_compute; reflexivity|]. split; [intros t n H; exact H|vm_compute; reflexivity]. Qed.

(** Every file of the case is good. *)
Example C109_good : good_file g0 file0 /\ good_program g0 program0.
Proof.
  split; [split|].
  - eexists. apply reference_title_iff. vm_compute. reflexivity.
  - repeat constructor; eexists; (split; [apply get_data_iff; vm_compute; reflexivity|]); intros [H|[]]; try discriminate H; eauto.
  - repeat apply Forall_cons; try apply Forall_nil; eexists; (split; [apply get_data_iff; vm_compute; reflexivity|]); first [intros _ n; discriminate|intros [H|[H|[H|[]]]]; discriminate H].
Qed.

(** Not so: every documented name of a file is shown with its numbers. Sequence number 16 is shown as 1, and an
    MFT entry such as 65536, as well as a name of digits in which nothing is before or behind 0000, is an error
    that ends the reading. *)
Theorem C109_sequence_refuted : k_name (Key (S "100000c99d") [] []) = fmt_x 0 16 ++ S "0000" ++ fmt_x 0 51613 /\
  read_amcache g0 (top0 [Key (S "100000c99d") [] []] []) = ([EText (S "File: 100000c99d (51613-1)" ++ [10]); EText [10]; EText (S "Application: app" ++ [10]);
    EValue (S "Program identifier") (DStr (S "00a1")); EValue (S "Name") (DStr (S "x")); EText [10]], Ok tt).
Proof. split; vm_compute; reflexivity. Qed.
Print Assumptions C109_sequence_refuted.

Theorem C109_entry_refuted : k_name (Key (S "1000010000") [] []) = fmt_x 0 1 ++ S "0000" ++ fmt_x 0 65536 /\
  read_amcache g0 (top0 [Key (S "1000010000") [] []; file0] [program0]) = ([], Err ValueError) /\
  read_amcache g0 (top0 [Key (S "10000") [] []; file0] [program0]) = ([], Err ValueError).
Proof. repeat split; vm_compute; reflexivity. Qed.
Print Assumptions C109_entry_refuted.

(** Not so: a value is shown as a whole, or is an error of the file format. A list that is one string is shown
    character by character, and a version that is a string ends the reading with TypeError. *)
Theorem C109_list_refuted : program_key g0 (Key (S "p") [vs "d" "C:"] []) =
    ([EText (S "Program: p" ++ [10]); EValue (S "Installation directories") (DStr (S "C")); EValue [] (DStr (S ":")); EText [10]], Ok tt) /\
  snd (reference_key g0 (Key (S "p") [vs "d" "6.3"] [])) = Err TypeError /\ snd (program_key g0 (Key (S "p") [vi "7" [1; 0; 0; 0]] [])) = Err TypeError.
Proof. repeat split; vm_compute; reflexivity. Qed.
Print Assumptions C109_list_refuted.

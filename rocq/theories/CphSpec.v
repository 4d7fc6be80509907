(** What the hashes of the files of a CPIO archive are. *)

From Verif Require Import Base BaseFacts StrModel CpioModel CpioSpec CphModel.

(** A CPIO archive of the members [ms], up to the end of its trailer. *)
Definition archive (ms : list (member * Z)) (body : bytes) : Prop :=
  exists f tr off, stored f 0 (ms ++ [(tr, off)]) body /\ Forall (fun p => m_path (fst p) <> trailer_name) ms /\ m_path tr = trailer_name.

(** The line of a member: the hash of its data and its path. Members without data have none. *)
Definition member_line (sha : bytes -> str) (m : member) : list str :=
  match m_data m with [] => [] | d => [sha d ++ [9] ++ m_path m ++ [10]] end.

(** The archive [data] that is read of the file [content]: the file itself, or what its start is the compressed form of. *)
Definition archive_data (unpack : ptype -> bytes -> result bytes) (content data : bytes) : Prop :=
  data = content \/
  (2 < len content /\ zfirstn 2 content = [31; 139] /\ unpack PGzip content = Ok data) \/
  (2 < len content /\ zfirstn 2 content = [66; 90] /\ unpack PBzip content = Ok data) \/
  (zfirstn 6 content = [253; 55; 122; 88; 90; 0] /\ unpack PXz content = Ok data).

(** The file starts with one of the signatures. *)
Definition recognised (content : bytes) : Prop :=
  2 < len content /\
  (In (zfirstn 2 content) [[113; 199]; [199; 113]; [31; 139]; [66; 90]] \/
   In (zfirstn 6 content) [[48; 55; 48; 55; 48; 55]; [48; 55; 48; 55; 48; 49]; [48; 55; 48; 55; 48; 50]; [253; 55; 122; 88; 90; 0]]).

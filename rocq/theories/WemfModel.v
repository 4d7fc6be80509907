(** Model of the Windows (Enhanced) Metafile readers. *)

From Verif Require Import Base CoreModel DictModel.
From Coq Require String.
Import String.StringSyntax.

(** wemf.py:12-35 [Record]; [w_shown] is the record data that the debug output of the record prints
    and decodes. *)
Record wrec := mkwrec { w_type : Z; w_size : Z; w_data_offset : Z; w_data_size : Z; w_shown : option bytes }.

(** The loops wemf.py:226-230 and wemf.py:839-843 of both [ReadFileObject]; [rd] reads the record at
    an offset. *)
Fixpoint wemf_walk (fuel : nat) (rd : Z -> result wrec) (size off : Z) : run (list wrec) :=
  if off <? size then
    match fuel with
    | O => OutOfFuel
    | S fuel =>
        match rd off with
        | Err e => Done (Err e)
        | Ok r => rdo l <- wemf_walk fuel rd size (off + w_size r); Done (Ok (r :: l))
        end
    end
  else Done (Ok []).

(** wemf.py:170-216 and wemf.py:723-815 [_ReadRecordData] with debug output: the data read at the
    current position. [maps] gives the size of the structure that is mapped for a record type; a
    ByteStreamTooSmallError is not a MappingError and is not caught. The printing of the mapped values
    does not fail. *)
Definition record_data (maps : list (Z * Z)) (content : bytes) (pos type data_size : Z) : result bytes :=
  let data := zfirstn data_size (zskipn pos content) in
  match find (fun m => fst m =? type) maps with
  | Some (_, n) => if len data <? n then Err OtherError else Ok data
  | None => Ok data
  end.

(** ** EMF *)

(** emf.yaml emf_file_header. *)
Definition emf_header : list fkind :=
  [FU LE 4; FU LE 4; FB 16; FB 16; FU LE 4; FU LE 4; FU LE 4; FU LE 4; FU LE 2; FU LE 2; FU LE 4; FU LE 4; FU LE 4;
   FB 8; FB 8; FU LE 4; FU LE 4; FU LE 4; FB 8].

(** wemf.py:51-54: emf_settextcolor and emf_selectobject are 4 bytes. *)
Definition emf_maps : list (Z * Z) := [(0x0018, 4); (0x0025, 4)].

(** wemf.py:138-168 [EMFFile._ReadRecord]; what it calls the data offset is the size of the header. *)
Definition emf_record (debug : bool) (content : bytes) (off : Z) : result wrec :=
  do vs <- read_struct content [FU LE 4; FU LE 4] off;
  match vs with
  | [VI type; VI size] =>
      let data_offset := 8 in
      let data_size := size - (data_offset - off) in
      do shown <- (if debug then do d <- record_data emf_maps content (off + 8) type data_size; Ok (Some d) else Ok None);
      Ok (mkwrec type size data_offset data_size shown)
  | _ => Err OtherError
  end.

(** wemf.py:115-136 [_ReadFileHeader] and wemf.py:218-230 [ReadFileObject]. The debug output of the
    header does not fail. *)
Definition read_emf (fuel : nat) (debug : bool) (content : bytes) : run (list wrec) :=
  match read_struct content emf_header 0 with
  | Err e => Done (Err e)
  | Ok _ => wemf_walk fuel (emf_record debug content) (len content) 108
  end.

(** ** WMF *)

(** wemf.py:316-325: the sizes of the structures of wmf.yaml. *)
Definition wmf_maps : list (Z * Z) := [(0x0103, 2); (0x0107, 2); (0x0127, 2); (0x020B, 4); (0x020C, 4); (0x0B41, 20)].

(** wemf.py:691-721 [WMFFile._ReadRecord]. *)
Definition wmf_record (debug : bool) (content : bytes) (off : Z) : result wrec :=
  do vs <- read_struct content [FU LE 4; FU LE 2] off;
  match vs with
  | [VI size; VI type] =>
      let record_size := size * 2 in
      let data_offset := 6 in
      let data_size := record_size - (data_offset - off) in
      do shown <- (if debug then do d <- record_data wmf_maps content (off + 6) type data_size; Ok (Some d) else Ok None);
      Ok (mkwrec type record_size data_offset data_size shown)
  | _ => Err OtherError
  end.

(** wemf.py:645-669 [_ReadHeader]. *)
Definition wmf_header (content : bytes) (off : Z) : result unit :=
  do vs <- read_struct content [FU LE 2; FU LE 2; FU LE 2; FU LE 2; FU LE 2; FU LE 2; FU LE 4; FU LE 2] off;
  match vs with
  | VI file_type :: VI record_size :: _ =>
      do _ <- guard (existsb (Z.eqb file_type) [1; 2]) ParseError;
      guard (record_size =? 9) ParseError
  | _ => Err OtherError
  end.

(** wemf.py:671-689 [_ReadPlaceable]. *)
Definition wmf_placeable (content : bytes) : result unit :=
  do _ <- read_struct content [FU LE 4; FU LE 2; FB 8; FU LE 2; FU LE 4; FU LE 2] 0; Ok tt.

(** wemf.py:817-843 [ReadFileObject]. Going back 4 bytes in a file of less than 4 bytes is an OSError,
    which becomes a ParseError. *)
Definition read_wmf (fuel : nat) (debug : bool) (content : bytes) : run (list wrec) :=
  if len content <? 4 then Done (Err ParseError)
  else
    let placeable := list_eqb (zfirstn 4 content) [0xd7; 0xcd; 0xc6; 0x9a] in
    match (if placeable then do _ <- wmf_placeable content; wmf_header content 22 else wmf_header content 0) with
    | Err e => Done (Err e)
    | Ok _ => wemf_walk fuel (wmf_record debug content) (len content) ((if placeable then 22 else 0) + 18)
    end.

(** ** Names *)

(** wmf.yaml wmf_map_mode. *)
Definition wmf_map_modes : list (Z * String.string) :=
  [(1, "MM_TEXT"); (2, "MM_LOMETRIC"); (3, "MM_HIMETRIC"); (4, "MM_LOENGLISH"); (5, "MM_HIENGLISH"); (6, "MM_TWIPS");
   (7, "MM_ISOTROPIC"); (8, "MM_ANISOTROPIC")]%string.

(** [GetName(value) or "UNKNOWN"] of an enumeration. *)
Definition enum_name (t : list (Z * String.string)) (v : Z) : String.string :=
  match find (fun e => fst e =? v) t with Some (_, s) => s | None => "UNKNOWN"%string end.

(** wemf.py:752-756 and wemf.py:758-765: the names of a map mode and of a stretch mode. *)
Definition map_mode_name (v : Z) : String.string := enum_name wmf_map_modes v.
Definition stretch_mode_name (v : Z) : String.string := enum_name wmf_map_modes v.

(** wemf.py:328-585 [_WMF_RASTER_OPERATIONS]. *)
Definition wmf_raster_operations : list (Z * String.string) :=
  [(0x00000042, "BLACKNESS"); (0x00010289, "DPSOO"); (0x00020C89, "DPSON"); (0x000300AA, "PSO");
   (0x00040C88, "SDPON"); (0x000500A9, "DPO"); (0x00060865, "PDSXNO"); (0x000702C5, "PDSAO");
   (0x00080F08, "SDPNA"); (0x00090245, "PDSXO"); (0x000A0329, "DPN"); (0x000B0B2A, "PSDNAO");
   (0x000C0324, "SPN"); (0x000D0B25, "PDSNAO"); (0x000E08A5, "PDSONO"); (0x000F0001, "P");
   (0x00100C85, "PDSON"); (0x001100A6, "NOTSRCERAS"); (0x00120868, "SDPXNO"); (0x001302C8, "SDPAO");
   (0x00140869, "DPSXNO"); (0x001502C9, "DPSAO"); (0x00165CCA, "PSDPSANAX"); (0x00171D54, "SSPXDSXAX");
   (0x00180D59, "SPXPDX"); (0x00191CC8, "SDPSANAX"); (0x001A06C5, "PDSPAO"); (0x001B0768, "SDPSXAX");
   (0x001C06CA, "PSDPAO"); (0x001D0766, "DSPDXAX"); (0x001E01A5, "PDSO"); (0x001F0385, "PDSOA");
   (0x00200F09, "DPSNA"); (0x00210248, "SDPXO"); (0x00220326, "DSN"); (0x00230B24, "SPDNAO");
   (0x00240D55, "SPXDSX"); (0x00251CC5, "PDSPANAX"); (0x002606C8, "SDPSAO"); (0x00271868, "SDPSXNOX");
   (0x00280369, "DPSXA"); (0x002916CA, "PSDPSAOXXN"); (0x002A0CC9, "DPSANA"); (0x002B1D58, "SSPXPDXAXN");
   (0x002C0784, "SPDSOAX"); (0x002D060A, "PSDNOX"); (0x002E064A, "PSDPXOX"); (0x002F0E2A, "PSDNOAN");
   (0x0030032A, "PSNA"); (0x00310B28, "SDPNAON"); (0x00320688, "SDPSOOX"); (0x00330008, "NOTSRCCOPY");
   (0x003406C4, "SPDSAOX"); (0x00351864, "SPDSXNOX"); (0x003601A8, "SDPOX"); (0x00370388, "SDPOAN");
   (0x0038078A, "PSDPOAX"); (0x00390604, "SPDNOX"); (0x003A0644, "SPDSXOX"); (0x003B0E24, "SPDNOAN");
   (0x003C004A, "PSX"); (0x003D18A4, "SPDSONOX"); (0x003E1B24, "SPDSNAOX"); (0x003F00EA, "PSAN");
   (0x00400F0A, "PSDNAA"); (0x00410249, "DPSXON"); (0x00420D5D, "SDXPDXA"); (0x00431CC4, "SPDSANAXN");
   (0x00440328, "SRCERASE"); (0x00450B29, "DPSNAON"); (0x004606C6, "DSPDAOX"); (0x0047076A, "PSDPXAXN");
   (0x00480368, "SDPXA"); (0x004916C5, "PDSPDAOXXN"); (0x004A0789, "DPSDOAX"); (0x004B0605, "PDSNOX");
   (0x004C0CC8, "SDPANA"); (0x004D1954, "SSPXDSXOXN"); (0x004E0645, "PDSPXOX"); (0x004F0E25, "PDSNOAN");
   (0x00500325, "PDNA"); (0x00510B26, "DSPNAON"); (0x005206C9, "DPSDAOX"); (0x00530764, "SPDSXAXN");
   (0x005408A9, "DPSONON"); (0x00550009, "DSTINVERT"); (0x005601A9, "DPSOX"); (0x00570389, "DPSOAN");
   (0x00580785, "PDSPOAX"); (0x00590609, "DPSNOX"); (0x005A0049, "PATINVERT"); (0x005B18A9, "DPSDONOX");
   (0x005C0649, "DPSDXOX"); (0x005D0E29, "DPSNOAN"); (0x005E1B29, "DPSDNAOX"); (0x005F00E9, "DPAN");
   (0x00600365, "PDSXA"); (0x006116C6, "DSPDSAOXXN"); (0x00620786, "DSPDOAX"); (0x00630608, "SDPNOX");
   (0x00640788, "SDPSOAX"); (0x00650606, "DSPNOX"); (0x00660046, "SRCINVERT"); (0x006718A8, "SDPSONOX");
   (0x006858A6, "DSPDSONOXXN"); (0x00690145, "PDSXXN"); (0x006A01E9, "DPSAX"); (0x006B178A, "PSDPSOAXXN");
   (0x006C01E8, "SDPAX"); (0x006D1785, "PDSPDOAXXN"); (0x006E1E28, "SDPSNOAX"); (0x006F0C65, "PDXNAN");
   (0x00700CC5, "PDSANA"); (0x00711D5C, "SSDXPDXAXN"); (0x00720648, "SDPSXOX"); (0x00730E28, "SDPNOAN");
   (0x00740646, "DSPDXOX"); (0x00750E26, "DSPNOAN"); (0x00761B28, "SDPSNAOX"); (0x007700E6, "DSAN");
   (0x007801E5, "PDSAX"); (0x00791786, "DSPDSOAXXN"); (0x007A1E29, "DPSDNOAX"); (0x007B0C68, "SDPXNAN");
   (0x007C1E24, "SPDSNOAX"); (0x007D0C69, "DPSXNAN"); (0x007E0955, "SPXDSXO"); (0x007F03C9, "DPSAAN");
   (0x008003E9, "DPSAA"); (0x00810975, "SPXDSXON"); (0x00820C49, "DPSXNA"); (0x00831E04, "SPDSNOAXN");
   (0x00840C48, "SDPXNA"); (0x00851E05, "PDSPNOAXN"); (0x008617A6, "DSPDSOAXX"); (0x008701C5, "PDSAXN");
   (0x008800C6, "SRCAND"); (0x00891B08, "SDPSNAOXN"); (0x008A0E06, "DSPNOA"); (0x008B0666, "DSPDXOXN");
   (0x008C0E08, "SDPNOA"); (0x008D0668, "SDPSXOXN"); (0x008E1D7C, "SSDXPDXAX"); (0x008F0CE5, "PDSANAN");
   (0x00900C45, "PDSXNA"); (0x00911E08, "SDPSNOAXN"); (0x009217A9, "DPSDPOAXX"); (0x009301C4, "SPDAXN");
   (0x009417AA, "PSDPSOAXX"); (0x009501C9, "DPSAXN"); (0x00960169, "DPSXX"); (0x0097588A, "PSDPSONOXX");
   (0x00981888, "SDPSONOXN"); (0x00990066, "DSXN"); (0x009A0709, "DPSNAX"); (0x009B07A8, "SDPSOAXN");
   (0x009C0704, "SPDNAX"); (0x009D07A6, "DSPDOAXN"); (0x009E16E6, "DSPDSAOXX"); (0x009F0345, "PDSXAN");
   (0x00A000C9, "DPA"); (0x00A11B05, "PDSPNAOXN"); (0x00A20E09, "DPSNOA"); (0x00A30669, "DPSDXOXN");
   (0x00A41885, "PDSPONOXN"); (0x00A50065, "PDXN"); (0x00A60706, "DSPNAX"); (0x00A707A5, "PDSPOAXN");
   (0x00A803A9, "DPSOA"); (0x00A90189, "DPSOXN"); (0x00AA0029, "D"); (0x00AB0889, "DPSONO");
   (0x00AC0744, "SPDSXAX"); (0x00AD06E9, "DPSDAOXN"); (0x00AE0B06, "DSPNAO"); (0x00AF0229, "DPNO");
   (0x00B00E05, "PDSNOA"); (0x00B10665, "PDSPXOXN"); (0x00B21974, "SSPXDSXOX"); (0x00B30CE8, "SDPANAN");
   (0x00B4070A, "PSDNAX"); (0x00B507A9, "DPSDOAXN"); (0x00B616E9, "DPSDPAOXX"); (0x00B70348, "SDPXAN");
   (0x00B8074A, "PSDPXAX"); (0x00B906E6, "DSPDAOXN"); (0x00BA0B09, "DPSNAO"); (0x00BB0226, "MERGEPAINT");
   (0x00BC1CE4, "SPDSANAX"); (0x00BD0D7D, "SDXPDXAN"); (0x00BE0269, "DPSXO"); (0x00BF08C9, "DPSANO");
   (0x00C000CA, "MERGECOPY"); (0x00C11B04, "SPDSNAOXN"); (0x00C21884, "SPDSONOXN"); (0x00C3006A, "PSXN");
   (0x00C40E04, "SPDNOA"); (0x00C50664, "SPDSXOXN"); (0x00C60708, "SDPNAX"); (0x00C707AA, "PSDPOAXN");
   (0x00C803A8, "SDPOA"); (0x00C90184, "SPDOXN"); (0x00CA0749, "DPSDXAX"); (0x00CB06E4, "SPDSAOXN");
   (0x00CC0020, "SRCCOPY"); (0x00CD0888, "SDPONO"); (0x00CE0B08, "SDPNAO"); (0x00CF0224, "SPNO");
   (0x00D00E0A, "PSDNOA"); (0x00D1066A, "PSDPXOXN"); (0x00D20705, "PDSNAX"); (0x00D307A4, "SPDSOAXN");
   (0x00D41D78, "SSPXPDXAX"); (0x00D50CE9, "DPSANAN"); (0x00D616EA, "PSDPSAOXX"); (0x00D70349, "DPSXAN");
   (0x00D80745, "PDSPXAX"); (0x00D906E8, "SDPSAOXN"); (0x00DA1CE9, "DPSDANAX"); (0x00DB0D75, "SPXDSXAN");
   (0x00DC0B04, "SPDNAO"); (0x00DD0228, "SDNO"); (0x00DE0268, "SDPXO"); (0x00DF08C8, "SDPANO");
   (0x00E003A5, "PDSOA"); (0x00E10185, "PDSOXN"); (0x00E20746, "DSPDXAX"); (0x00E306EA, "PSDPAOXN");
   (0x00E40748, "SDPSXAX"); (0x00E506E5, "PDSPAOXN"); (0x00E61CE8, "SDPSANAX"); (0x00E70D79, "SPXPDXAN");
   (0x00E81D74, "SSPXDSXAX"); (0x00E95CE6, "DSPDSANAXXN"); (0x00EA02E9, "DPSAO"); (0x00EB0849, "DPSXNO");
   (0x00EC02E8, "SDPAO"); (0x00ED0848, "SDPXNO"); (0x00EE0086, "SRCPAINT"); (0x00EF0A08, "SDPNOO");
   (0x00F00021, "PATCOPY"); (0x00F10885, "PDSONO"); (0x00F20B05, "PDSNAO"); (0x00F3022A, "PSNO");
   (0x00F40B0A, "PSDNAO"); (0x00F50225, "PDNO"); (0x00F60265, "PDSXO"); (0x00F708C5, "PDSANO");
   (0x00F802E5, "PDSAO"); (0x00F90845, "PDSXNO"); (0x00FA0089, "DPO"); (0x00FB0A09, "PATPAINT");
   (0x00FC008A, "PSO"); (0x00FD0A0A, "PSDNOO"); (0x00FE02A9, "DPSOO"); (0x00FF0062, "WHITENESS")]%string.

(** wemf.py:778-785: the name of a raster operation. *)
Definition raster_operation_name (code : Z) : String.string := enum_name wmf_raster_operations code.

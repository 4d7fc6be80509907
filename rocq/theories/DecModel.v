(** Model of the value decoders of unified logging format strings.

    The environment [x] gives what is external: UTF-8, floating-point formatting and the text of a POSIX
    timestamp. A value is [None] if the item has no data; [int.from_bytes(None)] and [len(None)] are a
    TypeError, [None.decode] an AttributeError. Base64 is that of Python's [base64.b64encode]. *)

From Verif Require Import Base CoreModel StrModel FmtModel RdModel CatModel TextModel UuidModel.
From Coq Require String.
Import String.StringSyntax.

(** UTF-8; [format(value, specification)] of the floating-point value in 4 or 8 bytes; the text of a number
    of seconds (dfdatetime, CopyToDateTimeString). *)
Record external := mkx { x_utf8 : bytes -> option str; x_float : bytes -> str -> result str; x_time : Z -> result str }.

Definition decoder : Type := option bytes -> option operator -> result str.

Definition names : Type := list (Z * String.string).

Fixpoint name_of (l : names) (n : Z) : option str :=
  match l with [] => None | (k, s) :: l => if k =? n then Some (s2z s) else name_of l n end.

(** darwin.py:6-120. *)
Definition darwin_errors : names :=
  [((-1), "Restart syscall"%string); ((-2), "Don't modify regs, just return"%string);
   ((-5), "Restart lookup under heavy vnode pressure/recycling"%string); ((-6), "Red drive open"%string); ((-7), "Keep looking"%string);
   ((-8), "Data less"%string); (0, "Success"%string); (1, "Operation not permitted"%string); (2, "No such file or directory"%string);
   (3, "No such process"%string); (4, "Interrupted system call"%string); (5, "Input/Output error"%string); (6, "Device not configured"%string);
   (7, "Argument list too long"%string); (8, "Exec format error"%string); (9, "Bad file descriptor"%string); (10, "No child processes"%string);
   (11, "Resource deadlock avoided"%string); (12, "Cannot allocate memory"%string); (13, "Permission denied"%string); (14, "Bad address"%string);
   (15, "Block device required"%string); (16, "Device / Resource busy"%string); (17, "File exists"%string); (18, "Cross-device link"%string);
   (19, "Operation not supported by device"%string); (20, "Not a directory"%string); (21, "Is a directory"%string); (22, "Invalid argument"%string);
   (23, "Too many open files in system"%string); (24, "Too many open files"%string); (25, "Inappropriate ioctl for devices"%string);
   (26, "Text file busy"%string); (27, "File too large"%string); (28, "No space left on device"%string); (29, "Illegal seek"%string);
   (30, "Read-only filesystem"%string); (31, "Too many links"%string); (32, "Broken pipe"%string); (33, "Numerical argument out of domain"%string);
   (34, "Result too large"%string); (35, "Resource temporarily unavailable, operation would block"%string); (36, "Operation now in progress"%string);
   (37, "Operation already in progress"%string); (38, "Socket operation on non-socket"%string); (39, "Destination address required"%string);
   (40, "Message too long"%string); (41, "Protocol wrong type for socket"%string); (42, "Protocol not available"%string);
   (43, "Protocol not supported"%string); (44, "Socket type not supported"%string);
   (45, "Operation not supported, Operation not supported on socket"%string); (46, "Protocol family not supported"%string);
   (47, "Address family not supported by protocol family"%string); (48, "Address already in use"%string);
   (49, "Can't assign requested address"%string); (50, "Network is down"%string); (51, "Network is unreachable"%string);
   (52, "Network dropped connection on reset"%string); (53, "Software caused connection abort"%string); (54, "Connection reset by peer"%string);
   (55, "No buffer space available"%string); (56, "Socket is already connected"%string); (57, "Socket is not connected"%string);
   (58, "Can't send after socket shutdown"%string); (59, "Too many references: can't splice"%string); (60, "Operation timed out"%string);
   (61, "Connection refused"%string); (62, "Too many levels of symbolic links"%string); (63, "File name too long"%string);
   (64, "Host is down"%string); (65, "No route to host"%string); (66, "Directory not empty"%string); (67, "Too many processes"%string);
   (68, "Too many users"%string); (69, "Disc quota exceeded"%string); (70, "Stale NFS file handle"%string);
   (71, "Too many levels of remote in path"%string); (72, "RPC struct is bad"%string); (73, "RPC version wrong"%string);
   (74, "RPC prog. not avail"%string); (75, "Program version wrong"%string); (76, "Bad procedure for program"%string);
   (77, "No locks available"%string); (78, "Function not implemented"%string); (79, "Inappropriate file type or format"%string);
   (80, "Authentication error"%string); (81, "Need authenticator"%string); (82, "Device power is off"%string);
   (83, "Device error, e.g. paper out"%string); (84, "Value too large to be stored in data type"%string); (85, "Bad executable"%string);
   (86, "Bad CPU type in executable"%string); (87, "Shared library version mismatch"%string); (88, "Malformed Macho file"%string);
   (89, "Operation canceled"%string); (90, "Identifier removed"%string); (91, "No message of desired type"%string);
   (92, "Illegal byte sequence"%string); (93, "Attribute not found"%string); (94, "Bad message"%string); (95, "Reserved"%string);
   (96, "No message available on STREAM"%string); (97, "Reserved"%string); (98, "No STREAM resources"%string); (99, "Not a STREAM"%string);
   (100, "Protocol error"%string); (101, "STREAM ioctl timeout"%string); (102, "Operation not supported on socket"%string);
   (103, "No such policy registered"%string); (104, "State not recoverable"%string); (105, "Previous owner died"%string);
   (106, "Interface output queue is full, Must be equal largest errno"%string)].

(** unified_logging.py:622-629. *)
Definition file_types : names :=
  [(4096, "p"%string); (8192, "c"%string); (16384, "d"%string); (24576, "b"%string); (40960, "l"%string); (49152, "s"%string)].

(** unified_logging.py:898-904. *)
Definition authorizations : names :=
  [(0, "Not Determined"%string); (1, "Restricted"%string); (2, "Denied"%string); (3, "Authorized Always"%string);
   (4, "Authorized When In Use"%string)].

(** unified_logging.py:954-987. *)
Definition sqlite_results : names :=
  [(0, "SQLITE_OK"%string); (1, "SQLITE_ERROR"%string); (2, "SQLITE_INTERNAL"%string); (3, "SQLITE_PERM"%string); (4, "SQLITE_ABORT"%string);
   (5, "SQLITE_BUSY"%string); (6, "SQLITE_LOCKED"%string); (7, "SQLITE_NOMEM"%string); (8, "SQLITE_READONLY"%string); (9, "SQLITE_INTERRUPT"%string);
   (10, "SQLITE_IOERR"%string); (11, "SQLITE_CORRUPT"%string); (12, "SQLITE_NOTFOUND"%string); (13, "SQLITE_FULL"%string);
   (14, "SQLITE_CANTOPEN"%string); (15, "SQLITE_PROTOCOL"%string); (16, "SQLITE_EMPTY"%string); (17, "SQLITE_SCHEMA"%string);
   (18, "SQLITE_TOOBIG"%string); (19, "SQLITE_CONSTRAINT"%string); (20, "SQLITE_MISMATCH"%string); (21, "SQLITE_MISUSE"%string);
   (22, "SQLITE_NOLFS"%string); (23, "SQLITE_AUTH"%string); (24, "SQLITE_FORMAT"%string); (25, "SQLITE_RANGE"%string); (26, "SQLITE_NOTADB"%string);
   (27, "SQLITE_NOTICE"%string); (28, "SQLITE_WARNING"%string); (100, "SQLITE_ROW"%string); (101, "SQLITE_DONE"%string);
   (266, "SQLITE IO ERR READ"%string)].

(** unified_logging.py:1056-1064. *)
Definition dns_operations : names :=
  [(0, "Query"%string); (1, "IQuery"%string); (2, "Status"%string); (3, "Unassigned"%string); (4, "Notify"%string); (5, "Update"%string);
   (6, "DSO"%string)].

(** unified_logging.py:1068-1081. *)
Definition dns_responses : names :=
  [(0, "NoError"%string); (1, "FormErr"%string); (2, "ServFail"%string); (3, "NXDomain"%string); (4, "NotImp"%string); (5, "Refused"%string);
   (6, "YXDomain"%string); (7, "YXRRSet"%string); (8, "NXRRSet"%string); (9, "NotAuth"%string); (10, "NotZone"%string); (11, "DSOTypeNI"%string)].

(** unified_logging.py:1219-1219. *)
Definition dns_protocols : names :=
  [(1, "UDP"%string); (2, "TCP"%string); (4, "HTTPS"%string)].

(** unified_logging.py:1245-1251. *)
Definition dns_reasons : names :=
  [(1, "no-data"%string); (2, "nxdomain"%string); (3, "query-suppressed"%string); (4, "no-dns-service"%string); (5, "server error"%string)].

(** unified_logging.py:1277-1325. *)
Definition dns_types : names :=
  [(1, "A"%string); (2, "NS"%string); (5, "CNAME"%string); (6, "SOA"%string); (12, "PTR"%string); (13, "HINFO"%string); (15, "MX"%string);
   (16, "TXT"%string); (17, "RP"%string); (18, "AFSDB"%string); (24, "SIG"%string); (25, "KEY"%string); (28, "AAAA"%string); (29, "LOC"%string);
   (33, "SRV"%string); (35, "NAPTR"%string); (36, "KX"%string); (37, "CERT"%string); (39, "DNAME"%string); (42, "APL"%string); (43, "DS"%string);
   (44, "SSHFP"%string); (45, "IPSECKEY"%string); (46, "RRSIG"%string); (47, "NSEC"%string); (48, "DNSKEY"%string); (49, "DHCID"%string);
   (50, "NSEC3"%string); (51, "NSEC3PARAM"%string); (52, "TLSA"%string); (53, "SMIMEA"%string); (55, "HIP"%string); (59, "CDS"%string);
   (60, "CDNSKEY"%string); (61, "OPENPGPKEY"%string); (62, "CSYNC"%string); (63, "ZONEMD"%string); (64, "SVCB"%string); (65, "HTTPS"%string);
   (108, "EUI48"%string); (109, "EUI64"%string); (249, "TKEY"%string); (250, "TSIG"%string); (256, "URI"%string); (257, "CAA"%string);
   (32768, "TA"%string); (32769, "DLV"%string)].

(** unified_logging.py:1351-1416. *)
Definition od_errors : names :=
  [(0, "ODNoError"%string); (2, "Not Found"%string); (1000, "ODErrorSessionLocalOnlyDaemonInUse"%string);
   (1001, "ODErrorSessionNormalDaemonInUse"%string); (1002, "ODErrorSessionDaemonNotRunning"%string); (1003, "ODErrorSessionDaemonRefused"%string);
   (1100, "ODErrorSessionProxyCommunicationError"%string); (1101, "ODErrorSessionProxyVersionMismatch"%string);
   (1102, "ODErrorSessionProxyIPUnreachable"%string); (1103, "ODErrorSessionProxyUnknownHost"%string); (2000, "ODErrorNodeUnknownName"%string);
   (2001, "ODErrorNodeUnknownType"%string); (2002, "ODErrorNodeDisabled"%string); (2100, "ODErrorNodeConnectionFailed"%string);
   (2200, "ODErrorNodeUnknownHost"%string); (3000, "ODErrorQuerySynchronize"%string); (3100, "ODErrorQueryInvalidMatchType"%string);
   (3101, "ODErrorQueryUnsupportedMatchType"%string); (3102, "ODErrorQueryTimeout"%string); (4000, "ODErrorRecordReadOnlyNode"%string);
   (4001, "ODErrorRecordPermissionError"%string); (4100, "ODErrorRecordParameterError"%string); (4101, "ODErrorRecordInvalidType"%string);
   (4102, "ODErrorRecordAlreadyExists"%string); (4103, "ODErrorRecordTypeDisabled"%string); (4104, "ODErrorRecordNoLongerExists"%string);
   (4200, "ODErrorRecordAttributeUnknownType"%string); (4201, "ODErrorRecordAttributeNotFound"%string);
   (4202, "ODErrorRecordAttributeValueSchemaError"%string); (4203, "ODErrorRecordAttributeValueNotFound"%string);
   (5000, "ODErrorCredentialsInvalid"%string); (5001, "ODErrorCredentialsInvalidComputer"%string);
   (5100, "ODErrorCredentialsMethodNotSupported"%string); (5101, "ODErrorCredentialsNotAuthorized"%string);
   (5102, "ODErrorCredentialsParameterError"%string); (5103, "ODErrorCredentialsOperationFailed"%string);
   (5200, "ODErrorCredentialsServerUnreachable"%string); (5201, "ODErrorCredentialsServerNotFound"%string);
   (5202, "ODErrorCredentialsServerError"%string); (5203, "ODErrorCredentialsServerTimeout"%string);
   (5204, "ODErrorCredentialsContactPrimary"%string); (5205, "ODErrorCredentialsServerCommunicationError"%string);
   (5300, "ODErrorCredentialsAccountNotFound"%string); (5301, "ODErrorCredentialsAccountDisabled"%string);
   (5302, "ODErrorCredentialsAccountExpired"%string); (5303, "ODErrorCredentialsAccountInactive"%string);
   (5304, "ODErrorCredentialsAccountTemporarilyLocked"%string); (5305, "ODErrorCredentialsAccountLocked"%string);
   (5400, "ODErrorCredentialsPasswordExpired"%string); (5401, "ODErrorCredentialsPasswordChangeRequired"%string);
   (5402, "ODErrorCredentialsPasswordQualityFailed"%string); (5403, "ODErrorCredentialsPasswordTooShort"%string);
   (5404, "ODErrorCredentialsPasswordTooLong"%string); (5405, "ODErrorCredentialsPasswordNeedsLetter"%string);
   (5406, "ODErrorCredentialsPasswordNeedsDigit"%string); (5407, "ODErrorCredentialsPasswordChangeTooSoon"%string);
   (5408, "ODErrorCredentialsPasswordUnrecoverable"%string); (5500, "ODErrorCredentialsInvalidLogonHours"%string);
   (6000, "ODErrorPolicyUnsupported"%string); (6001, "ODErrorPolicyOutOfRange"%string); (10000, "ODErrorPluginOperationNotSupported"%string);
   (10001, "ODErrorPluginError"%string); (10002, "ODErrorDaemonError"%string); (10003, "ODErrorPluginOperationTimeout"%string)].

(** unified_logging.py:1497-1509. *)
Definition od_types : names :=
  [(0, "UID"%string); (1, "GID"%string); (3, "SID"%string); (4, "Username"%string); (5, "Groupname"%string); (6, "UUID"%string);
   (7, "GROUP NFS"%string); (8, "USER NFS"%string); (10, "GSS EXPORT NAME"%string); (11, "X509 DN"%string); (12, "KERBEROS"%string)].

(** A value whose attributes are used before anything else. *)
Definition need (v : option bytes) : result bytes := match v with Some d => Ok d | None => Err TypeError end.

(** [values.get(n, f"<decode: unknown value: {n:d}>")]. *)
Definition known_or (l : names) (n : Z) : str :=
  match name_of l n with Some s => s | None => s2z "<decode: unknown value: "%string ++ fmt_d n ++ s2z ">"%string end.

(** unified_logging.py:516-546 [BooleanFormatStringDecoder]. *)
Definition dec_bool (f t : String.string) : decoder :=
  fun v _ => do d <- need v; Ok (if le_int d =? 0 then s2z f else s2z t).

(** unified_logging.py:549-567 [DateTimeInSecondsFormatStringDecoder]. *)
Definition dec_time (x : external) : decoder := fun v _ => do d <- need v; x_time x (le_int d).

(** The decoders of 4 byte values: unified_logging.py:1218-1239, 1245-1271, 1277-1345, 1351-1436, 1497-1529. *)
Definition dec_names (l : names) : decoder :=
  fun v _ => do d <- need v; Ok (if len d =? 4 then known_or l (le_int d) else unsupported_value).

(** unified_logging.py:570-591 [ErrorCodeFormatStringDecoder]. *)
Definition dec_error : decoder := dec_names darwin_errors.

(** unified_logging.py:594-616 [ExtendedErrorCodeFormatStringDecoder]. *)
Definition dec_errno : decoder :=
  fun v _ =>
    do d <- need v;
    Ok (if len d =? 4 then s2z "["%string ++ fmt_d (le_int d) ++ s2z ": "%string ++ known_or darwin_errors (le_int d) ++ s2z "]"%string
        else unsupported_value).

(** unified_logging.py:631-669 [FileModeFormatStringDecoder]. *)
Definition flag_char (n mask c : Z) : Z := if Z.land n mask =? 0 then 45 else c.

Definition dec_mode : decoder :=
  fun v _ =>
    do d <- need v;
    let n := le_int d in
    Ok ((match name_of file_types (Z.land n 0xf000) with Some s => s | None => [45] end)
        ++ [flag_char n 0x0100 114; flag_char n 0x0080 119; flag_char n 0x0040 120;
            flag_char n 0x0020 114; flag_char n 0x0010 119; flag_char n 0x0008 120;
            flag_char n 0x0004 114; flag_char n 0x0002 119; flag_char n 0x0001 120]).

(** unified_logging.py:672-701 [FloatingPointFormatStringDecoder]. *)
Definition dec_float (x : external) : decoder :=
  fun v o =>
    do d <- need v;
    if (len d =? 4) || (len d =? 8) then
      match o with
      | Some o => format_one o (x_float x d)
      | None => x_float x d [102]
      end
    else Ok unsupported_value.

(** unified_logging.py:704-721 [IPv4FormatStringDecoder], 724-745 [IPv6FormatStringDecoder]. *)
Definition dec_ipv4 : decoder :=
  fun v _ => do d <- need v; Ok (if len d =? 4 then join [46] (map fmt_d d) else unsupported_value).
Definition dec_ipv6 : decoder :=
  fun v _ => do d <- need v; Ok (if len d =? 16 then join [58] (map (fmt_x 4) (octet_pairs d)) else unsupported_value).

(** ** Location *)

(** The data types of the members of macos_core_location.yaml:7-50; [MSkip] is a stream of bytes that is not used. *)
Inductive member_type := MBool (n : nat) | MUnsigned (n : nat) | MSigned (n : nat) | MFloat | MSkip (n : nat).
Inductive member_value := VBool (b : bool) | VInt (z : Z) | VFloat (d : bytes) | VBytes (d : bytes).

Definition member_size (t : member_type) : nat := match t with MBool n | MUnsigned n | MSigned n | MSkip n => n | MFloat => 8%nat end.

(** A boolean has a false value of 0 and no true value: every other value is true. *)
Definition member_of (t : member_type) (d : bytes) : member_value :=
  match t with
  | MBool _ => VBool (negb (le_int d =? 0))
  | MUnsigned _ => VInt (le_int d)
  | MSigned n => VInt (to_signed n (le_int d))
  | MFloat => VFloat d
  | MSkip _ => VBytes d
  end.

Definition members : Type := list (String.string * member_type).

(** dtFabric: the members in the order of the definition; too little data is a ParseError. *)
Fixpoint map_members (ms : members) (d : bytes) : result (list (String.string * member_value)) :=
  match ms with
  | [] => Ok []
  | (name, t) :: ms =>
      do _ <- guard (Z.of_nat (member_size t) <=? len d) ParseError;
      do l <- map_members ms (skipn (member_size t) d);
      Ok ((name, member_of t (firstn (member_size t) d)) :: l)
  end.

(** data_format.py:634-669: empty data is a ValueError. *)
Definition read_members (ms : members) (d : bytes) : result (list (String.string * member_value)) :=
  match d with [] => Err ValueError | _ => map_members ms d end.

(** macos_core_location.yaml:88-97. *)
Definition client_state : members := [("location_enabled_status"%string, MUnsigned 4); ("location_restricted"%string, MBool 4)].

(** macos_core_location.yaml:99-152, 154-223. *)
Definition manager_state_v1 : members :=
  [("distance_filter"%string, MFloat); ("desired_accuracy"%string, MFloat); ("updating_location"%string, MBool 1); ("requesting_location"%string, MBool 1);
   ("requesting_ranging"%string, MBool 1); ("updating_ranging"%string, MBool 1); ("updating_heading"%string, MBool 1); ("unknown1"%string, MSkip 3);
   ("heading_filter"%string, MFloat); ("allows_location_prompts"%string, MBool 1); ("allows_altered_accessory_location"%string, MBool 1);
   ("dynamic_accuracy_reduction_enabled"%string, MBool 1); ("previous_authorization_status_valid"%string, MBool 1); ("previous_authorization_status"%string, MUnsigned 4);
   ("limits_precision"%string, MBool 1); ("unknown2"%string, MSkip 7); ("activity_type"%string, MSigned 8); ("pauses_location_updates_automatially"%string, MSigned 4);
   ("paused"%string, MBool 1); ("allows_background_location_updates"%string, MBool 1); ("shows_background_location_indicator"%string, MBool 1);
   ("allows_map_correction"%string, MBool 1)].
Definition manager_state_v2 : members :=
  manager_state_v1 ++
  [("batching_location"%string, MBool 1); ("updating_vehicle_speed"%string, MBool 1); ("updating_vehicle_heading"%string, MBool 1);
   ("match_information_enabled"%string, MBool 1); ("ground_altitude_enabled"%string, MBool 1); ("fusion_information_enabled"%string, MBool 1);
   ("courtesy_prompt_needed"%string, MBool 1); ("is_authorized_for_widget_updates"%string, MBool 1)].

(** unified_logging.py:801-804. *)
Definition client_mappings : list (String.string * String.string) :=
  [("locationRestricted"%string, "location_restricted"%string); ("locationServicesEnabledStatus"%string, "location_enabled_status"%string)].

(** unified_logging.py:837-866. *)
Definition manager_mappings : list (String.string * String.string) :=
  [("previousAuthorizationStatusValid"%string, "previous_authorization_status_valid"%string); ("paused"%string, "paused"%string);
   ("requestingLocation"%string, "requesting_location"%string); ("updatingVehicleSpeed"%string, "updating_vehicle_speed"%string);
   ("desiredAccuracy"%string, "desired_accuracy"%string); ("allowsBackgroundLocationUpdates"%string, "allows_background_location_updates"%string);
   ("dynamicAccuracyReductionEnabled"%string, "dynamic_accuracy_reduction_enabled"%string); ("distanceFilter"%string, "distance_filter"%string);
   ("allowsLocationPrompts"%string, "allows_location_prompts"%string); ("activityType"%string, "activity_type"%string);
   ("groundAltitudeEnabled"%string, "ground_altitude_enabled"%string);
   ("pausesLocationUpdatesAutomatially"%string, "pauses_location_updates_automatially"%string);
   ("fusionInfoEnabled"%string, "fusion_information_enabled"%string);
   ("isAuthorizedForWidgetUpdates"%string, "is_authorized_for_widget_updates"%string);
   ("updatingVehicleHeading"%string, "updating_vehicle_heading"%string); ("batchingLocation"%string, "batching_location"%string);
   ("showsBackgroundLocationIndicator"%string, "shows_background_location_indicator"%string);
   ("updatingLocation"%string, "updating_location"%string); ("requestingRanging"%string, "requesting_ranging"%string);
   ("updatingHeading"%string, "updating_heading"%string); ("previousAuthorizationStatus"%string, "previous_authorization_status"%string);
   ("allowsMapCorrection"%string, "allows_map_correction"%string); ("matchInfoEnabled"%string, "match_information_enabled"%string);
   ("allowsAlteredAccessoryLoctions"%string, "allows_altered_accessory_location"%string); ("updatingRanging"%string, "updating_ranging"%string);
   ("limitsPrecision"%string, "limits_precision"%string); ("courtesyPromptNeeded"%string, "courtesy_prompt_needed"%string);
   ("headingFilter"%string, "heading_filter"%string)].

Fixpoint attribute (l : list (String.string * member_value)) (name : String.string) : option member_value :=
  match l with [] => None | (k, v) :: l => if String.eqb k name then Some v else attribute l name end.

(** unified_logging.py:772-785; the mappings have no streams. *)
Definition member_text (x : external) (v : member_value) : result str :=
  match v with
  | VBool b => Ok (if b then s2z "true"%string else s2z "false"%string)
  | VInt z => Ok (fmt_d z)
  | VFloat d => x_float x d (s2z ".0f"%string)
  | VBytes _ => Err OtherError
  end.

Fixpoint mapped_texts (x : external) (l : list (String.string * member_value)) (mappings : list (String.string * String.string)) : result (list str) :=
  match mappings with
  | [] => Ok []
  | (name, a) :: mappings =>
      match attribute l a with
      | None => mapped_texts x l mappings
      | Some v =>
          do t <- member_text x v;
          do ts <- mapped_texts x l mappings;
          Ok (([34] ++ s2z name ++ [34; 58] ++ t) :: ts)
      end
  end.

(** unified_logging.py:755-789 [_FormatStructure]. *)
Definition format_structure (x : external) (l : list (String.string * member_value)) (mappings : list (String.string * String.string)) : result str :=
  do ts <- mapped_texts x l mappings;
  Ok ([123] ++ join [44] ts ++ [125]).

(** unified_logging.py:806-825 [LocationClientManagerStateFormatStringDecoder]. *)
Definition dec_client_state (x : external) : decoder :=
  fun v _ =>
    do d <- need v;
    if len d =? 8 then do l <- read_members client_state d; format_structure x l client_mappings
    else Ok unsupported_value.

(** unified_logging.py:868-892 [LocationLocationManagerStateFormatStringDecoder]. *)
Definition dec_manager_state (x : external) : decoder :=
  fun v _ =>
    do d <- need v;
    if len d =? 64 then do l <- read_members manager_state_v1 d; format_structure x l manager_mappings
    else if len d =? 72 then do l <- read_members manager_state_v2 d; format_structure x l manager_mappings
    else Ok unsupported_value.

Definition quoted (s : str) : str := [34] ++ s ++ [34].

(** unified_logging.py:906-922 [LocationClientAuthorizationStatusFormatStringDecoder]. *)
Definition dec_authorization : decoder := fun v _ => do d <- need v; Ok (quoted (known_or authorizations (le_int d))).

(** [value.decode("utf-8").rstrip("\x00")]; a UnicodeDecodeError gives the text for unsupported values. *)
Definition with_text (x : external) (d : bytes) (k : str -> result str) : result str :=
  match x_utf8 x d with Some t => k (rstrip 0 t) | None => Ok unsupported_value end.

(** unified_logging.py:928-948 [LocationEscapeOnlyFormatStringDecoder]. *)
Definition dec_escape (x : external) : decoder :=
  fun v _ =>
    match v with
    | None => Err AttributeError
    | Some d => with_text x d (fun t => Ok (quoted (flat_map (fun c => if c =? 47 then [92; 47] else [c]) t)))
    end.

(** unified_logging.py:989-1007 [LocationSQLiteResultFormatStringDecoder]. *)
Definition dec_sqlite : decoder :=
  fun v _ => do d <- need v; Ok (if len d =? 4 then quoted (known_or sqlite_results (le_int d)) else unsupported_value).

(** ** Mask hashes *)

(** [base64.b64encode]. *)
Definition b64_char (n : Z) : Z := nth (Z.to_nat n) (s2z "ABCDEFGHIJKLMNOPQRSTUVWXYZabcdefghijklmnopqrstuvwxyz0123456789+/"%string) 0.

Fixpoint b64encode (d : bytes) : str :=
  match d with
  | a :: b :: c :: r =>
      [b64_char (Z.shiftr a 2); b64_char (Z.lor (Z.shiftl (Z.land a 3) 4) (Z.shiftr b 4));
       b64_char (Z.lor (Z.shiftl (Z.land b 15) 2) (Z.shiftr c 6)); b64_char (Z.land c 63)] ++ b64encode r
  | [a; b] =>
      [b64_char (Z.shiftr a 2); b64_char (Z.lor (Z.shiftl (Z.land a 3) 4) (Z.shiftr b 4)); b64_char (Z.shiftl (Z.land b 15) 2); 61]
  | [a] => [b64_char (Z.shiftr a 2); b64_char (Z.shiftl (Z.land a 3) 4); 61; 61]
  | [] => []
  end.

(** unified_logging.py:1013-1030 [MaskHashFormatStringDecoder]. *)
Definition dec_mask : decoder :=
  fun v _ =>
    Ok (s2z "<mask.hash: "%string
        ++ (match v with None | Some [] => s2z "(null)"%string | Some d => [39] ++ b64encode d ++ [39] end)
        ++ s2z ">"%string).

(** ** mDNS *)

Definition name_or (l : names) (n : Z) (s : String.string) : str := match name_of l n with Some t => t | None => s2z s end.

(** unified_logging.py:1045-1052. *)
Definition dns_flags : names :=
  [(0x0400, "AA"%string); (0x0200, "TC"%string); (0x0100, "RD"%string); (0x0080, "RA"%string); (0x0020, "AD"%string); (0x0010, "CD"%string)].

(** unified_logging.py:1085-1113 [_FormatFlags]. *)
Definition format_flags (n : Z) : str :=
  (if Z.land n 0x8000 =? 0 then [81] else [82]) ++ [47] ++ name_or dns_operations (Z.shiftr (Z.land n 0x7800) 11) "?"%string ++ [44; 32]
  ++ join [44; 32] (map (fun f => s2z (snd f)) (filter (fun f => negb (Z.land n (fst f) =? 0)) dns_flags)) ++ [44; 32]
  ++ name_or dns_responses (Z.land n 0x000f) "?"%string.

Definition upper_x (w n : Z) : str := map upper_digit (fmt_x w n).

(** unified_logging.py:1162-1179, 1200-1213. *)
Definition format_header (id flags : Z) : str :=
  s2z "id: 0x"%string ++ upper_x 4 id ++ s2z " ("%string ++ fmt_d id ++ s2z "), flags: 0x"%string ++ upper_x 4 flags
  ++ s2z " ("%string ++ format_flags flags ++ s2z ")"%string.

Definition format_counts (l : list Z) : str := join [47] (map fmt_d l).

(** unified_logging.py:1119-1143 [MDNSDNSCountersFormatStringDecoder], macos_mdns.yaml:21-34. *)
Definition dec_dns_counts : decoder :=
  fun v _ =>
    do d <- need v;
    if len d =? 8 then
      do l <- read_members [("additional"%string, MUnsigned 2); ("authority"%string, MUnsigned 2); ("answers"%string, MUnsigned 2); ("questions"%string, MUnsigned 2)] d;
      match l with
      | [(_, VInt additional); (_, VInt authority); (_, VInt answers); (_, VInt questions)] => Ok (format_counts [questions; answers; authority; additional])
      | _ => Err OtherError
      end
    else Ok unsupported_value.

(** unified_logging.py:1187-1213 [MDNSDNSIdentifierAndFlagsFormatStringDecoder], macos_mdns.yaml:55-66. *)
Definition dec_dns_idflags : decoder :=
  fun v _ =>
    do d <- need v;
    if len d =? 8 then
      do l <- read_members [("flags"%string, MUnsigned 2); ("identifier"%string, MUnsigned 2); ("unknown1"%string, MUnsigned 4)] d;
      match l with
      | [(_, VInt flags); (_, VInt identifier); _] => Ok (format_header identifier flags)
      | _ => Err OtherError
      end
    else Ok unsupported_value.

(** unified_logging.py:1149-1179 [MDNSDNSHeaderFormatStringDecoder], macos_mdns.yaml:36-53: big-endian members of 2 bytes. *)
Definition dec_dns_header : decoder :=
  fun v _ =>
    do d <- need v;
    if len d =? 12 then
      match octet_pairs d with
      | identifier :: flags :: counts => Ok (format_header identifier flags ++ s2z ", counts: "%string ++ format_counts counts)
      | _ => Err OtherError
      end
    else Ok unsupported_value.

(** ** Open Directory *)

(** unified_logging.py:1448-1456 [_TYPES]: the name of the type and whether an identifier or a name is stored. *)
Definition membership_types : list (Z * (String.string * bool)) :=
  [(0x23, ("user"%string, true)); (0x24, ("user"%string, false)); (0x44, ("group"%string, false)); (0xa0, ("user"%string, false));
   (0xa3, ("user"%string, true)); (0xa4, ("user"%string, false)); (0xc3, ("group"%string, true))].

(** unified_logging.py:1458-1491 [OpenDirectoryMembershipDetailsFormatStringDecoder], macos_open_directory.yaml:21-50. *)
Definition rd_membership (x : external) (identifier : bool) : reader (str * str) :=
  rd who <- (if identifier then rd z <- rd_int (FS LE 4); rd_ret (fmt_d z) else rd_cstring (x_utf8 x));
  rd domain <- rd_cstring (x_utf8 x);
  rd_ret (who, domain).

Definition dec_membership (x : external) : decoder :=
  fun v _ =>
    do d <- need v;
    match d with
    | [] => Ok unsupported_value
    | t :: r =>
        match find (fun e => fst e =? t) membership_types with
        | None => Ok (s2z "ERROR: unsupported type: 0x"%string ++ fmt_x 2 t)
        | Some (_, (name, identifier)) =>
            match r with
            | [] => Err ValueError
            | _ =>
                do (p, _) <- rd_membership x identifier r 0;
                let '(who, domain) := p in
                Ok (s2z name ++ s2z ": "%string ++ who ++ s2z "@"%string ++ domain)
            end
        end
    end.

(** unified_logging.py:1962-1993 [WindowsNTSecurityIdentifierFormatStringDecoder], windows_nt.yaml:38-54. *)
Definition rd_sid : reader (Z * Z * list Z) :=
  rd revision <- rd_int (FU LE 1);
  rd number <- rd_int (FU LE 1);
  rd upper <- rd_int (FU BE 2);
  rd lower <- rd_int (FU BE 4);
  rd subs <- rd_times (Z.to_nat number) (rd_int (FU LE 4));
  rd_ret (revision, Z.lor lower (Z.shiftl upper 32), subs).

Definition dec_sid : decoder :=
  fun v _ =>
    do d <- need v;
    if len d <? 8 then Ok unsupported_value
    else
      do (p, _) <- rd_sid d 0;
      let '(revision, authority, subs) := p in
      Ok (s2z "S-"%string ++ fmt_d revision ++ [45] ++ fmt_d authority ++ [45] ++ join [45] (map fmt_d subs)).

(** ** Signposts *)

Definition one_of_chars (c : Z) (s : String.string) : bool := existsb (Z.eqb c) (s2z s).

(** unified_logging.py:1562-1632, 1700-1770 [_GetStringValue]. *)
Definition signpost_value (x : external) (d : bytes) (o : option operator) : result str :=
  let specifier := match o with Some o => op_specifier o | None => 115 end in
  let formatted (render : str -> result str) (default : str) := match o with Some o => format_one o render | None => render default end in
  match d with
  | [] => Ok []
  | _ =>
      if one_of_chars specifier "aAeEfFgG"%string then
        if (len d =? 4) || (len d =? 8) then x_float x d (s2z ".16g"%string) else Ok unsupported_value
      else if one_of_chars specifier "cCoOpuUxX"%string then
        if existsb (Z.eqb (len d)) [1; 2; 4; 8] then formatted (fun spec => py_format_int spec (le_int d)) [100] else Ok unsupported_value
      else if one_of_chars specifier "dDim"%string then
        if existsb (Z.eqb (len d)) [1; 2; 4; 8] then formatted (fun spec => py_format_int spec (to_signed (length d) (le_int d))) [100]
        else Ok unsupported_value
      else if one_of_chars specifier "@sS"%string then
        with_text x d (fun t => formatted (fun spec => py_format_str spec t) [115])
      else Ok unsupported_value
  end.

Definition signpost_text (kind : str) (value : str) : str :=
  s2z "__##__signpost."%string ++ kind ++ s2z "#_##_#"%string ++ value ++ s2z "##__##"%string.

(** unified_logging.py:1634-1651 [SignpostDescriptionAttributeFormatStringDecoder]. *)
Definition dec_attribute (x : external) : decoder :=
  fun v o => do d <- need v; do t <- signpost_value x d o; Ok (signpost_text (s2z "description#____#attribute"%string) t).

(** unified_logging.py:1666-1685 [SignpostDescriptionTimeFormatStringDecoder]. *)
Definition dec_sp_time (time : String.string) : decoder :=
  fun v _ =>
    do d <- need v;
    Ok (if len d =? 8 then signpost_text (s2z "description#____#"%string ++ s2z time ++ s2z "_time"%string) (fmt_d (le_int d)) else unsupported_value).

(** unified_logging.py:1772-1789 [SignpostTelemetryNumberFormatStringDecoder]. *)
Definition dec_sp_number (x : external) (number : Z) : decoder :=
  fun v o => do d <- need v; do t <- signpost_value x d o; Ok (signpost_text (s2z "telemetry#____#number"%string ++ fmt_d number) t).

(** unified_logging.py:1804-1823 [SignpostTelemetryStringFormatStringDecoder]. *)
Definition dec_sp_string (x : external) (number : Z) : decoder :=
  fun v _ =>
    match v with
    | None => Err AttributeError
    | Some d => with_text x d (fun t => Ok (signpost_text (s2z "telemetry#____#string"%string ++ fmt_d number) t))
    end.

(** ** Other values *)

(** unified_logging.py:1829-1865 [SocketAddressFormatStringDecoder]. *)
Definition dec_sockaddr : decoder :=
  fun v _ =>
    do d <- need v;
    match d with
    | [] => Ok (s2z "<NULL>"%string)
    | [_] => Ok unsupported_value
    | _ :: family :: _ =>
        if (family =? 2) && (len d =? 16) then Ok (join [46] (map fmt_d (pyslice d 4 8)))
        else if (family =? 30) && (len d =? 28) then
          let s := join [58] (map (fun n => if n =? 0 then [] else fmt_x 4 n) (octet_pairs (pyslice d 8 24))) in
          Ok (if list_eqb s (s2z ":::::::"%string) then s2z "::"%string else s)
        else Ok unsupported_value
    end.

(** unified_logging.py:1938-1950 [UUIDFormatStringDecoder]: [uuid.UUID(bytes=value)] is a ValueError if there are not 16
    bytes and a TypeError for None. *)
Definition dec_uuid : decoder :=
  fun v _ => do d <- need v; do _ <- guard (len d =? 16) ValueError; Ok (map upper_digit (uuid_str d)).

(** The decoders of C38 with values that can be missing. *)
Definition dec_signed : decoder := fun v o => do d <- need v; format_signed d o.
Definition dec_unsigned : decoder := fun v o => do d <- need v; format_unsigned d o.
Definition dec_string (x : external) : decoder := fun v o => format_text (x_utf8 x) (match v with Some d => d | None => [] end) o.

(** unified_logging.py:2519-2587 [_FORMAT_STRING_DECODERS]. *)
Definition decoder_table (x : external) : list (String.string * decoder) :=
  [("bool"%string, dec_bool "false" "true"); ("BOOL"%string, dec_bool "NO" "YES"); ("darwin.errno"%string, dec_errno); ("darwin.mode"%string, dec_mode);
   ("errno"%string, dec_errno); ("in_addr"%string, dec_ipv4); ("in6_addr"%string, dec_ipv6); ("internal:f"%string, dec_float x); ("internal:i"%string, dec_signed);
   ("internal:m"%string, dec_error); ("internal:s"%string, dec_string x); ("internal:u"%string, dec_unsigned);
   ("location:_CLClientManagerStateTrackerState"%string, dec_client_state x); ("location:_CLLocationManagerStateTrackerState"%string, dec_manager_state x);
   ("location:CLClientAuthorizationStatus"%string, dec_authorization); ("location:escape_only"%string, dec_escape x); ("location:SqliteResult"%string, dec_sqlite);
   ("mdns:acceptable"%string, dec_bool "unacceptable" "acceptable"); ("mdns:addrmv"%string, dec_bool "rmv" "add"); ("mdns:dns.counts"%string, dec_dns_counts);
   ("mdns:dns.idflags"%string, dec_dns_idflags); ("mdns:dnshdr"%string, dec_dns_header); ("mdns:protocol"%string, dec_names dns_protocols);
   ("mdns:nreason"%string, dec_names dns_reasons); ("mdns:rrtype"%string, dec_names dns_types); ("mdns:yesno"%string, dec_bool "no" "yes");
   ("network:in_addr"%string, dec_ipv4); ("network:in6_addr"%string, dec_ipv6); ("network:sockaddr"%string, dec_sockaddr); ("mask.hash"%string, dec_mask);
   ("odtypes:mbr_details"%string, dec_membership x); ("odtypes:mbridtype"%string, dec_names od_types); ("odtypes:nt_sid_t"%string, dec_sid);
   ("odtypes:ODError"%string, dec_names od_errors); ("signpost.description:attribute"%string, dec_attribute x); ("signpost.description:begin_time"%string, dec_sp_time "begin");
   ("signpost.description:end_time"%string, dec_sp_time "end"); ("signpost.telemetry:number1"%string, dec_sp_number x 1); ("signpost.telemetry:number2"%string, dec_sp_number x 2);
   ("signpost.telemetry:number3"%string, dec_sp_number x 3); ("signpost.telemetry:string1"%string, dec_sp_string x 1); ("signpost.telemetry:string2"%string, dec_sp_string x 2);
   ("sockaddr"%string, dec_sockaddr); ("time_t"%string, dec_time x); ("uuid_t"%string, dec_uuid)].

Fixpoint lookup (l : list (String.string * decoder)) (name : str) : option decoder :=
  match l with [] => None | (k, d) :: l => if list_eqb (s2z k) name then Some d else lookup l name end.

(** The decoders of LeModel, [ev_decoders]. *)
Definition decoders (x : external) (name : str) : option decoder := lookup (decoder_table x) name.

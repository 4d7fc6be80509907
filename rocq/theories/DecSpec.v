(** What the value decoders show. *)

From Verif Require Import Base BaseFacts StrModel FmtModel UuidSpec CatSpec DecModel.
From Coq Require String.
Import String.StringSyntax.

(** ** Kinds of values and the decoder names that call for them *)

Inductive kind :=
| KBool (no yes : String.string) | KNames (l : list (Z * String.string)) | KQuoted (l : list (Z * String.string)) | KErrno | KStatus
| KMode | KIpv4 | KIpv6 | KSocket | KFloat | KSigned | KUnsigned | KText | KClient | KManager | KEscape | KMask | KCounts | KIdFlags | KDnsHeader
| KMember | KSid | KAttribute (what : String.string) | KMoment (what : String.string) | KString (what : String.string) | KTime | KUuid.

(** The texts of the error numbers 0, 1, 2, ... *)
Definition errno_texts : list String.string :=
  ["Success"%string; "Operation not permitted"%string; "No such file or directory"%string; "No such process"%string;
   "Interrupted system call"%string; "Input/Output error"%string; "Device not configured"%string; "Argument list too long"%string;
   "Exec format error"%string; "Bad file descriptor"%string; "No child processes"%string; "Resource deadlock avoided"%string;
   "Cannot allocate memory"%string; "Permission denied"%string; "Bad address"%string; "Block device required"%string;
   "Device / Resource busy"%string; "File exists"%string; "Cross-device link"%string; "Operation not supported by device"%string;
   "Not a directory"%string; "Is a directory"%string; "Invalid argument"%string; "Too many open files in system"%string;
   "Too many open files"%string; "Inappropriate ioctl for devices"%string; "Text file busy"%string; "File too large"%string;
   "No space left on device"%string; "Illegal seek"%string; "Read-only filesystem"%string; "Too many links"%string; "Broken pipe"%string;
   "Numerical argument out of domain"%string; "Result too large"%string; "Resource temporarily unavailable, operation would block"%string;
   "Operation now in progress"%string; "Operation already in progress"%string; "Socket operation on non-socket"%string;
   "Destination address required"%string; "Message too long"%string; "Protocol wrong type for socket"%string; "Protocol not available"%string;
   "Protocol not supported"%string; "Socket type not supported"%string; "Operation not supported, Operation not supported on socket"%string;
   "Protocol family not supported"%string; "Address family not supported by protocol family"%string; "Address already in use"%string;
   "Can't assign requested address"%string; "Network is down"%string; "Network is unreachable"%string; "Network dropped connection on reset"%string;
   "Software caused connection abort"%string; "Connection reset by peer"%string; "No buffer space available"%string;
   "Socket is already connected"%string; "Socket is not connected"%string; "Can't send after socket shutdown"%string;
   "Too many references: can't splice"%string; "Operation timed out"%string; "Connection refused"%string; "Too many levels of symbolic links"%string;
   "File name too long"%string; "Host is down"%string; "No route to host"%string; "Directory not empty"%string; "Too many processes"%string;
   "Too many users"%string; "Disc quota exceeded"%string; "Stale NFS file handle"%string; "Too many levels of remote in path"%string;
   "RPC struct is bad"%string; "RPC version wrong"%string; "RPC prog. not avail"%string; "Program version wrong"%string;
   "Bad procedure for program"%string; "No locks available"%string; "Function not implemented"%string; "Inappropriate file type or format"%string;
   "Authentication error"%string; "Need authenticator"%string; "Device power is off"%string; "Device error, e.g. paper out"%string;
   "Value too large to be stored in data type"%string; "Bad executable"%string; "Bad CPU type in executable"%string;
   "Shared library version mismatch"%string; "Malformed Macho file"%string; "Operation canceled"%string; "Identifier removed"%string;
   "No message of desired type"%string; "Illegal byte sequence"%string; "Attribute not found"%string; "Bad message"%string; "Reserved"%string;
   "No message available on STREAM"%string; "Reserved"%string; "No STREAM resources"%string; "Not a STREAM"%string; "Protocol error"%string;
   "STREAM ioctl timeout"%string; "Operation not supported on socket"%string; "No such policy registered"%string; "State not recoverable"%string;
   "Previous owner died"%string; "Interface output queue is full, Must be equal largest errno"%string].

Definition numbered (l : list String.string) : list (Z * String.string) := combine (map Z.of_nat (seq 0 (length l))) l.

(** The authorizations of location clients. *)
Definition authorization_texts : list (Z * String.string) :=
  numbered
  ["Not Determined"%string; "Restricted"%string; "Denied"%string; "Authorized Always"%string; "Authorized When In Use"%string]
  .

(** The results of SQLite. *)
Definition sqlite_texts : list (Z * String.string) :=
  numbered
  ["SQLITE_OK"%string; "SQLITE_ERROR"%string; "SQLITE_INTERNAL"%string; "SQLITE_PERM"%string; "SQLITE_ABORT"%string; "SQLITE_BUSY"%string;
   "SQLITE_LOCKED"%string; "SQLITE_NOMEM"%string; "SQLITE_READONLY"%string; "SQLITE_INTERRUPT"%string; "SQLITE_IOERR"%string;
   "SQLITE_CORRUPT"%string; "SQLITE_NOTFOUND"%string; "SQLITE_FULL"%string; "SQLITE_CANTOPEN"%string; "SQLITE_PROTOCOL"%string;
   "SQLITE_EMPTY"%string; "SQLITE_SCHEMA"%string; "SQLITE_TOOBIG"%string; "SQLITE_CONSTRAINT"%string; "SQLITE_MISMATCH"%string;
   "SQLITE_MISUSE"%string; "SQLITE_NOLFS"%string; "SQLITE_AUTH"%string; "SQLITE_FORMAT"%string; "SQLITE_RANGE"%string; "SQLITE_NOTADB"%string;
   "SQLITE_NOTICE"%string; "SQLITE_WARNING"%string]
  ++
  [(100, "SQLITE_ROW"%string); (101, "SQLITE_DONE"%string); (266, "SQLITE IO ERR READ"%string)].

(** The operations of DNS messages; the number 3 is unassigned. *)
Definition opcode_texts : list (Z * String.string) :=
  numbered
  ["Query"%string; "IQuery"%string; "Status"%string; "Unassigned"%string; "Notify"%string; "Update"%string; "DSO"%string]
  .

(** The response codes of DNS messages. *)
Definition rcode_texts : list (Z * String.string) :=
  numbered
  ["NoError"%string; "FormErr"%string; "ServFail"%string; "NXDomain"%string; "NotImp"%string; "Refused"%string; "YXDomain"%string; "YXRRSet"%string;
   "NXRRSet"%string; "NotAuth"%string; "NotZone"%string; "DSOTypeNI"%string]
  .

(** The types of identifiers of group members. *)
Definition membership_texts : list (Z * String.string) :=
  numbered
  ["UID"%string; "GID"%string]
  ++
  [(3, "SID"%string); (4, "Username"%string); (5, "Groupname"%string); (6, "UUID"%string); (7, "GROUP NFS"%string); (8, "USER NFS"%string);
   (10, "GSS EXPORT NAME"%string); (11, "X509 DN"%string); (12, "KERBEROS"%string)].

(** The protocols. *)
Definition protocol_texts : list (Z * String.string) :=
  [(1, "UDP"%string); (2, "TCP"%string); (4, "HTTPS"%string)].

(** The reasons of negative answers. *)
Definition reason_texts : list (Z * String.string) :=
  [(1, "no-data"%string); (2, "nxdomain"%string); (3, "query-suppressed"%string); (4, "no-dns-service"%string); (5, "server error"%string)].

(** The types of resource records. *)
Definition rrtype_texts : list (Z * String.string) :=
  [(1, "A"%string); (2, "NS"%string); (5, "CNAME"%string); (6, "SOA"%string); (12, "PTR"%string); (13, "HINFO"%string); (15, "MX"%string);
   (16, "TXT"%string); (17, "RP"%string); (18, "AFSDB"%string); (24, "SIG"%string); (25, "KEY"%string); (28, "AAAA"%string); (29, "LOC"%string);
   (33, "SRV"%string); (35, "NAPTR"%string); (36, "KX"%string); (37, "CERT"%string); (39, "DNAME"%string); (42, "APL"%string); (43, "DS"%string);
   (44, "SSHFP"%string); (45, "IPSECKEY"%string); (46, "RRSIG"%string); (47, "NSEC"%string); (48, "DNSKEY"%string); (49, "DHCID"%string);
   (50, "NSEC3"%string); (51, "NSEC3PARAM"%string); (52, "TLSA"%string); (53, "SMIMEA"%string); (55, "HIP"%string); (59, "CDS"%string);
   (60, "CDNSKEY"%string); (61, "OPENPGPKEY"%string); (62, "CSYNC"%string); (63, "ZONEMD"%string); (64, "SVCB"%string); (65, "HTTPS"%string);
   (108, "EUI48"%string); (109, "EUI64"%string); (249, "TKEY"%string); (250, "TSIG"%string); (256, "URI"%string); (257, "CAA"%string);
   (32768, "TA"%string); (32769, "DLV"%string)].

(** The errors of Open Directory. *)
Definition open_directory_texts : list (Z * String.string) :=
  [(0, "ODNoError"%string); (2, "Not Found"%string); (1000, "ODErrorSessionLocalOnlyDaemonInUse"%string);
   (1001, "ODErrorSessionNormalDaemonInUse"%string); (1002, "ODErrorSessionDaemonNotRunning"%string); (1003, "ODErrorSessionDaemonRefused"%string);
   (1100, "ODErrorSessionProxyCommunicationError"%string); (1101, "ODErrorSessionProxyVersionMismatch"%string);
   (1102, "ODErrorSessionProxyIPUnreachable"%string); (1103, "ODErrorSessionProxyUnknownHost"%string); (2000, "ODErrorNodeUnknownName"%string);
   (2001, "ODErrorNodeUnknownType"%string); (2002, "ODErrorNodeDisabled"%string); (2100, "ODErrorNodeConnectionFailed"%string);
   (2200, "ODErrorNodeUnknownHost"%string); (3000, "ODErrorQuerySynchronize"%string); (3100, "ODErrorQueryInvalidMatchType"%string);
   (3101, "ODErrorQueryUnsupportedMatchType"%string); (3102, "ODErrorQueryTimeout"%string); (4000, "ODErrorRecordReadOnlyNode"%string);
   (4001, "ODErrorRecordPermissionError"%string); (4100, "ODErrorRecordParameterError"%string); (4101, "ODErrorRecordInvalidType"%string);
   (4102, "ODErrorRecordAlreadyExists"%string); (4103, "ODErrorRecordTypeDisabled"%string); (4104, "ODErrorRecordNoLongerExists"%string);
   (4200, "ODErrorRecordAttributeUnknownType"%string); (4201, "ODErrorRecordAttributeNotFound"%string);
   (4202, "ODErrorRecordAttributeValueSchemaError"%string); (4203, "ODErrorRecordAttributeValueNotFound"%string);
   (5000, "ODErrorCredentialsInvalid"%string); (5001, "ODErrorCredentialsInvalidComputer"%string);
   (5100, "ODErrorCredentialsMethodNotSupported"%string); (5101, "ODErrorCredentialsNotAuthorized"%string);
   (5102, "ODErrorCredentialsParameterError"%string); (5103, "ODErrorCredentialsOperationFailed"%string);
   (5200, "ODErrorCredentialsServerUnreachable"%string); (5201, "ODErrorCredentialsServerNotFound"%string);
   (5202, "ODErrorCredentialsServerError"%string); (5203, "ODErrorCredentialsServerTimeout"%string);
   (5204, "ODErrorCredentialsContactPrimary"%string); (5205, "ODErrorCredentialsServerCommunicationError"%string);
   (5300, "ODErrorCredentialsAccountNotFound"%string); (5301, "ODErrorCredentialsAccountDisabled"%string);
   (5302, "ODErrorCredentialsAccountExpired"%string); (5303, "ODErrorCredentialsAccountInactive"%string);
   (5304, "ODErrorCredentialsAccountTemporarilyLocked"%string); (5305, "ODErrorCredentialsAccountLocked"%string);
   (5400, "ODErrorCredentialsPasswordExpired"%string); (5401, "ODErrorCredentialsPasswordChangeRequired"%string);
   (5402, "ODErrorCredentialsPasswordQualityFailed"%string); (5403, "ODErrorCredentialsPasswordTooShort"%string);
   (5404, "ODErrorCredentialsPasswordTooLong"%string); (5405, "ODErrorCredentialsPasswordNeedsLetter"%string);
   (5406, "ODErrorCredentialsPasswordNeedsDigit"%string); (5407, "ODErrorCredentialsPasswordChangeTooSoon"%string);
   (5408, "ODErrorCredentialsPasswordUnrecoverable"%string); (5500, "ODErrorCredentialsInvalidLogonHours"%string);
   (6000, "ODErrorPolicyUnsupported"%string); (6001, "ODErrorPolicyOutOfRange"%string); (10000, "ODErrorPluginOperationNotSupported"%string);
   (10001, "ODErrorPluginError"%string); (10002, "ODErrorDaemonError"%string); (10003, "ODErrorPluginOperationTimeout"%string)].

Definition documented : list (String.string * kind) :=
  [("internal:f"%string, KFloat); ("internal:i"%string, KSigned); ("internal:u"%string, KUnsigned); ("internal:s"%string, KText);
   ("internal:m"%string, KNames (numbered errno_texts));
   ("bool"%string, KBool "false" "true"); ("BOOL"%string, KBool "NO" "YES"); ("mdns:yesno"%string, KBool "no" "yes"); ("mdns:addrmv"%string, KBool "rmv" "add");
   ("mdns:acceptable"%string, KBool "unacceptable" "acceptable");
   ("errno"%string, KErrno); ("darwin.errno"%string, KErrno); ("darwin.mode"%string, KMode); ("time_t"%string, KTime); ("uuid_t"%string, KUuid);
   ("in_addr"%string, KIpv4); ("network:in_addr"%string, KIpv4); ("in6_addr"%string, KIpv6); ("network:in6_addr"%string, KIpv6);
   ("sockaddr"%string, KSocket); ("network:sockaddr"%string, KSocket); ("mask.hash"%string, KMask);
   ("location:CLClientAuthorizationStatus"%string, KStatus); ("location:SqliteResult"%string, KQuoted sqlite_texts); ("location:escape_only"%string, KEscape);
   ("location:_CLClientManagerStateTrackerState"%string, KClient); ("location:_CLLocationManagerStateTrackerState"%string, KManager);
   ("mdns:protocol"%string, KNames protocol_texts); ("mdns:nreason"%string, KNames reason_texts); ("mdns:rrtype"%string, KNames rrtype_texts);
   ("mdns:dns.counts"%string, KCounts); ("mdns:dns.idflags"%string, KIdFlags); ("mdns:dnshdr"%string, KDnsHeader);
   ("odtypes:ODError"%string, KNames open_directory_texts); ("odtypes:mbridtype"%string, KNames membership_texts); ("odtypes:mbr_details"%string, KMember);
   ("odtypes:nt_sid_t"%string, KSid);
   ("signpost.description:attribute"%string, KAttribute "description#____#attribute"); ("signpost.telemetry:number1"%string, KAttribute "telemetry#____#number1");
   ("signpost.telemetry:number2"%string, KAttribute "telemetry#____#number2"); ("signpost.telemetry:number3"%string, KAttribute "telemetry#____#number3");
   ("signpost.description:begin_time"%string, KMoment "description#____#begin_time"); ("signpost.description:end_time"%string, KMoment "description#____#end_time");
   ("signpost.telemetry:string1"%string, KString "telemetry#____#string1"); ("signpost.telemetry:string2"%string, KString "telemetry#____#string2")].

(** ** Texts *)

Definition unsupported : str := s2z "<decode: unsupported value>"%string.

(** [s] is the text of [n] in a table. *)
Definition named (l : list (Z * String.string)) (n : Z) (s : str) : Prop :=
  (exists t, In (n, t) l /\ s = s2z t) \/
  (~ In n (map fst l) /\ s = s2z "<decode: unknown value: "%string ++ fmt_d n ++ s2z ">"%string).

(** Values of one size have a text, others are not supported. *)
Definition sized (n : Z) (d : bytes) (r : result str) (P : str -> Prop) : Prop :=
  (len d = n /\ exists s, r = Ok s /\ P s) \/ (len d <> n /\ r = Ok unsupported).

(** The text without the end-of-string characters at its end. *)
Definition trimmed (t u : str) : Prop := exists k, t = u ++ repeat 0 k /\ (u = [] \/ last u 0 <> 0).

(** The text of a file mode: its type and nine permission characters. *)
Definition type_char (t : Z) : Z :=
  if t =? 1 then 112 else if t =? 2 then 99 else if t =? 4 then 100 else if t =? 6 then 98 else if t =? 10 then 108 else if t =? 12 then 115 else 45.
Definition mode_text (n : Z) (s : str) : Prop :=
  exists p, s = type_char ((n / 4096) mod 16) :: p /\ len p = 9 /\
    forall i, 0 <= i < 9 -> nth (Z.to_nat i) p 0 = if Z.testbit n (8 - i) then nth (Z.to_nat i) (s2z "rwxrwxrwx"%string) 0 else 45.

(** Groups of 16 bits in big-endian order. *)
Definition groups (g : list Z) (d : bytes) : Prop :=
  Forall (fun n => 0 <= n < 65536) g /\ d = flat_map (fun n => [n / 256; n mod 256]) g.

Definition socket_text (d : bytes) (s : str) : Prop :=
  (d = [] /\ s = s2z "<NULL>"%string) \/
  (exists size port a1 a2 a3 a4 zero, d = [size; 2] ++ port ++ [a1; a2; a3; a4] ++ zero /\ len port = 2 /\ len zero = 8 /\
     s = join [46] (map fmt_d [a1; a2; a3; a4])) \/
  (exists size port flow a g scope, d = [size; 30] ++ port ++ flow ++ a ++ scope /\ len port = 2 /\ len flow = 4 /\ len a = 16 /\ len scope = 4 /\ groups g a /\
     ((Forall (fun n => n = 0) g /\ s = s2z "::"%string) \/
      (Exists (fun n => n <> 0) g /\ s = join [58] (map (fun n => if n =? 0 then [] else fmt_x 4 n) g)))) \/
  (d <> [] /\ ~ (len d = 16 /\ nth_error d 1 = Some 2) /\ ~ (len d = 28 /\ nth_error d 1 = Some 30) /\ s = unsupported).

(** The characters of base64 (RFC 4648) and groups of three bytes. *)
Definition b64_digit (v : Z) : Z :=
  if v <? 26 then 65 + v else if v <? 52 then 97 + (v - 26) else if v <? 62 then 48 + (v - 52) else if v =? 62 then 43 else 47.
Inductive base64 : bytes -> str -> Prop :=
| base64_0 : base64 [] []
| base64_1 a n : n = a * 16 -> base64 [a] [b64_digit (n / 64); b64_digit (n mod 64); 61; 61]
| base64_2 a b n : n = (a * 256 + b) * 4 -> base64 [a; b] [b64_digit (n / 4096); b64_digit (n / 64 mod 64); b64_digit (n mod 64); 61]
| base64_3 a b c n d s : n = (a * 256 + b) * 256 + c -> base64 d s ->
    base64 (a :: b :: c :: d) (b64_digit (n / 262144) :: b64_digit (n / 4096 mod 64) :: b64_digit (n / 64 mod 64) :: b64_digit (n mod 64) :: s).

(** The state of a location manager: the members in the order in which they are shown, where they are stored and as what. *)
Inductive stored_as := ABool | AUnsigned (n : nat) | ASigned (n : nat) | ADouble.
Definition manager_layout : list (String.string * Z * stored_as) :=
  [("previousAuthorizationStatusValid"%string, 35, ABool); ("paused"%string, 60, ABool); ("requestingLocation"%string, 17, ABool);
   ("updatingVehicleSpeed"%string, 65, ABool); ("desiredAccuracy"%string, 8, ADouble); ("allowsBackgroundLocationUpdates"%string, 61, ABool);
   ("dynamicAccuracyReductionEnabled"%string, 34, ABool); ("distanceFilter"%string, 0, ADouble); ("allowsLocationPrompts"%string, 32, ABool);
   ("activityType"%string, 48, ASigned 8); ("groundAltitudeEnabled"%string, 68, ABool); ("pausesLocationUpdatesAutomatially"%string, 56, ASigned 4);
   ("fusionInfoEnabled"%string, 69, ABool); ("isAuthorizedForWidgetUpdates"%string, 71, ABool); ("updatingVehicleHeading"%string, 66, ABool);
   ("batchingLocation"%string, 64, ABool); ("showsBackgroundLocationIndicator"%string, 62, ABool); ("updatingLocation"%string, 16, ABool);
   ("requestingRanging"%string, 18, ABool); ("updatingHeading"%string, 20, ABool); ("previousAuthorizationStatus"%string, 36, AUnsigned 4);
   ("allowsMapCorrection"%string, 63, ABool); ("matchInfoEnabled"%string, 67, ABool); ("allowsAlteredAccessoryLoctions"%string, 33, ABool);
   ("updatingRanging"%string, 19, ABool); ("limitsPrecision"%string, 40, ABool); ("courtesyPromptNeeded"%string, 70, ABool); ("headingFilter"%string, 24, ADouble)].

Definition true_false (b : bool) : str := if b then s2z "true"%string else s2z "false"%string.
Definition window (d : bytes) (offset : Z) (n : nat) : bytes := firstn n (skipn (Z.to_nat offset) d).
Definition json_member (name : String.string) (t : str) : str := s2z """"%string ++ s2z name ++ s2z """:"%string ++ t.

Definition stored_text (x : external) (d : bytes) (f : String.string * Z * stored_as) (t : str) : Prop :=
  let '(name, offset, a) := f in
  exists u, t = json_member name u /\
    match a with
    | ABool => u = true_false (negb (nth (Z.to_nat offset) d 0 =? 0))
    | AUnsigned n => u = fmt_d (le_int (window d offset n))
    | ASigned n => u = fmt_d (to_signed n (le_int (window d offset n)))
    | ADouble => x_float x (window d offset 8) (s2z ".0f"%string) = Ok u
    end.

(** Members behind the end of the data are left out. *)
Definition manager_text (x : external) (d : bytes) (s : str) : Prop :=
  exists ts, Forall2 (stored_text x d) (filter (fun f => snd (fst f) <? len d) manager_layout) ts /\ s = s2z "{"%string ++ join [44] ts ++ s2z "}"%string.

(** Formatting a number without decimals always works. *)
Definition plain_floats (x : external) : Prop := forall d, len d = 8 -> exists t, x_float x d (s2z ".0f"%string) = Ok t.

(** The flags of a DNS message (RFC 1035): the bits of flags that are shown, in this order. *)
Definition dns_bits : list (Z * String.string) := [(10, "AA"%string); (9, "TC"%string); (8, "RD"%string); (7, "RA"%string); (5, "AD"%string); (4, "CD"%string)].
Definition code_text (l : list (Z * String.string)) (n : Z) (s : str) : Prop := (exists t, In (n, t) l /\ s = s2z t) \/ (~ In n (map fst l) /\ s = [63]).
Definition dns_text (id flags : Z) (s : str) : Prop :=
  exists op rc, code_text opcode_texts (flags / 2048 mod 16) op /\ code_text rcode_texts (flags mod 16) rc /\
    s = s2z "id: 0x"%string ++ map upper_digit (fmt_x 4 id) ++ s2z " ("%string ++ fmt_d id ++ s2z "), flags: 0x"%string ++ map upper_digit (fmt_x 4 flags)
        ++ s2z " ("%string ++ (if Z.testbit flags 15 then s2z "R/"%string else s2z "Q/"%string) ++ op ++ s2z ", "%string
        ++ join (s2z ", "%string) (map (fun b => s2z (snd b)) (filter (fun b => Z.testbit flags (fst b)) dns_bits)) ++ s2z ", "%string ++ rc ++ s2z ")"%string.

Definition counts_text (questions answers authority additional : Z) : str := join [47] (map fmt_d [questions; answers; authority; additional]).

(** Members of groups: a type, then an identifier or a name, then a domain. *)
Definition member_types : list (Z * String.string * bool) :=
  [(0x23, "user"%string, true); (0x24, "user"%string, false); (0xa0, "user"%string, false); (0xa3, "user"%string, true); (0xa4, "user"%string, false);
   (0x44, "group"%string, false); (0xc3, "group"%string, true)].
Definition stored_member (x : external) (identifier : bool) (d : bytes) (who domain : str) : Prop :=
  exists e1 e2 rest, d = e1 ++ e2 ++ rest /\ string_bytes (x_utf8 x) domain e2 /\
    if identifier then exists z, - 2 ^ 31 <= z < 2 ^ 31 /\ e1 = le_enc 4 (z mod 2 ^ 32) /\ who = fmt_d z else string_bytes (x_utf8 x) who e1.
Definition member_text (x : external) (d : bytes) (r : result str) : Prop :=
  (d = [] /\ r = Ok unsupported) \/
  (exists t e, d = t :: e /\ ~ In t (map (fun m => fst (fst m)) member_types) /\ r = Ok (s2z "ERROR: unsupported type: 0x"%string ++ fmt_x 2 t)) \/
  (exists t name identifier e, d = t :: e /\ In (t, name, identifier) member_types /\
     ((e = [] /\ r = Err ValueError) \/
      (exists who domain, stored_member x identifier e who domain /\ r = Ok (s2z name ++ s2z ": "%string ++ who ++ s2z "@"%string ++ domain)) \/
      (e <> [] /\ (forall who domain, ~ stored_member x identifier e who domain) /\ r = Err ParseError))).

(** Security identifiers of Windows NT. *)
Definition stored_sid (d : bytes) (revision authority : Z) (subs : list Z) : Prop :=
  exists a b rest, d = [revision; len subs] ++ a ++ b ++ rest /\ len a = 6 /\ be_int a = authority /\
    Forall (fun n => 0 <= n < 2 ^ 32) subs /\ b = flat_map (le_enc 4) subs.
Definition sid_text (d : bytes) (r : result str) : Prop :=
  (len d < 8 /\ r = Ok unsupported) \/
  (exists revision authority subs, stored_sid d revision authority subs /\
     r = Ok (s2z "S-"%string ++ fmt_d revision ++ s2z "-"%string ++ fmt_d authority ++ s2z "-"%string ++ join (s2z "-"%string) (map fmt_d subs))) \/
  (8 <= len d /\ len d < 8 + 4 * nth 1 d 0 /\ r = Err ParseError).

(** Values of signposts: the conversion tells how the value is stored. *)
Definition formatted (o : option operator) (render : str -> result str) (default : str) : result str :=
  match o with Some o => format_one o render | None => render default end.
Definition conversion (o : option operator) (l : String.string) : Prop := In (match o with Some o => op_specifier o | None => 115 end) (s2z l).
Definition integer_size (d : bytes) : Prop := In (len d) [1; 2; 4; 8].

Inductive signpost (x : external) : bytes -> option operator -> result str -> Prop :=
| sp_empty o : signpost x [] o (Ok [])
| sp_float d o : d <> [] -> conversion o "aAeEfFgG" -> len d = 4 \/ len d = 8 -> signpost x d o (x_float x d (s2z ".16g"%string))
| sp_unsigned d o : integer_size d -> conversion o "cCoOpuUxX" ->
    signpost x d o (formatted o (fun spec => py_format_int spec (le_int d)) (s2z "d"%string))
| sp_signed d o : integer_size d -> conversion o "dDim" ->
    signpost x d o (formatted o (fun spec => py_format_int spec (to_signed (length d) (le_int d))) (s2z "d"%string))
| sp_text d o t u : d <> [] -> conversion o "@sS" -> x_utf8 x d = Some t -> trimmed t u ->
    signpost x d o (formatted o (fun spec => py_format_str spec u) (s2z "s"%string))
| sp_unsupported d o : d <> [] ->
    (conversion o "aAeEfFgG" -> len d <> 4 /\ len d <> 8) -> (conversion o "cCoOpuUxXdDim" -> ~ integer_size d) -> (conversion o "@sS" -> x_utf8 x d = None) ->
    signpost x d o (Ok unsupported).

Definition marked (what : String.string) (t : str) : str := s2z "__##__signpost."%string ++ s2z what ++ s2z "#_##_#"%string ++ t ++ s2z "##__##"%string.

(** ** The outcome for a value that is there, and for one that is missing *)

Definition outcome (x : external) (k : kind) (d : bytes) (o : option operator) (r : result str) : Prop :=
  match k with
  | KBool no yes => (Forall (fun b => b = 0) d /\ r = Ok (s2z no)) \/ (Exists (fun b => b <> 0) d /\ r = Ok (s2z yes))
  | KNames l => sized 4 d r (named l (le_int d))
  | KQuoted l => sized 4 d r (fun s => exists t, named l (le_int d) t /\ s = s2z """"%string ++ t ++ s2z """"%string)
  | KErrno => sized 4 d r (fun s => exists t, named (numbered errno_texts) (le_int d) t /\ s = s2z "["%string ++ fmt_d (le_int d) ++ s2z ": "%string ++ t ++ s2z "]"%string)
  | KStatus => exists t, named authorization_texts (le_int d) t /\ r = Ok (s2z """"%string ++ t ++ s2z """"%string)
  | KMode => exists s, r = Ok s /\ mode_text (le_int d) s
  | KIpv4 => sized 4 d r (fun s => exists a b c e, d = [a; b; c; e] /\ s = fmt_d a ++ [46] ++ fmt_d b ++ [46] ++ fmt_d c ++ [46] ++ fmt_d e)
  | KIpv6 => sized 16 d r (fun s => exists g, groups g d /\ s = join [58] (map (fmt_x 4) g))
  | KSocket => exists s, r = Ok s /\ socket_text d s
  | KFloat =>
      ((len d = 4 \/ len d = 8) /\ r = formatted o (x_float x d) (s2z "f"%string)) \/ (len d <> 4 /\ len d <> 8 /\ r = Ok unsupported)
  | KSigned => r = format_signed d o
  | KUnsigned => r = format_unsigned d o
  | KText => r = format_text (x_utf8 x) d o
  | KClient =>
      sized 8 d r (fun s => exists status restricted, d = le_enc 4 status ++ le_enc 4 restricted /\ 0 <= status < 2 ^ 32 /\ 0 <= restricted < 2 ^ 32 /\
        s = s2z "{"%string ++ json_member "locationRestricted" (true_false (negb (restricted =? 0))) ++ s2z ","%string
            ++ json_member "locationServicesEnabledStatus" (fmt_d status) ++ s2z "}"%string)
  | KManager =>
      ((len d = 64 \/ len d = 72) /\ (plain_floats x -> exists s, r = Ok s /\ manager_text x d s)) \/ (len d <> 64 /\ len d <> 72 /\ r = Ok unsupported)
  | KEscape =>
      (x_utf8 x d = None /\ r = Ok unsupported) \/
      (exists t u, x_utf8 x d = Some t /\ trimmed t u /\ r = Ok (s2z """"%string ++ join (s2z "\/"%string) (split_on 47 u) ++ s2z """"%string))
  | KMask =>
      (d = [] /\ r = Ok (s2z "<mask.hash: (null)>"%string)) \/
      (d <> [] /\ exists b, base64 d b /\ r = Ok (s2z "<mask.hash: '"%string ++ b ++ s2z "'>"%string))
  | KCounts =>
      sized 8 d r (fun s => exists additional authority answers questions, Forall (fun n => 0 <= n < 65536) [additional; authority; answers; questions] /\
        d = le_enc 2 additional ++ le_enc 2 authority ++ le_enc 2 answers ++ le_enc 2 questions /\ s = counts_text questions answers authority additional)
  | KIdFlags =>
      sized 8 d r (fun s => exists flags id rest, 0 <= flags < 65536 /\ 0 <= id < 65536 /\ d = le_enc 2 flags ++ le_enc 2 id ++ rest /\ dns_text id flags s)
  | KDnsHeader =>
      sized 12 d r (fun s => exists id flags questions answers authority additional h, groups [id; flags; questions; answers; authority; additional] d /\
        dns_text id flags h /\ s = h ++ s2z ", counts: "%string ++ counts_text questions answers authority additional)
  | KMember => member_text x d r
  | KSid => sid_text d r
  | KAttribute what => exists t, signpost x d o t /\ r = (do s <- t; Ok (marked what s))
  | KMoment what => sized 8 d r (fun s => s = marked what (fmt_d (le_int d)))
  | KString what =>
      (x_utf8 x d = None /\ r = Ok unsupported) \/ (exists t u, x_utf8 x d = Some t /\ trimmed t u /\ r = Ok (marked what u))
  | KTime => r = x_time x (le_int d)
  | KUuid =>
      (len d = 16 /\ exists t, uuid_be d t /\ r = Ok (map upper_digit t)) \/ (len d <> 16 /\ r = Err ValueError)
  end.

Definition missing (k : kind) : result str :=
  match k with
  | KText => Ok (s2z "(null)"%string)
  | KMask => Ok (s2z "<mask.hash: (null)>"%string)
  | KEscape | KString _ => Err AttributeError
  | _ => Err TypeError
  end.

(** What the values of an NSKeyedArchiver archive stand for.

    An archive has a list of objects; a value refers to an object by its number, in binary property lists as a
    UID and in XML property lists as a dictionary with the key CF$UID. An object that is a dictionary has a
    class; the class tells in which members the contents are. *)

From Coq Require Import String.
From Verif Require Import Base CoreModel UuidSpec DecSpec NkaModel.
Local Open Scope list_scope.
Local Open Scope Z_scope.

Definition refers (v : pv) (u : Z) : Prop := v = PUid u \/ v = PDict [(text "CF$UID", PInt u)].
Definition object (objs : list pv) (u : Z) (v : pv) : Prop := 0 <= u /\ nth_error objs (Z.to_nat u) = Some v.

(** Dictionaries of property lists: the keys are strings and different. *)
Definition keyed (d : list (pv * pv)) : Prop := exists names, map fst d = map PStr names /\ NoDup names.
Definition has (d : list (pv * pv)) (k : string) (v : pv) : Prop := In (text k, v) d.
Definition lacks (d : list (pv * pv)) (k : string) : Prop := forall v, ~ In (text k, v) d.

(** The name of a class: that of the class record that the value refers to. *)
Inductive class_of (objs : list pv) : pv -> str -> Prop :=
| class_ref c u v s : refers c u -> object objs u v -> class_of objs v s -> class_of objs c s
| class_rec d s : keyed d -> lacks d "$class" -> has d "$classname" (PStr s) -> s <> [] -> class_of objs (PDict d) s.
Definition isa (objs : list pv) (v : pv) (s : str) (d : list (pv * pv)) : Prop :=
  v = PDict d /\ keyed d /\ exists c, has d "$class" c /\ class_of objs c s.

(** The supported classes. *)
Definition array_names : list str := [s2z "NSArray"; s2z "NSMutableArray"]%string.
Definition dictionary_names : list str := [s2z "NSDictionary"; s2z "NSMutableDictionary"]%string.
Definition set_names : list str := [s2z "NSSet"; s2z "NSMutableSet"]%string.
Definition record_names : list str :=
  [s2z "BackgroundItemContainer"; s2z "BackgroundItems"; s2z "BackgroundLoginItem"; s2z "Bookmark"; s2z "BTMUserSettings"; s2z "ItemRecord"; s2z "Storage"]%string.
Definition all_names : list str :=
  array_names ++ dictionary_names ++ set_names ++ record_names ++ [s2z "NSHashTable"; s2z "NSURL"; s2z "NSUUID"]%string.

(** Base64 with the alphabet for file names and URLs (RFC 4648, section 5). *)
Definition base64url (d : bytes) (s : str) : Prop :=
  exists t, base64 d t /\ Forall2 (fun c c' => (c = 43 /\ c' = 45) \/ (c = 47 /\ c' = 95) \/ (c <> 43 /\ c <> 47 /\ c' = c)) t s.

Section Floats.
Variable fint : Z -> option Z.

(** Keys that Python's dictionaries take as the same: the same value, or numbers that are equal. *)
Inductive number : pv -> Z -> Prop :=
| number_false : number (PBool false) 0
| number_true : number (PBool true) 1
| number_int n : number (PInt n) n
| number_float x n : fint x = Some n -> number (PFloat x) n.
Definition alike (a b : pv) : Prop := a = b \/ exists n, number a n /\ number b n.
Definition scalar (v : pv) : Prop :=
  match v with PNone | PBool _ | PInt _ | PFloat _ | PStr _ => True | _ => False end.

(** Values that count as false in Python. *)
Definition empty (v : pv) : Prop :=
  v = PNone \/ number v 0 \/ v = PStr [] \/ v = PBytes [] \/ v = PList [] \/ v = PDict [].

Variable objs : list pv.

(** [archives v w]: the decoded value of [v] is [w]. *)
Inductive archives : pv -> pv -> Prop :=
| ar_ref v u o w : refers v u -> object objs u o -> archives o w -> archives v w
| ar_none : archives PNone PNone
| ar_null : archives (text "$null") PNone
| ar_bool b : archives (PBool b) (PBool b)
| ar_int n : archives (PInt n) (PInt n)
| ar_float x : archives (PFloat x) (PFloat x)
| ar_data d s : is_bytes d -> base64url d s -> archives (PBytes d) (PStr s)
| ar_text s : s <> s2z "$null" -> archives (PStr s) (PStr s)
| ar_list l t : all_archive l t -> archives (PList l) (PList t)
| ar_array v name d l t : isa objs v name d -> In name array_names -> has d "NS.objects" (PList l) -> all_archive l t ->
    archives v (PList t)
| ar_dict v name d ks os kt ot : isa objs v name d -> In name dictionary_names ->
    has d "NS.keys" (PList ks) -> has d "NS.objects" (PList os) -> all_archive ks kt -> all_archive os ot ->
    length ks = length os -> Forall scalar kt -> ForallOrdPairs (fun a b => ~ alike a b) kt ->
    archives v (PDict (combine kt ot))
| ar_uuid v d b s : isa objs v (s2z "NSUUID") d -> has d "NS.uuidbytes" (PBytes b) -> is_bytes b -> uuid_be b s -> archives v (PStr s)
| ar_url v d b r bs rs : isa objs v (s2z "NSURL") d -> has d "NS.base" b -> has d "NS.relative" r ->
    archives b (PStr bs) -> bs <> [] -> archives r (PStr rs) -> archives v (PStr (bs ++ [47] ++ rs))
| ar_url_only v d b r bs w : isa objs v (s2z "NSURL") d -> has d "NS.base" b -> has d "NS.relative" r ->
    archives b bs -> empty bs -> archives r w -> archives v w
| ar_record v name d t : isa objs v name d -> In name record_names -> members ["$class"%string] d t -> archives v (PDict t)
(** Elements of sets and hash tables are records of which the class and the container do not matter. *)
| ar_set v name d l x t w : isa objs v name d -> In name set_names -> has d "NS.objects" (PList (l ++ [x])) ->
    elements l t -> contents x w -> archives v w
| ar_hash_table v d x w : isa objs v (s2z "NSHashTable") d -> has d "$1" x -> contents x w -> archives v w
with all_archive : list pv -> list pv -> Prop :=
| all_nil : all_archive [] []
| all_cons v w l t : archives v w -> all_archive l t -> all_archive (v :: l) (w :: t)
(** The members of a record with their keys; those that are empty are left out. *)
with members : list string -> list (pv * pv) -> list (pv * pv) -> Prop :=
| members_nil skip : members skip [] []
| members_skip skip k v d t : In k skip -> members skip d t -> members skip ((text k, v) :: d) t
| members_empty skip k v d t : empty v -> members skip d t -> members skip ((k, v) :: d) t
| members_cons skip k v w d t : ~ In k (map text skip) -> ~ empty v -> archives v w -> members skip d t ->
    members skip ((k, v) :: d) ((k, w) :: t)
with contents : pv -> pv -> Prop :=
| contents_of v u d t : refers v u -> object objs u (PDict d) -> keyed d -> (forall n, ~ refers (PDict d) n) -> members ["$class"; "container"]%string d t ->
    contents v (PDict t)
with elements : list pv -> list pv -> Prop :=
| elements_nil : elements [] []
| elements_cons v w l t : contents v w -> elements l t -> elements (v :: l) (w :: t).

(** The decoded archive: the values in $top, by their names. *)
Inductive top : list (pv * pv) -> list (pv * pv) -> Prop :=
| top_nil : top [] []
| top_ref k v u o w d t : refers v u -> object objs u o -> archives o w -> top d t -> top ((k, v) :: d) ((k, w) :: t)
| top_plain k v d t : scalar v -> top d t -> top ((k, v) :: d) ((k, v) :: t).
End Floats.

Scheme archives_ind5 := Minimality for archives Sort Prop
with all_archive_ind5 := Minimality for all_archive Sort Prop
with members_ind5 := Minimality for members Sort Prop
with contents_ind5 := Minimality for contents Sort Prop
with elements_ind5 := Minimality for elements Sort Prop.
Combined Scheme archives_mut from archives_ind5, all_archive_ind5, members_ind5, contents_ind5, elements_ind5.

(** The same archive in another layout: [R u u'] tells that object [u] of the one is object [u'] of the other.
    References are those to corresponding objects, in any of the two spellings; everything else is the same. *)
Inductive moved (R : Z -> Z -> Prop) : pv -> pv -> Prop :=
| moved_ref v v' u u' : refers v u -> refers v' u' -> R u u' -> moved R v v'
| moved_same v : (forall n, v <> PUid n) -> (forall l, v <> PList l) -> (forall l, v <> PDict l) -> moved R v v
| moved_list l l' : Forall2 (moved R) l l' -> moved R (PList l) (PList l')
| moved_dict d d' : (forall u, ~ refers (PDict d) u) ->
    Forall2 (fun a b => fst a = fst b /\ moved R (snd a) (snd b)) d d' -> moved R (PDict d) (PDict d').
Definition layouts (R : Z -> Z -> Prop) (objs objs' : list pv) : Prop :=
  forall u u', R u u' -> exists v v', object objs u v /\ object objs' u' v' /\ moved R v v'.

(** What is in a value, or what it refers to; a number may also be a boolean or a UID, and a negative number
    counts from the end. *)
Inductive index : pv -> Z -> Prop :=
| index_int n : index (PInt n) n
| index_uid n : index (PUid n) n
| index_bool b : index (PBool b) (if b then 1 else 0).
Definition points (v : pv) (u : Z) : Prop := v = PUid u \/ exists x, index x u /\ v = PDict [(text "CF$UID", x)].
Definition target (objs : list pv) (u : Z) (o : pv) : Prop := object objs u o \/ (u < 0 /\ object objs (len objs + u) o).
Inductive mentions (objs : list pv) : pv -> pv -> Prop :=
| mentions_ref v u o : points v u -> target objs u o -> mentions objs v o
| mentions_element l x : In x l -> mentions objs (PList l) x
| mentions_key d k v : In (k, v) d -> mentions objs (PDict d) k
| mentions_value d k v : In (k, v) d -> mentions objs (PDict d) v.

(** What has to be decoded for the decoded value. *)
Inductive needs (objs : list pv) : pv -> pv -> Prop :=
| needs_ref v u o : refers v u -> object objs u o -> needs objs v o
| needs_element l x : In x l -> needs objs (PList l) x
| needs_class d c s : keyed d -> has d "$class" c -> class_of objs c s -> needs objs (PDict d) c
| needs_array v name d l x : isa objs v name d -> In name array_names -> has d "NS.objects" (PList l) -> In x l -> needs objs v x
| needs_dict_key v name d ks os x : isa objs v name d -> In name dictionary_names -> has d "NS.keys" (PList ks) -> has d "NS.objects" (PList os) ->
    In x ks -> needs objs v x
| needs_dict_value v name d ks os x : isa objs v name d -> In name dictionary_names -> has d "NS.keys" (PList ks) -> has d "NS.objects" (PList os) ->
    In x os -> needs objs v x
| needs_url v d b r x : isa objs v (s2z "NSURL") d -> has d "NS.base" b -> has d "NS.relative" r -> x = b \/ x = r -> needs objs v x
| needs_member v name d k x : isa objs v name d -> In name record_names -> In (k, x) d -> k <> text "$class" ->
    x <> PNone /\ (forall n, x <> PInt n) /\ (forall b, x <> PBool b) /\ (forall n, x <> PFloat n) /\ x <> PStr [] /\ x <> PBytes [] /\ x <> PList [] /\ x <> PDict [] ->
    needs objs v x.

(** Values that JSON has. *)
Inductive json : pv -> Prop :=
| json_scalar v : scalar v -> json v
| json_list l : Forall json l -> json (PList l)
| json_dict d : Forall (fun a => scalar (fst a) /\ json (snd a)) d -> json (PDict d).

(** Values that have no decoded value. *)
Inductive broken (fint : Z -> option Z) (objs : list pv) : pv -> exn -> Prop :=
| broken_dangling v u : refers v u -> len objs <= u -> broken fint objs v IndexError
| broken_date x : broken fint objs (PDate x) RuntimeError
| broken_class v s d : isa objs v s d -> ~ In s all_names -> broken fint objs v RuntimeError
| broken_members v s d k : isa objs v s d -> lacks d k ->
    (In s array_names /\ k = "NS.objects"%string) \/ (In s set_names /\ k = "NS.objects"%string) \/
    (In s dictionary_names /\ (k = "NS.keys" \/ k = "NS.objects"))%string \/ (s = s2z "NSUUID" /\ k = "NS.uuidbytes"%string) \/
    (s = s2z "NSURL" /\ (k = "NS.base" \/ k = "NS.relative"))%string \/ (s = s2z "NSHashTable" /\ k = "$1"%string) ->
    broken fint objs v RuntimeError
| broken_pairs v s d ks os : isa objs v s d -> In s dictionary_names -> has d "NS.keys" (PList ks) -> has d "NS.objects" (PList os) -> length ks <> length os ->
    broken fint objs v RuntimeError
| broken_uuid v d b : isa objs v (s2z "NSUUID") d -> has d "NS.uuidbytes" (PBytes b) -> len b <> 16 -> broken fint objs v RuntimeError
(** An empty set. *)
| broken_set v s d : isa objs v s d -> In s set_names -> has d "NS.objects" (PList []) -> broken fint objs v UnboundLocalError
(** A set with an element that is a string, behind elements that are records. *)
| broken_set_text v s d l t x u c o r : isa objs v s d -> In s set_names -> has d "NS.objects" (PList (l ++ x :: r)) -> elements fint objs l t ->
    refers x u -> object objs u (PStr (c :: o)) -> broken fint objs v AttributeError
| broken_ref v u o e : refers v u -> object objs u o -> broken fint objs o e -> broken fint objs v e
| broken_list l t x r e : all_archive fint objs l t -> broken fint objs x e -> broken fint objs (PList (l ++ x :: r)) e
| broken_array v s d l t x r e : isa objs v s d -> In s array_names -> has d "NS.objects" (PList (l ++ x :: r)) -> all_archive fint objs l t -> broken fint objs x e ->
    broken fint objs v e.

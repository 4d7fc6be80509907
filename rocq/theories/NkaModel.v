(** Decoding of NSKeyedArchiver property lists: /repo/scripts/decode_nskeyedarchiver_plist.py.

    A property list is what [plistlib.load] of Python returns: a tree of values. Simplified: a binary property
    list that contains itself is not a tree and is not modelled; floating-point numbers are tokens of which is
    known which integer they are equal to ([fint]), a NaN is equal to itself; dates are tokens; the recursion
    limit of Python is not modelled, [OutOfFuel] stands for a recursion that is deeper than the fuel. In the
    dictionaries of a property list keys are different from each other. *)

From Verif Require Import Base BaseFacts CoreModel StrModel UuidModel DictModel DecModel.

(** A value of a property list, and a decoded value. *)
Inductive pv :=
| PNone | PBool (b : bool) | PInt (n : Z) | PFloat (x : Z) | PBytes (d : bytes) | PStr (s : str) | PDate (x : Z)
| PUid (n : Z)  (* plistlib.UID *)
| PList (l : list pv)
| PDict (l : list (pv * pv)).

Definition text (s : String.string) : pv := PStr (s2z s).

Section Floats.
(** The integer that is equal to a floating-point number. *)
Variable fint : Z -> option Z.

(** [k == k'] of hashable values: numbers of different types may be equal. *)
Definition num (k : pv) : option Z :=
  match k with PBool b => Some (if b then 1 else 0) | PInt n => Some n | PFloat x => fint x | _ => None end.
Definition same (a b : pv) : bool :=
  match num a, num b with
  | Some x, Some y => x =? y
  | None, None =>
      match a, b with
      | PNone, PNone => true
      | PFloat x, PFloat y | PDate x, PDate y | PUid x, PUid y => x =? y
      | PBytes x, PBytes y | PStr x, PStr y => list_eqb x y
      | _, _ => false
      end
  | _, _ => false
  end.

Definition hashable (k : pv) : bool := match k with PList _ | PDict _ => false | _ => true end.

(** [d.get(k)] and [d[k] = v]. *)
Fixpoint dget (k : pv) (d : list (pv * pv)) : option pv :=
  match d with [] => None | (k', v) :: r => if same k' k then Some v else dget k r end.
Fixpoint dset (k v : pv) (d : list (pv * pv)) : list (pv * pv) :=
  match d with [] => [(k, v)] | (k', v') :: r => if same k' k then (k', v) :: r else (k', v') :: dset k v r end.

(** [bool(v)]. *)
Definition truthy (v : pv) : bool :=
  match v with
  | PNone => false
  | PBool b => b
  | PInt n => negb (n =? 0)
  | PFloat x => match fint x with Some n => negb (n =? 0) | None => true end
  | PBytes l | PStr l => match l with [] => false | _ => true end
  | PList l => match l with [] => false | _ => true end
  | PDict l => match l with [] => false | _ => true end
  | PDate _ | PUid _ => true
  end.

(** [c[k]]; a [plistlib.UID] can be used as an index. *)
Definition index_of (k : pv) : option Z :=
  match k with PBool b => Some (if b then 1 else 0) | PInt n | PUid n => Some n | _ => None end.
Definition subscript (c k : pv) : result pv :=
  match c with
  | PList l => match index_of k with Some i => pyindex l i | None => Err TypeError end
  | PStr s => match index_of k with Some i => do x <- pyindex s i; Ok (PStr [x]) | None => Err TypeError end
  | PBytes d => match index_of k with Some i => do x <- pyindex d i; Ok (PInt x) | None => Err TypeError end
  | PDict d => if hashable k then match dget k d with Some v => Ok v | None => Err KeyError end else Err TypeError
  | _ => Err TypeError
  end.

(** [for x in v] and [len(v)]. *)
Definition iterate (v : pv) : result (list pv) :=
  match v with
  | PList l => Ok l
  | PStr s => Ok (map (fun c => PStr [c]) s)
  | PBytes d => Ok (map PInt d)
  | PDict d => Ok (map fst d)
  | _ => Err TypeError
  end.

(** [_GetPlistUID], scripts/decode_nskeyedarchiver_plist.py:296-315. *)
Definition get_uid (v : pv) : option pv :=
  match v with
  | PUid n => Some (PInt n)
  | PDict [(k, x)] => if same k (text "CF$UID") then (match x with PNone => None | _ => Some x end) else None
  | _ => None
  end.

(** [str(base64.urlsafe_b64encode(d))[2:-1]], scripts/decode_nskeyedarchiver_plist.py:262-263. *)
Definition urlsafe (d : bytes) : str := map (fun c => if c =? 43 then 45 else if c =? 47 then 95 else c) (b64encode d).

(** [_CALLBACKS], scripts/decode_nskeyedarchiver_plist.py:24-41; for a class name that is not a string the error is
    that of the look-up or of formatting the message of the RuntimeError (line 283). *)
Inductive kind := KComposite | KArray | KDictionary | KHashTable | KSet | KUrl | KUuid.
Definition callbacks : sdict kind :=
  [(s2z "BackgroundItemContainer", KComposite); (s2z "BackgroundItems", KComposite); (s2z "BackgroundLoginItem", KComposite);
   (s2z "Bookmark", KComposite); (s2z "BTMUserSettings", KComposite); (s2z "ItemRecord", KComposite); (s2z "NSArray", KArray);
   (s2z "NSDictionary", KDictionary); (s2z "NSHashTable", KHashTable); (s2z "NSMutableArray", KArray);
   (s2z "NSMutableDictionary", KDictionary); (s2z "NSMutableSet", KSet); (s2z "NSSet", KSet); (s2z "NSURL", KUrl);
   (s2z "NSUUID", KUuid); (s2z "Storage", KComposite)]%string.
Definition callback (name : pv) : result kind :=
  match name with
  | PStr s => match sdict_get s callbacks with Some k => Ok k | None => Err RuntimeError end
  | PNone | PDate _ => Err RuntimeError
  | PBool _ | PInt _ | PFloat _ => Err ValueError
  | PBytes _ | PUid _ | PList _ | PDict _ => Err TypeError
  end.

(** The objects list; [decode] of the values in it is a parameter of the following functions. *)
Variable objs : pv.
Variable dec : pv -> run pv.

Fixpoint decode_list (l : list pv) : run (list pv) :=
  match l with [] => Done (Ok []) | x :: r => rdo y <- dec x; rdo t <- decode_list r; Done (Ok (y :: t)) end.

(** [_DecodeComposite], scripts/decode_nskeyedarchiver_plist.py:43-65, and the loop of [_DecodeContainer], lines 77-89;
    [skip] has the keys that are left out. *)
Definition skipped (skip : list pv) (k : pv) : bool := existsb (same k) skip.
Fixpoint decode_fields (skip : list pv) (l : list (pv * pv)) (out : list (pv * pv)) : run (list (pv * pv)) :=
  match l with
  | [] => Done (Ok out)
  | (k, x) :: r =>
      if skipped skip k then decode_fields skip r out
      else if truthy x then rdo y <- dec x; decode_fields skip r (dset k y out)
      else decode_fields skip r out
  end.
Definition decode_composite (d : list (pv * pv)) : run pv :=
  rdo l <- decode_fields [text "$class"] d []; Done (Ok (PDict l)).

(** [_DecodeContainer], scripts/decode_nskeyedarchiver_plist.py:67-89: what is not a dictionary has no [get]. *)
Definition container_skip : list pv := [text "$class"; text "container"].
Definition decode_container (v : pv) : run pv :=
  match v with
  | PDict d => rdo l <- decode_fields container_skip d []; Done (Ok (PDict l))
  | _ => rdo l <- Done (iterate v); Done (if forallb (skipped container_skip) l then Ok (PDict []) else Err AttributeError)
  end.

(** [encoded_object[key]] behind [if key not in encoded_object: raise RuntimeError]. *)
Definition member (key : pv) (d : list (pv * pv)) : result pv :=
  match dget key d with Some v => Ok v | None => Err RuntimeError end.

(** [_DecodeNSArray], scripts/decode_nskeyedarchiver_plist.py:91-107. *)
Definition decode_array (d : list (pv * pv)) : run pv :=
  rdo o <- Done (member (text "NS.objects") d);
  rdo l <- Done (iterate o);
  rdo t <- decode_list l; Done (Ok (PList t)).

(** [_DecodeNSDictionary], scripts/decode_nskeyedarchiver_plist.py:109-138. *)
Fixpoint decode_pairs (values : pv) (i : Z) (keys : list pv) (out : list (pv * pv)) : run (list (pv * pv)) :=
  match keys with
  | [] => Done (Ok out)
  | k :: r =>
      rdo k' <- dec k;
      rdo x <- Done (subscript values (PInt i));
      rdo y <- dec x;
      if hashable k' then decode_pairs values (i + 1) r (dset k' y out) else Done (Err TypeError)
  end.
Definition decode_dictionary (d : list (pv * pv)) : run pv :=
  rdo ks <- Done (member (text "NS.keys") d);
  rdo os <- Done (member (text "NS.objects") d);
  rdo kl <- Done (iterate ks);
  rdo ol <- Done (iterate os);
  rdo _ <- Done (guard (len kl =? len ol) RuntimeError);
  rdo l <- decode_pairs os 0 kl []; Done (Ok (PDict l)).

(** [_DecodeNSHashTable], scripts/decode_nskeyedarchiver_plist.py:140-168. *)
Definition decode_hash_table (d : list (pv * pv)) : run pv :=
  rdo v <- Done (member (text "$1") d);
  match get_uid v with
  | None => Done (Err RuntimeError)
  | Some u => rdo r <- Done (subscript objs u); decode_container r
  end.

(** [_DecodeNSSet], scripts/decode_nskeyedarchiver_plist.py:170-193: what is returned is the last element. *)
Fixpoint decode_elements (l : list pv) (last : option pv) : run (option pv) :=
  match l with
  | [] => Done (Ok last)
  | v :: r =>
      let u := match get_uid v with Some u => u | None => PNone end in
      rdo o <- Done (subscript objs u);
      rdo y <- decode_container o; decode_elements r (Some y)
  end.
Definition decode_set (d : list (pv * pv)) : run pv :=
  rdo o <- Done (member (text "NS.objects") d);
  rdo l <- Done (iterate o);
  rdo y <- decode_elements l None;
  Done (match y with Some y => Ok y | None => Err UnboundLocalError end).

(** [_DecodeNSURL], scripts/decode_nskeyedarchiver_plist.py:195-219. *)
Definition decode_url (d : list (pv * pv)) : run pv :=
  rdo b <- Done (member (text "NS.base") d);
  rdo r <- Done (member (text "NS.relative") d);
  rdo base <- dec b;
  rdo rel <- dec r;
  Done (if truthy base then match base, rel with PStr b, PStr r => Ok (PStr (join [47] [b; r])) | _, _ => Err TypeError end else Ok rel).

(** [_DecodeNSUUID], scripts/decode_nskeyedarchiver_plist.py:222-239; [uuid.UUID(bytes=x)] of something else than bytes
    is an AssertionError. *)
Definition decode_uuid (d : list (pv * pv)) : run pv :=
  rdo v <- Done (member (text "NS.uuidbytes") d);
  rdo l <- Done (iterate v);
  rdo _ <- Done (guard (len l =? 16) RuntimeError);
  Done (match v with PBytes b => Ok (PStr (uuid_str b)) | _ => Err OtherError end).

Definition decode_kind (k : kind) (d : list (pv * pv)) : run pv :=
  match k with
  | KComposite => decode_composite d
  | KArray => decode_array d
  | KDictionary => decode_dictionary d
  | KHashTable => decode_hash_table d
  | KSet => decode_set d
  | KUrl => decode_url d
  | KUuid => decode_uuid d
  end.

(** [decoded_class.get("$classname")], scripts/decode_nskeyedarchiver_plist.py:276-277. *)
Definition class_name (c : pv) : result (option pv) :=
  match c with PDict d => Ok (dget (text "$classname") d) | _ => Err AttributeError end.

(** The dictionaries of [_DecodeObject], scripts/decode_nskeyedarchiver_plist.py:270-286. *)
Definition decode_dict (d : list (pv * pv)) : run pv :=
  match dget (text "$class") d with
  | None => Done (Ok (PDict d))
  | Some c =>
      if truthy c then
        rdo c <- dec c;
        rdo name <- Done (class_name c);
        match name with
        | None => Done (Ok (PDict d))
        | Some n => if truthy n then rdo k <- Done (callback n); decode_kind k d else Done (Ok (PDict d))
        end
      else Done (Ok (PDict d))
  end.
End Floats.

(** [_DecodeObject], scripts/decode_nskeyedarchiver_plist.py:241-294. *)
Fixpoint decode (fuel : nat) (fint : Z -> option Z) (objs v : pv) : run pv :=
  match fuel with
  | O => OutOfFuel
  | S fuel =>
      match get_uid fint v with
      | Some u => rdo r <- Done (subscript fint objs u); decode fuel fint objs r
      | None =>
          match v with
          | PNone | PBool _ | PInt _ | PFloat _ => Done (Ok v)
          | PBytes d => Done (Ok (PStr (urlsafe d)))
          | PStr s => Done (Ok (if list_eqb s (s2z "$null"%string) then PNone else v))
          | PDict d => decode_dict fint objs (decode fuel fint objs) d
          | PList l => rdo t <- decode_list (decode fuel fint objs) l; Done (Ok (PList t))
          | PDate _ | PUid _ => Done (Err RuntimeError)
          end
      end
  end.

(** The loop of [DecodePlistFile], scripts/decode_nskeyedarchiver_plist.py:336-345. *)
Fixpoint decode_top (fuel : nat) (fint : Z -> option Z) (objs : pv) (l out : list (pv * pv)) : run (list (pv * pv)) :=
  match l with
  | [] => Done (Ok out)
  | (k, v) :: r =>
      rdo y <- match get_uid fint v with
               | Some u => rdo o <- Done (subscript fint objs u); decode fuel fint objs o
               | None => Done (Ok v)
               end;
      decode_top fuel fint objs r (dset fint k y out)
  end.

(** [DecodePlistFile], scripts/decode_nskeyedarchiver_plist.py:317-347, behind [plistlib.load]. *)
Definition decode_file (fuel : nat) (fint : Z -> option Z) (plist : pv) : run pv :=
  match plist with
  | PDict d =>
      let get s := dget fint (text s) d in
      let ok := match get "$archiver"%string, get "$version"%string with
                | Some a, Some v => same fint a (text "NSKeyedArchiver") && same fint v (PInt 100000)
                | _, _ => false
                end in
      if negb ok then Done (Err RuntimeError)
      else
        let objs := match get "$objects"%string with Some o => if truthy fint o then o else PList [] | None => PList [] end in
        match (match get "$top"%string with Some t => t | None => PDict [] end) with
        | PDict t => rdo l <- decode_top fuel fint objs t []; Done (Ok (PDict l))
        | _ => Done (Err AttributeError)
        end
  | _ => Done (Err AttributeError)
  end.

(** Model of net/echonet/object.go, super_object.go, device.go, profile.go,
    node_profile.go, class.go, database.go and the constructors of
    database_mra_objects.go. *)

From Verif Require Import Go Encoding Protocol StdDB Property.
Local Open Scope Z_scope.

(** object.go L102-L111 (struct object).  Simplified: the names, the parent node
    and the handlers are left out; they are part of [Node] and [Handler]. *)
Record object : Set := mkObject { o_codes : list Z; o_props : props }.

Definition with_props (o : object) (m : props) : object := mkObject (o_codes o) m.
Definition with_codes (o : object) (c : list Z) : object := mkObject c (o_props o).

(** ** object.go *)

(** object.go L113-L127; ObjectCodeSize = 3. *)
Definition newObject : object := mkObject [0; 0; 0] [].

(** object.go L155-L157: IntegerToByte overwrites all bytes of obj.codes. *)
Definition Obj_SetCode (o : object) (code : Z) : object :=
  with_codes o (IntegerToByte code (length (o_codes o))).

(** object.go L160-L162 *)
Definition Code (o : object) : Z := ByteToInteger (o_codes o).

(** copy(dst, src) *)
Definition copy_into (dst src : list Z) : list Z :=
  firstn (length dst) src ++ skipn (length src) dst.

(** object.go L165-L167 *)
Definition Obj_SetCodes (o : object) (codes : list Z) : object :=
  with_codes o (copy_into (o_codes o) codes).

(** object.go L170-L172 *)
Definition Codes (o : object) : list Z := o_codes o.

(** object.go L175-L177 *)
Definition IsCode (o : object) (code : Z) : bool := code =? Code o.

(** object.go L180-L183, class.go L39-L45: the first two code bytes, copied. *)
Definition Class (o : object) : res (list Z) :=
  cls <- slice (o_codes o) 0 2 ;;
  g <- idx cls 0 ;; c <- idx cls 1 ;; Ok [g; c].

(** class.go L106-L117; GroupCode and Code are codes[0] and codes[1]. *)
Definition Class_Equals (c1 c2 : list Z) : res bool :=
  if negb (len c1 =? 2) then Ok false
  else
    g1 <- idx c1 0 ;; g2 <- idx c2 0 ;;
    if negb (g1 =? g2) then Ok false
    else
      k1 <- idx c1 1 ;; k2 <- idx c2 1 ;;
      if negb (k1 =? k2) then Ok false else Ok true.

(** object.go L186-L213 *)
Definition SetCodeByte (o : object) (i : Z) (b : Z) : res object :=
  c <- set_idx (o_codes o) i b ;; Ok (with_codes o c).
Definition SetClassGroupCode (o : object) (b : Z) : res object := SetCodeByte o 0 b.
Definition ClassGroupCode (o : object) : res Z := idx (o_codes o) 0.
Definition SetClassCode (o : object) (b : Z) : res object := SetCodeByte o 1 b.
Definition ClassCode (o : object) : res Z := idx (o_codes o) 1.
Definition SetInstanceCode (o : object) (b : Z) : res object := SetCodeByte o 2 b.
Definition InstanceCode (o : object) : res Z := idx (o_codes o) 2.

(** profile.go L50-L52; ProfileClassGroupCode = 0x0E (profile.go L12). *)
Definition isProfileObjectCode (code : Z) : bool := code =? 0x0E.

(** object.go L216-L223 *)
Definition IsProfile (o : object) : res bool :=
  g <- idx (o_codes o) 0 ;; Ok (isProfileObjectCode g).
Definition IsDevice (o : object) : res bool :=
  b <- IsProfile o ;; Ok (negb b).

(** object.go embeds *propertyMap: property_map.go L51. *)
Definition Obj_AddProperty (o : object) (p : property) : object :=
  with_props o (AddPropertyMap (o_props o) p).

(** A call that changes an object: the new object, the property announcements
    that it triggers (property.go L375-L377), in order, and the returned error. *)
Definition effect : Set := (object * list pprop * option err)%type.

Definition lift_props (o : object) (r : props * list pprop * option err) : effect :=
  let '(m, ev, e) := r in (with_props o m, ev, e).

(** property_map.go L109-L136 through object.go L103 *)
Definition SetPropertyData (o : object) (code : Z) (d : list Z) : effect :=
  lift_props o (SetPropertyDataMap (o_props o) code d).
Definition SetPropertyByte (o : object) (code b : Z) : effect :=
  lift_props o (SetPropertyByteMap (o_props o) code b).
Definition SetPropertyInteger (o : object) (code v : Z) (size : nat) : effect :=
  lift_props o (SetPropertyIntegerMap (o_props o) code v size).

(** object.go L258-L276.  The new object has three zero code bytes, and
    newObj.SetCode(newObj.Code()) keeps them. *)
Definition Obj_Copy (o : object) : object :=
  let newObj := newObject in
  let newObj := Obj_SetCode newObj (Code newObj) in
  fold_left (fun acc p => Obj_AddProperty acc (prop_Copy p)) (Properties (o_props o)) newObj.

(** ** database.go, database_mra_objects.go *)

(** database_mra_objects.go L16-L24 *)
Definition rule_attr (r : rule) : attr :=
  match r with
  | RRequired => Required
  | ROptional => Optional
  | _ => Prohibited
  end.

(** database_mra_objects.go L15-L33 *)
Definition newStandardProperty (e : mra_entry) : property :=
  newProperty (pe_code e) (rule_attr (pe_get e)) (rule_attr (pe_set e)) (rule_attr (pe_anno e)).

(** database_mra_objects.go L7-L13 and the AddProperty calls of the class.
    Simplified: SetClassGroupCode and SetClassCode write into three zero bytes. *)
Definition newStandardObject (c : mra_class) : object :=
  fold_left (fun o e => Obj_AddProperty o (newStandardProperty e)) (cl_entries c)
            (mkObject [cl_grp c; cl_cls c; 0] []).

(** database.go L73-L75: insertion into the Go map objects, an association list
    with one entry per key. *)
Fixpoint addObject (db : list (Z * object)) (o : object) : list (Z * object) :=
  match db with
  | [] => [(Code o, o)]
  | (k, v) :: t => if k =? Code o then (k, o) :: t else (k, v) :: addObject t o
  end.

(** database.go L35-L43 (objects only), database_mra_objects.go L36-L1247 *)
Definition db_objects : list (Z * object) :=
  fold_left (fun db c => addObject db (newStandardObject c)) mra_table [].

Fixpoint assoc_z {A : Type} (l : list (Z * A)) (k : Z) : option A :=
  match l with
  | [] => None
  | (x, v) :: t => if x =? k then Some v else assoc_z t k
  end.

(** database.go L78-L81 *)
Definition DB_LookupObject (code : Z) : option object :=
  assoc_z db_objects (Z.land code 0xFFFF00).

(** ** super_object.go *)

(** super_object.go L106-L136.  An out of range index would be a panic of the
    whole call; [None] is a panic here ([ObjectFacts.propertyMapBytes_ok] shows that it does
    not occur). *)
Definition setPropertyMapProperty (o : object) (propMapCode : Z) (propCodes : list Z)
  : option effect :=
  if negb (HasProp (o_props o) propMapCode) then Some (o, [], Some ErrNotFound)
  else match propertyMapBytes propCodes with
       | Ok d => Some (SetPropertyData o propMapCode d)
       | Err e => Some (o, [], Some e)
       | Panic => None
       end.

(** super_object.go L149-L160: the codes collected for one map. *)
Definition map_codes (f : property -> bool) (o : object) : list Z :=
  map p_code (filter f (Properties (o_props o))).

(** super_object.go L139-L170 *)
Definition updatePropertyMap (o : object) : option effect :=
  let propMaps :=
    [ (ObjectGetPropertyMap, map_codes IsReadable o);
      (ObjectSetPropertyMap, map_codes IsWritable o);
      (ObjectAnnoPropertyMap, map_codes IsAnnounceable o) ] in
  fold_left (fun acc m =>
      match acc with
      | None => None
      | Some (o, ev, lastErr) =>
          match setPropertyMapProperty o (fst m) (snd m) with
          | None => None
          | Some (o', ev', e) =>
              Some (o', ev ++ ev', match e with Some x => Some x | None => lastErr end)
          end
      end) propMaps (Some (o, [], None)).

(** A call that returns nothing: the new object and the announcements; [None]
    is a panic. *)
Definition outcome : Set := option (object * list pprop).

(** super_object.go L100-L103; the error of updatePropertyMap is dropped. *)
Definition Super_AddProperty (o : object) (p : property) : outcome :=
  match updatePropertyMap (Obj_AddProperty o p) with
  | None => None
  | Some (o', ev, _) => Some (o', ev)
  end.

(** super_object.go L88-L97 (the class name is not modelled) *)
Definition addStandardPropertiesWithCode (o : object) (objCode : Z) : outcome :=
  match DB_LookupObject objCode with
  | None => Some (o, [])
  | Some stdObj =>
      fold_left (fun acc stdProp =>
          match acc with
          | None => None
          | Some (o, ev) =>
              match Super_AddProperty o (prop_Copy stdProp) with
              | None => None
              | Some (o', ev') => Some (o', ev ++ ev')
              end
          end) (Properties (o_props stdObj)) (Some (o, []))
  end.

(** super_object.go L71-L74, L83-L85 *)
Definition Super_SetCode (o : object) (code : Z) : outcome :=
  let o := Obj_SetCode o code in
  addStandardPropertiesWithCode o (Code o).

(** super_object.go L77-L80 *)
Definition Super_SetCodes (o : object) (codes : list Z) : outcome :=
  let o := Obj_SetCodes o codes in
  addStandardPropertiesWithCode o (Code o).

(** super_object.go L60-L68; a new object has no parent node, so that its
    announcements go nowhere (property.go L461-L465) and are not returned. *)
Definition NewSuperObject : option object :=
  let o := Obj_SetCode newObject 0 in
  match addStandardPropertiesWithCode o 0 with
  | None => None
  | Some (o, _) =>
      match updatePropertyMap o with
      | None => None
      | Some (o, _, _) => Some o
      end
  end.

Definition ObjectOperatingStatus : Z := 0x80.
Definition ObjectManufacturerCode : Z := 0x8A.
Definition ObjectOperatingStatusOn : Z := 0x30.
Definition ObjectOperatingStatusOff : Z := 0x31.

(** super_object.go L173-L179 *)
Definition SetOperatingStatus (o : object) (stats : bool) : effect :=
  SetPropertyByte o ObjectOperatingStatus
    (if stats then ObjectOperatingStatusOn else ObjectOperatingStatusOff).

(** super_object.go L182-L191 *)
Definition OperatingStatus (o : object) : res bool :=
  b <- LookupPropertyByte (o_props o) ObjectOperatingStatus ;;
  if b =? ObjectOperatingStatusOff then Ok false else Ok true.

(** super_object.go L194-L201; ObjectManufacturerCodeSize = 3 (L31). *)
Definition SetManufacturerCode (o : object) (code : Z) : effect :=
  SetPropertyInteger o ObjectManufacturerCode code 3.
Definition ManufacturerCode (o : object) : res Z :=
  LookupPropertyInteger (o_props o) ObjectManufacturerCode.

(** ** device.go *)

(** device.go L148-L154 and WithDeviceCode L101-L110. *)
Definition NewDeviceWithCode (code : Z) : res object :=
  match NewSuperObject with
  | None => Panic
  | Some o =>
      match DB_LookupObject code with
      | None => Err ErrOther
      | Some _ =>
          match Super_SetCode o code with
          | None => Panic
          | Some (o', _) => Ok o'
          end
      end
  end.

Definition DeviceInstallationLocation : Z := 0x81.
Definition DeviceStandardVersion : Z := 0x82.
Definition DeviceFaultStatus : Z := 0x88.
Definition DeviceFaultOccurred : Z := 0x41.
Definition DeviceNoFaultOccurred : Z := 0x42.

(** device.go L157-L164 *)
Definition SetInstallationLocation (o : object) (loc : Z) : effect :=
  SetPropertyByte o DeviceInstallationLocation loc.
Definition InstallationLocation (o : object) : res Z :=
  LookupPropertyByte (o_props o) DeviceInstallationLocation.

(** device.go L167-L182; DeviceStandardVersionSize = 4 (L40). *)
Definition SetStandardVersion (o : object) (ver : Z) : effect :=
  SetPropertyData o DeviceStandardVersion [0; 0; ver; 0].
Definition StandardVersion (o : object) : res Z :=
  d <- LookupPropertyData (o_props o) DeviceStandardVersion ;;
  if len d <=? 4 then Err ErrInvalid else idx d 2.

(** device.go L185-L203 *)
Definition SetFaultStatus (o : object) (stats : bool) : effect :=
  SetPropertyByte o DeviceFaultStatus
    (if stats then DeviceFaultOccurred else DeviceNoFaultOccurred).
Definition FaultStatus (o : object) : res bool :=
  b <- LookupPropertyByte (o_props o) DeviceFaultStatus ;;
  if b =? DeviceFaultOccurred then Ok true else Ok false.

(** ** profile.go, node_profile.go *)

Definition NodeProfileObjectCode : Z := 0x0EF001.
Definition NodeProfileObjectReadOnlyCode : Z := 0x0EF002.

(** node_profile.go L88-L96 *)
Definition isNodeProfileObjectCode (code : Z) : bool :=
  if code =? NodeProfileObjectCode then true
  else if code =? NodeProfileObjectReadOnlyCode then true
  else false.

(** profile.go L60-L66 *)
Definition NewProfileWithCode (code : Z) : res object :=
  match NewSuperObject with
  | None => Panic
  | Some o => match Super_SetCode o code with
              | None => Panic
              | Some (o', _) => Ok o'
              end
  end.

(** profile.go L55-L57 *)
Definition NewProfile : res object := NewProfileWithCode NodeProfileObjectCode.

(** profile.go L69-L71 *)
Definition IsNodeProfile (o : object) : bool := isNodeProfileObjectCode (Code o).

(** node_profile.go L70-L74 *)
Definition NewNodeProfile : res object :=
  o <- NewProfile ;;
  match Super_SetCode o NodeProfileObjectCode with
  | None => Panic
  | Some (o', _) => Ok o'
  end.

Definition NodeProfileNumberOfInstances : Z := 0xD3.
Definition NodeProfileNumberOfClasses : Z := 0xD4.
Definition NodeProfileInstanceListNotification : Z := 0xD5.
Definition NodeProfileInstanceListS : Z := 0xD6.
Definition NodeProfileClassListS : Z := 0xD7.
Definition NodeProfileVersionInformation : Z := 0x82.
Definition NodeProfileIdentificationNumber : Z := 0x83.

(** node_profile.go L104-L109 *)
Definition SetVersion (o : object) (major minor : Z) : effect :=
  SetPropertyData o NodeProfileVersionInformation [u8 major].

(** node_profile.go L112-L120 *)
Definition SetID (o : object) (manufactureCode : Z) : effect :=
  SetPropertyData o NodeProfileIdentificationNumber
    (IntegerToByte manufactureCode 3 ++ zeros 13).

(** node_profile.go L123-L125 *)
Definition SetInstanceCount (o : object) (count : Z) : effect :=
  SetPropertyInteger o NodeProfileNumberOfInstances count 3.

(** node_profile.go L129-L134, L160-L165: the count byte of a list. *)
Definition list_count (n : Z) : Z := if n <=? 0xFF - 1 then u8 n else 0xFF.

(** node_profile.go L129-L138 *)
Definition instance_list (devices : list object) : list Z :=
  list_count (len devices) :: flat_map Codes devices.

(** node_profile.go L128-L151: two writes, the second only after the first
    succeeded. *)
Definition SetInstanceList (o : object) (devices : list object) : effect :=
  let instanceList := instance_list devices in
  match SetPropertyData o NodeProfileInstanceListNotification instanceList with
  | (o1, ev1, Some e) => (o1, ev1, Some e)
  | (o1, ev1, None) =>
      match SetPropertyData o1 NodeProfileInstanceListS instanceList with
      | (o2, ev2, e) => (o2, ev1 ++ ev2, e)
      end
  end.

(** node_profile.go L154-L156 *)
Definition SetClassCount (o : object) (count : Z) : effect :=
  SetPropertyInteger o NodeProfileNumberOfClasses count 2.

(** node_profile.go L160-L169 *)
Definition class_list (classes : list (list Z)) : list Z :=
  list_count (len classes) :: concat classes.

(** node_profile.go L159-L171 *)
Definition SetClassList (o : object) (classes : list (list Z)) : effect :=
  SetPropertyData o NodeProfileClassListS (class_list classes).

(** Model of net/echonet/property.go, property_attr.go, property_func.go and
    property_map.go. *)

From Verif Require Import Go Encoding Protocol.
Local Open Scope Z_scope.

(** property_attr.go L10-L29. *)
Inductive attr : Set := Prohibited | Required | Optional.

Definition attr_IsProhibited (a : attr) : bool :=
  match a with Prohibited => true | _ => false end.
Definition attr_IsRequired (a : attr) : bool :=
  match a with Required => true | _ => false end.

(** property.go L114-L122 (struct property).  Simplified: the name is left out;
    the parent object is implicit (a property of the model lives inside an object). *)
Record property : Set := mkProperty {
  p_code : Z;
  p_get : attr;
  p_set : attr;
  p_anno : attr;
  p_data : list Z
}.

(** property.go L183-L193 newProperty and the options WithPropertyCode,
    WithProperty{Read,Write,Anno}Attribute. *)
Definition newProperty (code : Z) (g s a : attr) : property := mkProperty code g s a [].

Definition with_data (p : property) (d : list Z) : property :=
  mkProperty (p_code p) (p_get p) (p_set p) (p_anno p) d.

(** property.go L280-L307 *)
Definition IsReadable (p : property) : bool := negb (attr_IsProhibited (p_get p)).
Definition IsWritable (p : property) : bool := negb (attr_IsProhibited (p_set p)).
Definition IsAnnounceable (p : property) : bool := negb (attr_IsProhibited (p_anno p)).
Definition IsReadRequired (p : property) : bool := attr_IsRequired (p_get p).
Definition IsWriteRequired (p : property) : bool := attr_IsRequired (p_set p).
Definition IsAnnounceRequired (p : property) : bool := attr_IsRequired (p_anno p).

(** property.go L310-L329 *)
Definition IsReadOnly (p : property) : bool :=
  if IsWritable p then false else if negb (IsReadable p) then false else true.
Definition IsWriteOnly (p : property) : bool :=
  if IsReadable p then false else if negb (IsWritable p) then false else true.

(** property.go L332-L366 *)
Definition IsAvailableService (p : property) (esv : Z) : bool :=
  if esv =? ESVWriteRequest then (if IsWritable p then true else false)
  else if esv =? ESVWriteRequestResponseRequired then (if IsWritable p then true else false)
  else if esv =? ESVReadRequest then (if IsReadable p then true else false)
  else if esv =? ESVNotificationRequest then (if IsAnnounceable p then true else false)
  else if esv =? ESVWriteReadRequest then
    (if IsWritable p && IsReadable p then true else false)
  else if esv =? ESVNotificationResponseRequired then
    (if IsAnnounceable p then true else false)
  else false.

(** property.go L400-L410 *)
Definition prop_AsByte (p : property) : res Z :=
  match p_data p with
  | [] => Err ErrNoData
  | [b] => Ok b
  | _ => Err ErrInvalid
  end.

(** property.go L413-L418; the string is its bytes. *)
Definition prop_AsString (p : property) : res (list Z) :=
  if len (p_data p) =? 0 then Err ErrNoData else Ok (p_data p).

(** property.go L421-L426 *)
Definition prop_AsInteger (p : property) : res Z :=
  if len (p_data p) =? 0 then Err ErrNoData else Ok (ByteToInteger (p_data p)).

(** property.go L480-L488 *)
Definition prop_Equals (p q : property) : bool :=
  if negb (p_code p =? p_code q) then false
  else if negb (bytes_eqb (p_data p) (p_data q)) then false else true.

(** property.go L491-L501 *)
Definition prop_Copy (p : property) : property :=
  mkProperty (p_code p) (p_get p) (p_set p) (p_anno p) [].

(** property.go L475-L477 ToProtocol, newProtocolPropertyFrom (property_data.go):
    code and a copy of the data. *)
Definition ToProtocol (p : property) : pprop := mkPProp (p_code p) (p_data p).

(** super_object.go L20-L22 *)
Definition ObjectAnnoPropertyMap : Z := 0x9D.
Definition ObjectSetPropertyMap : Z := 0x9E.
Definition ObjectGetPropertyMap : Z := 0x9F.

(** property.go L17-L20 *)
Definition PropertyCodeMin : Z := 0x80.
Definition PropertyCodeMax : Z := 0xFF.
Definition PropertyMapFormat1MaxSize : Z := 15.
Definition PropertyMapFormat2MapSize : nat := 16.

(** property_func.go L7-L16; propCode is a byte, the subtraction is on bytes.
    [None] is the result (0, 0, false). *)
Definition propertyMapCodeToFormat2 (propCode : Z) : option (Z * Z) :=
  if (propCode <? PropertyCodeMin) || (PropertyCodeMax <? propCode) then None
  else Some (Z.land (u8 (propCode - PropertyCodeMin)) 0x0F + 1,
             Z.land (Z.shiftr (Z.land (u8 (propCode - PropertyCodeMin)) 0xF0) 4) 0x0F).

(** property_func.go L18-L24 *)
Definition isPropertyMapDescriptionFormat1 (n : Z) : bool := n <=? PropertyMapFormat1MaxSize.
Definition isPropertyMapDescriptionFormat2 (n : Z) : bool :=
  negb (isPropertyMapDescriptionFormat1 n).

(** property_func.go L26-L32; the conversion PropertyCode(code) truncates to a byte. *)
Definition propertyMapFormat2BitToCode (row bit : Z) : Z :=
  u8 (0x10 * bit + PropertyCodeMin + row).

(** property_func.go L34-L44; [seq 0 8] is range 8. *)
Definition propertyMapFormat2ByteToCodes (row b : Z) : list Z :=
  flat_map (fun n =>
      let bit := u8 (Z.land (Z.shiftl 1 (Z.of_nat n)) 0x0F) in
      if Z.land b bit =? 0 then []
      else [propertyMapFormat2BitToCode row (Z.of_nat n)])
    (seq 0 8).

(** property.go L429-L458 *)
Definition PropertyMapData (p : property) : res (list Z) :=
  if (p_code p =? ObjectGetPropertyMap) || (p_code p =? ObjectSetPropertyMap)
     || (p_code p =? ObjectAnnoPropertyMap) then
    if len (p_data p) =? 0 then Err ErrInvalid
    else
      propMapCount <- idx (p_data p) 0 ;;
      if isPropertyMapDescriptionFormat1 propMapCount then
        if negb (len (p_data p) =? propMapCount + 1) then Err ErrInvalid
        else
          for_range (Z.to_nat propMapCount) 0
            (fun n codes => b <- idx (p_data p) (n + 1) ;; Ok (codes ++ [b])) []
      else
        if negb (len (p_data p) =? Z.of_nat PropertyMapFormat2MapSize + 1) then Err ErrInvalid
        else
          for_range PropertyMapFormat2MapSize 0
            (fun n codes =>
               b <- idx (p_data p) (n + 1) ;;
               Ok (codes ++ propertyMapFormat2ByteToCodes n b)) []
  else Err ErrInvalid.

(** super_object.go L127-L133: the loop over the codes of format 2.  Index
    expressions out of range panic. *)
Definition format2_loop (propCodes : list Z) (propMapData : list Z) : res (list Z) :=
  for_each propCodes
    (fun propCode d =>
       match propertyMapCodeToFormat2 propCode with
       | None => Ok d
       | Some (propCodeIdx, propCodeBit) =>
           old <- idx d propCodeIdx ;;
           set_idx d propCodeIdx
             (Z.lor old (u8 (Z.land (Z.shiftl 1 propCodeBit) 0x0F)))
       end) propMapData.

(** super_object.go L114-L118: the loop over the codes of format 1. *)
Definition format1_loop (propCodes : list Z) (propMapData : list Z) : res (list Z) :=
  for_range (length propCodes) 0
    (fun n d => c <- idx propCodes n ;; set_idx d (n + 1) (u8 c)) propMapData.

(** super_object.go L111-L133: the data of a property map listing propCodes. *)
Definition propertyMapBytes (propCodes : list Z) : res (list Z) :=
  if isPropertyMapDescriptionFormat1 (len propCodes) then
    d <- set_idx (zeros (len propCodes + 1)) 0 (u8 (len propCodes)) ;;
    format1_loop propCodes d
  else
    d <- set_idx (zeros (Z.of_nat PropertyMapFormat2MapSize + 1)) 0 (u8 (len propCodes)) ;;
    format2_loop propCodes d.

(** property_map.go: the Go map from code to property is a list with at most
    one entry per code (invariant [ObjectFacts.props_ok]).  Simplified: the key
    under which a property is stored is its code (property_map.go L51-L54 uses
    prop.Code() at insertion; changing the code of a property after it was added
    is not modelled). *)
Definition props := list property.

(** property_map.go L86-L89 *)
Fixpoint LookupProperty (m : props) (code : Z) : option property :=
  match m with
  | [] => None
  | p :: t => if p_code p =? code then Some p else LookupProperty t code
  end.

(** property_map.go L51-L54: map insertion, replacing an entry of that code. *)
Fixpoint AddPropertyMap (m : props) (q : property) : props :=
  match m with
  | [] => [q]
  | p :: t => if p_code p =? p_code q then q :: t else p :: AddPropertyMap t q
  end.

(** property_map.go L139-L142 *)
Definition HasProp (m : props) (code : Z) : bool :=
  match LookupProperty m code with Some _ => true | None => false end.

(** property_map.go L104-L106 *)
Definition PropertyCount (m : props) : Z := len m.

(** property_map.go L64-L83.  [order] is the order in which range visits the
    keys of the map; the theorem C18 quantifies over it. *)
Definition Properties_order (order : list Z) (m : props) : list property :=
  flat_map (fun c => match LookupProperty m c with Some p => [p] | None => [] end)
           (sort_z order).

Definition Properties (m : props) : list property := Properties_order (map p_code m) m.

(** Replaces the data of the property with that code. *)
Fixpoint set_data (m : props) (code : Z) (d : list Z) : props :=
  match m with
  | [] => []
  | p :: t => if p_code p =? code then with_data p d :: t else p :: set_data t code d
  end.

(** property.go L369-L380 SetData, as the list of announcements it triggers:
    the property is announced with the new data when it is announceable.  What
    becomes of an announcement depends on the parent node, see [Node]. *)
Definition announcement (p : property) : list pprop :=
  if IsAnnounceable p then [ToProtocol p] else [].

(** property_map.go L109-L116: new content, announcements, error. *)
Definition SetPropertyDataMap (m : props) (code : Z) (d : list Z)
  : props * list pprop * option err :=
  match LookupProperty m code with
  | None => (m, [], Some ErrNotFound)
  | Some p => (set_data m code d, announcement (with_data p d), None)
  end.

(** property_map.go L119-L126 *)
Definition SetPropertyByteMap (m : props) (code b : Z) := SetPropertyDataMap m code [b].

(** property_map.go L129-L136, property.go L388-L392 *)
Definition SetPropertyIntegerMap (m : props) (code v : Z) (size : nat) :=
  SetPropertyDataMap m code (IntegerToByte v size).

(** property_map.go L145-L151; the returned size with the error is -1, not modelled. *)
Definition LookupPropertyDataSize (m : props) (code : Z) : res Z :=
  match LookupProperty m code with None => Err ErrNotFound | Some p => Ok (len (p_data p)) end.

(** property_map.go L154-L160 *)
Definition LookupPropertyData (m : props) (code : Z) : res (list Z) :=
  match LookupProperty m code with None => Err ErrNotFound | Some p => Ok (p_data p) end.

(** property_map.go L163-L169 *)
Definition LookupPropertyByte (m : props) (code : Z) : res Z :=
  match LookupProperty m code with None => Err ErrNotFound | Some p => prop_AsByte p end.

(** property_map.go L172-L178 *)
Definition LookupPropertyInteger (m : props) (code : Z) : res Z :=
  match LookupProperty m code with None => Err ErrNotFound | Some p => prop_AsInteger p end.

(** property_map.go L92-L101 FindPropertyWait: [snap n] is the content of the map
    when the n-th lookup happens (other goroutines may change it in between;
    unsynchronised map access is a data race in Go and not modelled).  The
    number of tries is propertyWaitRetryCount = 20 (L14). *)
Fixpoint findPropertyWaitLoop (tries : nat) (n : nat) (snap : nat -> props) (code : Z)
  : option property :=
  match tries with
  | O => None
  | S k => match LookupProperty (snap n) code with
           | Some p => Some p
           | None => findPropertyWaitLoop k (S n) snap code
           end
  end.

Definition propertyWaitRetryCount : nat := 20.
Definition FindPropertyWait (snap : nat -> props) (code : Z) : option property :=
  findPropertyWaitLoop propertyWaitRetryCount 0 snap code.

(** Model of who belongs to whom: the parent links between properties, objects and
    nodes of net/echonet/property.go, property_map.go, object.go, super_object.go,
    base_node.go, local_node.go and remote_node.go.

    The other files of the model put the properties inside the objects and the
    objects inside the nodes.  Here a property, an object and a node are cells with
    an identity, an application holds pointers to them, a property points to its
    object, an object to its node, and the map of an object has keys of its own, so
    that a property may be in two maps, an object in two nodes and a property under
    a key that is not its code.

    Simplified: names, listeners and request handlers are left out; the three code
    bytes of an object are the number they stand for; the transport below a node
    takes every announcement of a running node (see [Transport]) and the
    transaction ids are left out; Start and Stop succeed (see [Life]). *)

From Verif Require Import Go Encoding Protocol StdDB Property Object Node.
Local Open Scope Z_scope.

(** property.go L114-L122 with the parent object *)
Record cell : Set := mkCell { c_prop : property; c_object : option nat }.

(** object.go L102-L111 and property_map.go L22-L25: the code, the map from code to
    pointer, the parent node. *)
Record thing : Set := mkThing { t_code : Z; t_props : list (Z * nat); t_node : option nat }.

(** base_node.go L18-L21, local_node.go L74-L85, remote_node.go L21-L26: whether the node is a
    local one, whether it runs, its devices and profiles, its manufacturer code. *)
Record site : Set := mkSite {
  s_local : bool; s_running : bool; s_devices : list nat; s_profiles : list nat; s_manufacturer : Z }.

Record state : Set := mkState { cells : list cell; things : list thing; sites : list site }.

Definition nothing : state := mkState [] [] [].

Definition cell_at (w : state) (p : nat) : option cell := nth_error (cells w) p.
Definition thing_at (w : state) (o : nat) : option thing := nth_error (things w) o.
Definition site_at (w : state) (n : nat) : option site := nth_error (sites w) n.

Definition put_cell (w : state) (p : nat) (c : cell) : state :=
  mkState (set_nth (cells w) p c) (things w) (sites w).
Definition put_thing (w : state) (o : nat) (t : thing) : state :=
  mkState (cells w) (set_nth (things w) o t) (sites w).
Definition put_site (w : state) (n : nat) (s : site) : state :=
  mkState (cells w) (things w) (set_nth (sites w) n s).

(** A notification handed to the transport: by which node, with which source object
    code and which property. *)
Record shout : Set := mkShout { sh_node : nat; sh_from : Z; sh_what : pprop }.

(** A piece of code: it changes the state and announces. *)
Definition act : Type := state -> state * list shout.

Definition skip : act := fun w => (w, []).
Definition silent (f : state -> state) : act := fun w => (f w, []).
Definition andthen (f g : act) : act := fun w =>
  let '(w1, s1) := f w in let '(w2, s2) := g w1 in (w2, s1 ++ s2).

(** a loop over a list that is fixed before the loop *)
Fixpoint each {A : Type} (l : list A) (f : A -> act) : act :=
  match l with
  | [] => skip
  | x :: t => andthen (f x) (each t f)
  end.

(** ** property.go *)

(** property.go L201-L203 *)
Definition x_Object (w : state) (p : nat) : option nat :=
  match cell_at w p with Some c => c_object c | None => None end.

(** object.go L230-L232 *)
Definition x_ObjNode (w : state) (o : nat) : option nat :=
  match thing_at w o with Some t => t_node t | None => None end.

(** property.go L206-L212 *)
Definition x_Node (w : state) (p : nat) : option nat :=
  match x_Object w p with Some o => x_ObjNode w o | None => None end.

(** local_node_msssage.go L26-L42 on a running node; prop.Object().Code() is the
    source.  A property without a parent object would be a nil dereference: both
    callers found the node through the parent object or hold a property of a
    profile. *)
Definition x_AnnounceProperty (w : state) (n p : nat) : list shout :=
  match cell_at w p with
  | None => []
  | Some c =>
      match c_object c with
      | None => []
      | Some o =>
          match thing_at w o with
          | None => []
          | Some t => [mkShout n (t_code t) (ToProtocol (c_prop c))]
          end
      end
  end.

(** property.go L461-L472: a remote node is no localNodeHelper. *)
Definition x_Announce (w : state) (p : nat) : list shout :=
  match x_Node w p with
  | None => []
  | Some n =>
      match site_at w n with
      | None => []
      | Some s => if s_local s && s_running s then x_AnnounceProperty w n p else []
      end
  end.

(** property.go L369-L380 *)
Definition x_SetData (p : nat) (d : list Z) : act := fun w =>
  match cell_at w p with
  | None => (w, [])
  | Some c =>
      let w := put_cell w p (mkCell (with_data (c_prop c) d) (c_object c)) in
      (w, if IsAnnounceable (c_prop c) then x_Announce w p else [])
  end.

(** property.go L175-L193 with L125-L129 (WithPropertyObject) *)
Definition x_NewProperty (q : property) (o : option nat) : act :=
  silent (fun w => mkState (cells w ++ [mkCell q o]) (things w) (sites w)).

(** property.go L226-L229: the key in the map of the object stays. *)
Definition x_Rename (p : nat) (code : Z) : act := silent (fun w =>
  match cell_at w p with
  | None => w
  | Some c =>
      let q := c_prop c in
      put_cell w p (mkCell (mkProperty code (p_get q) (p_set q) (p_anno q) (p_data q)) (c_object c))
  end).

(** ** property_map.go and object.go *)

(** property_map.go L86-L89 *)
Fixpoint look (m : list (Z * nat)) (code : Z) : option nat :=
  match m with
  | [] => None
  | (k, p) :: t => if k =? code then Some p else look t code
  end.

Definition x_LookupProperty (w : state) (o : nat) (code : Z) : option nat :=
  match thing_at w o with Some t => look (t_props t) code | None => None end.

(** a map entry, replacing the one of that key *)
Fixpoint enter (m : list (Z * nat)) (code : Z) (p : nat) : list (Z * nat) :=
  match m with
  | [] => [(code, p)]
  | (k, q) :: t => if k =? code then (code, p) :: t else (k, q) :: enter t code p
  end.

(** property_map.go L51-L54 on an object whose parentObject is itself (object.go
    L124); L38-L43 of property_map.go is only called there, with an empty map. *)
Definition x_AddProperty (o p : nat) : act := silent (fun w =>
  match thing_at w o, cell_at w p with
  | Some t, Some c =>
      put_cell (put_thing w o (mkThing (t_code t) (enter (t_props t) (p_code (c_prop c)) p) (t_node t)))
               p (mkCell (c_prop c) (Some o))
  | _, _ => w
  end).

(** property_map.go L64-L83: sorted by key *)
Definition x_Properties (w : state) (o : nat) : list nat :=
  match thing_at w o with
  | None => []
  | Some t => flat_map (fun k => match look (t_props t) k with Some p => [p] | None => [] end)
                       (sort_z (map fst (t_props t)))
  end.

(** property_map.go L109-L116; the error is left out. *)
Definition x_SetPropertyData (o : nat) (code : Z) (d : list Z) : act := fun w =>
  match x_LookupProperty w o code with
  | None => (w, [])
  | Some p => x_SetData p d w
  end.

(** object.go L113-L127 *)
Definition x_newObject : act :=
  silent (fun w => mkState (cells w) (things w ++ [mkThing 0 [] None]) (sites w)).

(** object.go L155-L162: three bytes are written and read. *)
Definition x_Obj_SetCode (o : nat) (code : Z) : act := silent (fun w =>
  match thing_at w o with
  | None => w
  | Some t => put_thing w o (mkThing (ByteToInteger (IntegerToByte code 3)) (t_props t) (t_node t))
  end).

(** object.go L226-L228 *)
Definition x_SetParentNode (o : nat) (n : option nat) : act := silent (fun w =>
  match thing_at w o with
  | None => w
  | Some t => put_thing w o (mkThing (t_code t) (t_props t) n)
  end).

(** ** super_object.go *)

(** super_object.go L149-L160: the codes of one map; the code is that of the
    property, not the key. *)
Definition x_codes (w : state) (o : nat) (f : property -> bool) : list Z :=
  flat_map (fun p => match cell_at w p with
                     | Some c => if f (c_prop c) then [p_code (c_prop c)] else []
                     | None => []
                     end) (x_Properties w o).

(** super_object.go L106-L136; [propertyMapBytes] always returns bytes for the codes
    of a map ([ObjectFacts.propertyMapBytes_ok]). *)
Definition x_setPropertyMap (o : nat) (m : Z * list Z) : act :=
  match propertyMapBytes (snd m) with
  | Ok d => x_SetPropertyData o (fst m) d
  | _ => skip
  end.

(** super_object.go L139-L170 *)
Definition x_updatePropertyMap (o : nat) : act := fun w =>
  each [ (ObjectGetPropertyMap, x_codes w o IsReadable);
         (ObjectSetPropertyMap, x_codes w o IsWritable);
         (ObjectAnnoPropertyMap, x_codes w o IsAnnounceable) ] (x_setPropertyMap o) w.

(** super_object.go L100-L103 *)
Definition x_Super_AddProperty (o p : nat) : act :=
  andthen (x_AddProperty o p) (x_updatePropertyMap o).

(** super_object.go L94-L96: a copy of the standard property is added. *)
Definition x_AddCopy (o : nat) (std : property) : act := fun w =>
  andthen (x_NewProperty (prop_Copy std) None) (x_Super_AddProperty o (length (cells w))) w.

(** super_object.go L88-L97 *)
Definition x_addStandard (o : nat) (code : Z) : act :=
  match DB_LookupObject code with
  | None => skip
  | Some std => each (Properties (o_props std)) (x_AddCopy o)
  end.

(** super_object.go L71-L74, L83-L85 *)
Definition x_SetCode (o : nat) (code : Z) : act :=
  andthen (x_Obj_SetCode o code) (x_addStandard o (ByteToInteger (IntegerToByte code 3))).

(** super_object.go L60-L68; [o] is the new object. *)
Definition x_NewSuper (o : nat) : act :=
  andthen x_newObject (andthen (x_Obj_SetCode o 0) (andthen (x_addStandard o 0) (x_updatePropertyMap o))).

(** device.go L101-L110, L127-L146 with the option WithDeviceCode for a code of the
    database *)
Definition x_NewDevice (code : Z) : act := fun w =>
  let o := length (things w) in andthen (x_NewSuper o) (x_SetCode o code) w.

(** ** The nodes *)

(** base_node.go L64-L72 *)
Fixpoint x_find (w : state) (objs : list nat) (code : Z) : option nat :=
  match objs with
  | [] => None
  | o :: t => match thing_at w o with
              | Some x => if t_code x =? code then Some o else x_find w t code
              | None => x_find w t code
              end
  end.

(** base_node.go L75-L85 *)
Definition x_NodeProfile (w : state) (s : site) : option nat :=
  match x_find w (s_profiles s) NodeProfileObjectCode with
  | Some o => Some o
  | None => x_find w (s_profiles s) NodeProfileObjectReadOnlyCode
  end.

(** the object values the node profile is computed from: codes only *)
Definition x_values (w : state) (objs : list nat) : list object :=
  flat_map (fun o => match thing_at w o with
                     | Some t => [mkObject (IntegerToByte (t_code t) 3) []]
                     | None => []
                     end) objs.

(** local_node.go L231-L288 with node_profile.go L123-L171: the four setters; the
    second list is written only if the property of the first exists. *)
Definition x_updateNodeProfile (n : nat) : act := fun w =>
  match site_at w n with
  | None => (w, [])
  | Some s =>
      match x_NodeProfile w s with
      | None => (w, [])
      | Some o =>
          match (classes <- collect_classes (x_values w (s_devices s)) [] ;;
                 collect_classes (x_values w (s_profiles s)) classes) with
          | Ok classes =>
              let devices := x_values w (s_devices s) in
              each ([ (NodeProfileNumberOfInstances, IntegerToByte (len devices) 3);
                      (NodeProfileNumberOfClasses, IntegerToByte (len classes) 2);
                      (NodeProfileInstanceListNotification, instance_list devices) ] ++
                    match x_LookupProperty w o NodeProfileInstanceListNotification with
                    | Some _ => [ (NodeProfileInstanceListS, instance_list devices) ]
                    | None => []
                    end ++
                    [ (NodeProfileClassListS, class_list classes) ])
                   (fun m => x_SetPropertyData o (fst m) (snd m)) w
          | _ => (w, [])
          end
      end
  end.

Definition with_lists (s : site) (ds ps : list nat) : site :=
  mkSite (s_local s) (s_running s) ds ps (s_manufacturer s).

(** base_node.go L33-L35, L54-L56 *)
Definition x_append (n : nat) (ds ps : list nat) : act := silent (fun w =>
  match site_at w n with
  | None => w
  | Some s => put_site w n (with_lists s (s_devices s ++ ds) (s_profiles s ++ ps))
  end).

(** super_object.go L194-L196 *)
Definition x_SetManufacturer (o : nat) (code : Z) : act :=
  x_SetPropertyData o ObjectManufacturerCode (IntegerToByte code 3).

(** local_node.go L179-L192 and remote_node.go L148-L157: the object enters the lists,
    then, on a local node, gets the manufacturer code, then gets its parent. *)
Definition x_Add (n : nat) (ds ps : list nat) (o : nat) : act := fun w =>
  match site_at w n with
  | None => (w, [])
  | Some s =>
      if s_local s then
        andthen (x_append n ds ps)
          (andthen (x_SetManufacturer o (s_manufacturer s))
            (andthen (x_SetParentNode o (Some n)) (x_updateNodeProfile n))) w
      else andthen (x_append n ds ps) (x_SetParentNode o (Some n)) w
  end.

Definition x_AddDevice (n o : nat) : act := x_Add n [o] [] o.
Definition x_AddProfile (n o : nat) : act := x_Add n [] [o] o.

(** local_node.go L92-L113 without options (its profile is made by node_profile.go
    L70-L74 and profile.go L55-L66), remote_node.go L29-L37 *)
Definition x_NewNode (local : bool) : act := fun w =>
  let n := length (sites w) in
  let o := length (things w) in
  andthen
    (silent (fun w => mkState (cells w) (things w)
       (sites w ++ [mkSite local false [] [] NodeManufacturerExperimental])))
    (if local then
       andthen (x_NewSuper o) (andthen (x_SetCode o NodeProfileObjectCode)
         (andthen (x_SetCode o NodeProfileObjectCode) (x_AddProfile n o)))
     else skip) w.

(** local_node_msssage.go L45-L59 *)
Definition x_AnnounceNode (n : nat) : act := fun w =>
  (w, match site_at w n with
      | None => []
      | Some s =>
          match x_NodeProfile w s with
          | None => []
          | Some o => match x_LookupProperty w o NodeProfileInstanceListNotification with
                      | None => []
                      | Some p => x_AnnounceProperty w n p
                      end
          end
      end).

Definition x_run (n : nat) (b : bool) : act := silent (fun w =>
  match site_at w n with
  | None => w
  | Some s => put_site w n (mkSite (s_local s) (s_local s && b) (s_devices s) (s_profiles s) (s_manufacturer s))
  end).

(** local_node.go L195-L215; only a local node can be started. *)
Definition x_Start (n : nat) : act := fun w =>
  match site_at w n with
  | None => (w, [])
  | Some s => if s_local s then andthen (x_run n true) (x_AnnounceNode n) w else (w, [])
  end.
Definition x_Stop (n : nat) : act := x_run n false.

(** local_node.go L138-L146 *)
Definition x_Node_SetManufacturer (n : nat) (code : Z) : act := fun w =>
  match site_at w n with
  | None => (w, [])
  | Some s =>
      andthen (silent (fun w => put_site w n (mkSite (s_local s) (s_running s) (s_devices s) (s_profiles s) code)))
        (each (s_devices s ++ s_profiles s) (fun o => x_SetManufacturer o code)) w
  end.

(** ** What an application does *)

Inductive call : Set :=
| NewPropertyFor (q : property) (o : option nat)
| SetPropertyCode (p : nat) (code : Z)
| SetDataOf (p : nat) (d : list Z)
| NewDeviceOf (code : Z)
| SetObjectCode (o : nat) (code : Z)
| AddPropertyTo (o p : nat)
| SetPropertyDataOf (o : nat) (code : Z) (d : list Z)
| SetParent (o : nat) (n : option nat)
| NewNodeOf (local : bool)
| AddDeviceTo (n o : nat)
| SetManufacturerOf (n : nat) (code : Z)
| StartNode (n : nat)
| StopNode (n : nat).

Definition does (c : call) : act :=
  match c with
  | NewPropertyFor q o => x_NewProperty q o
  | SetPropertyCode p code => x_Rename p code
  | SetDataOf p d => x_SetData p d
  | NewDeviceOf code => x_NewDevice code
  | SetObjectCode o code => x_SetCode o code
  | AddPropertyTo o p => x_Super_AddProperty o p
  | SetPropertyDataOf o code d => x_SetPropertyData o code d
  | SetParent o n => x_SetParentNode o n
  | NewNodeOf local => x_NewNode local
  | AddDeviceTo n o => x_AddDevice n o
  | SetManufacturerOf n code => x_Node_SetManufacturer n code
  | StartNode n => x_Start n
  | StopNode n => x_Stop n
  end.

Definition program (cs : list call) : act := each cs does.

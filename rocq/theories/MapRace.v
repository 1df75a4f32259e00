(** Model of the accesses to the Go maps of net/echonet/property_map.go and
    database.go by several goroutines.

    The map of a property map (property_map.go L23) and the map of the database
    (database.go L31) are read and written without a lock.  The Go runtime marks a
    map while a write is in progress; a read or a write that meets the mark stops the
    whole program (fatal error: concurrent map read and map write), which cannot be
    recovered.  This file lists, function by function, which accesses a call makes,
    and lets goroutines interleave access by access.

    An object made by a goroutine is known to that goroutine only until it is handed
    to others: by AddDevice of a running node, by the append of addNode
    (controller_message_listener.go L92), or otherwise by the application.  A
    goroutine that does not know an object waits before an access to its map.

    Simplified: what the calls compute is left out (see [Object] and [Node]); how many
    properties a map has, whether a property exists and where a loop ends early are
    parameters of a call, so that every theorem holds for all of them; the accesses
    to slices and other variables are left out (see [Concurrent]). *)

From Verif Require Import Go.

(** A map is named by a number: the object it belongs to, or the database. *)
Inductive access : Set :=
| Rd (m : nat)
| WrBegin (m : nat)
| WrEnd (m : nat)
| Share (m : nat).

(** ** property_map.go *)

(** property_map.go L86-L89; so also L91-L101 (once per try), L109-L136, L139-L178 *)
Definition a_LookupProperty (o : nat) : list access := [Rd o].

(** property_map.go L52 *)
Definition a_AddProperty (o : nat) : list access := [WrBegin o; WrEnd o].

(** property_map.go L64-L83: the range loop reads the map before each of its [k]
    rounds and at the end; then one read for each code. *)
Definition a_Properties (o k : nat) : list access := repeat (Rd o) (S k) ++ repeat (Rd o) k.

(** ** super_object.go *)

(** super_object.go L106-L136: HasProperty, and if it exists, SetPropertyData *)
Definition a_setPropertyMap (o : nat) (exists_ : bool) : list access :=
  a_LookupProperty o ++ (if exists_ then a_LookupProperty o else []).

(** How a call of updatePropertyMap goes: the number of properties and whether the
    three map properties exist. *)
Record update : Set := mkUpdate { u_count : nat; u_get : bool; u_set : bool; u_anno : bool }.

(** super_object.go L139-L170 *)
Definition a_updatePropertyMap (o : nat) (u : update) : list access :=
  a_Properties o (u_count u) ++
  a_setPropertyMap o (u_get u) ++ a_setPropertyMap o (u_set u) ++ a_setPropertyMap o (u_anno u).

(** super_object.go L100-L103 *)
Definition a_Super_AddProperty (o : nat) (u : update) : list access :=
  a_AddProperty o ++ a_updatePropertyMap o u.

(** How a call of addStandardPropertiesWithCode goes: the database, and if it has the
    code, the object of the database and one update for each of its properties. *)
Record standard : Set := mkStandard { d_database : nat; d_found : option (nat * list update) }.

(** super_object.go L88-L97 with database.go L78-L81 *)
Definition a_addStandard (o : nat) (d : standard) : list access :=
  Rd (d_database d) ::
  match d_found d with
  | None => []
  | Some (std, us) => a_Properties std (length us) ++ flat_map (a_Super_AddProperty o) us
  end.

(** super_object.go L71-L80: the code itself is in a slice. *)
Definition a_SetCode (o : nat) (d : standard) : list access := a_addStandard o d.

(** super_object.go L60-L68 *)
Definition a_NewSuper (o : nat) (d : standard) (u : update) : list access :=
  a_addStandard o d ++ a_updatePropertyMap o u.

(** device.go L101-L110, L148-L154: one more look at the database; profile.go L60-L66
    and node_profile.go L70-L74 without it and with one or two SetCode. *)
Definition a_New (o : nat) (d0 : standard) (u : update) (looks : list nat) (ds : list standard) : list access :=
  a_NewSuper o d0 u ++ map Rd looks ++ flat_map (a_SetCode o) ds.

(** object.go L258-L276: the properties of one object are added to a new one
    (propertyMap.AddProperty, no update). *)
Definition a_Copy (o new k : nat) : list access :=
  a_Properties o k ++ flat_map (fun _ => a_AddProperty new) (repeat tt k).

(** ** The nodes *)

(** local_node.go L231-L288: the setters of node_profile.go L123-L171, five at most. *)
Definition a_updateNodeProfile (prof : nat) (k : nat) : list access := flat_map (fun _ => a_LookupProperty prof) (repeat tt k).

(** local_node.go L179-L192 (remote_node.go L148-L157 with no further access): the
    object is in the list, then SetManufacturerCode reads its map. *)
Definition a_AddDevice (o : nat) (prof : option nat) (k : nat) : list access :=
  Share o :: match prof with
             | Some pr => a_LookupProperty o ++ a_updateNodeProfile pr k
             | None => []
             end.

(** local_node.go L138-L146 *)
Definition a_SetManufacturer (objs : list nat) : list access := flat_map a_LookupProperty objs.

(** local_node_msssage.go L45-L59; sending and announcing read no map. *)
Definition a_Announce (prof : nat) : list access := a_LookupProperty prof.

(** local_node_message_handler.go L70-L97: one look for each property until the
    check fails *)
Definition a_validate (o k : nat) : list access := flat_map (fun _ => a_LookupProperty o) (repeat tt k).

(** local_node_message_handler.go L141-L164 *)
Definition a_createResponse (o k : nat) : list access := flat_map (fun _ => a_LookupProperty o) (repeat tt k).

(** ** What the goroutines do *)

Inductive job : Set :=
| JLook (o : nat)                          (* any reading call, and SetPropertyData etc. *)
| JProperties (o k : nat)
| JAddProperty (o : nat) (u : update)
| JSetCode (o : nat) (d : standard)
| JNew (o : nat) (d0 : standard) (u : update) (looks : list nat) (ds : list standard)
| JCopy (o new k : nat)
| JShare (o : nat)                         (* the application or addNode *)
| JAddDevice (o : nat) (prof : option nat) (k : nat)
| JSetManufacturer (objs : list nat)
| JAnnounce (prof : nat)
| JValidate (o k : nat)
| JCreateResponse (o k : nat).

Definition accesses (j : job) : list access :=
  match j with
  | JLook o => a_LookupProperty o
  | JProperties o k => a_Properties o k
  | JAddProperty o u => a_Super_AddProperty o u
  | JSetCode o d => a_SetCode o d
  | JNew o d0 u looks ds => a_New o d0 u looks ds
  | JCopy o new k => a_Copy o new k
  | JShare o => [Share o]
  | JAddDevice o prof k => a_AddDevice o prof k
  | JSetManufacturer objs => a_SetManufacturer objs
  | JAnnounce prof => a_Announce prof
  | JValidate o k => a_validate o k
  | JCreateResponse o k => a_createResponse o k
  end.

(** local_node_message_handler.go L13-L46: a goroutine of transport/unicast_server.go
    L134 or transport/multicast_server.go L92 handling one request; the listeners are
    the application's. *)
Definition handler (o k1 : nat) (listeners : list job) (k2 : nat) : list job :=
  JValidate o k1 :: listeners ++ [JCreateResponse o k2].

(** remote_node.go L48-L111 and controller_message_listener.go L84-L100: a goroutine
    that finds a node makes its objects and appends the node; [makes] are calls of
    [JNew]. *)
Definition finder (makes : list (nat * standard * update * list nat * list standard)) : list job :=
  map (fun x => let '(o, d0, u, looks, ds) := x in JNew o d0 u looks ds) makes ++
  map (fun x => let '(o, d0, u, looks, ds) := x in JShare o) makes.

(** ** The runtime *)

Record runtime : Set := mkRuntime { threads : list (list access); writing : list nat; shared : list nat }.

Inductive event : Set := Goes (r : runtime) | Waits | Fatal.

Definition mem (m : nat) (l : list nat) : bool := existsb (Nat.eqb m) l.

(** One access of goroutine [i]; [own m] is the goroutine that makes the object of
    [m]. *)
Definition access_step (own : nat -> nat) (r : runtime) (i : nat) (a : access) (rest : list access) : event :=
  let ts := set_nth (threads r) i rest in
  let known m := Nat.eqb (own m) i || mem m (shared r) in
  match a with
  | Rd m => if known m then if mem m (writing r) then Fatal else Goes (mkRuntime ts (writing r) (shared r)) else Waits
  | WrBegin m => if known m then if mem m (writing r) then Fatal else Goes (mkRuntime ts (m :: writing r) (shared r)) else Waits
  | WrEnd m => Goes (mkRuntime ts (remove Nat.eq_dec m (writing r)) (shared r))
  | Share m => if known m then Goes (mkRuntime ts (writing r) (m :: shared r)) else Waits
  end.

(** The scheduler picks goroutines; [true] is a fatal error. *)
Fixpoint crashes (own : nat -> nat) (r : runtime) (schedule : list nat) : bool :=
  match schedule with
  | [] => false
  | i :: s =>
      match nth_error (threads r) i with
      | Some (a :: rest) =>
          match access_step own r i a rest with
          | Goes r' => crashes own r' s
          | Waits => crashes own r s
          | Fatal => true
          end
      | _ => crashes own r s
      end
  end.

(** The goroutines run their calls; the objects of [start] are known to all. *)
Definition running (start : list nat) (calls : list (list job)) : runtime :=
  mkRuntime (map (flat_map accesses) calls) [] start.

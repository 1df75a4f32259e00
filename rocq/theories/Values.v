(** The nodes and objects of an application as values, for C107: what the functions of
    [Object] and [Node] make of the same calls that [Owner] runs on pointers.

    Nothing here is a model of further code.  An object is either loose, and then a
    value of its own, or inside a node, at a place of its list of devices or profiles;
    [Object] and [Node] cite the code each function stands for. *)

From Verif Require Import Go Encoding Protocol StdDB Property Object Node Owner.
Local Open Scope Z_scope.

Inductive place : Type := Loose (o : object) | Inside (n : nat) (r : objref).

Record shelf : Type := mkShelf { v_places : list place; v_nodes : list node }.

Definition bare : shelf := mkShelf [] [].

(** What an application does: objects and nodes have the numbers of their making. *)
Inductive deed : Type :=
| DDevice (code : Z)
| DNode
| DWrite (x : nat) (code : Z) (d : list Z)
| DProperty (x : nat) (q : property)
| DCode (x : nat) (code : Z)
| DAdd (n x : nat)
| DManufacturer (n : nat) (code : Z)
| DStart (n : nat)
| DStop (n : nat).

(** The calls on pointers: a property is made and added at once. *)
Definition calls_of (w : state) (e : deed) : list call :=
  match e with
  | DDevice code => [NewDeviceOf code]
  | DNode => [NewNodeOf true]
  | DWrite x code d => [SetPropertyDataOf x code d]
  | DProperty x q => [NewPropertyFor q None; AddPropertyTo x (length (cells w))]
  | DCode x code => [SetObjectCode x code]
  | DAdd n x => [AddDeviceTo n x]
  | DManufacturer n code => [SetManufacturerOf n code]
  | DStart n => [StartNode n]
  | DStop n => [StopNode n]
  end.

Definition play (es : list deed) : act := each es (fun e w => program (calls_of w e) w).

(** A change of one object by value: the new object and its announcements; [None] is a
    panic. *)
Definition alter (v : shelf) (x : nat) (f : object -> option (object * list pprop)) : option shelf :=
  match nth_error (v_places v) x with
  | None => None
  | Some (Loose o) =>
      match f o with
      | None => None
      | Some (o', _) => Some (mkShelf (set_nth (v_places v) x (Loose o')) (v_nodes v))
      end
  | Some (Inside n r) =>
      match nth_error (v_nodes v) n with
      | None => None
      | Some nd =>
          match obj_at nd r with
          | None => None
          | Some o =>
              match f o with
              | None => None
              | Some (o', ev) => Some (mkShelf (v_places v) (set_nth (v_nodes v) n (commit nd r o' ev)))
              end
          end
      end
  end.

Definition on_node (v : shelf) (n : nat) (f : node -> node) : option shelf :=
  match nth_error (v_nodes v) n with
  | None => None
  | Some nd => Some (mkShelf (v_places v) (set_nth (v_nodes v) n (f nd)))
  end.

(** What the calls do to the values; [None] is a panic or a device that is added a
    second time. *)
Definition vdoes (e : deed) (v : shelf) : option shelf :=
  match e with
  | DDevice code =>
      match NewDeviceWithCode code with
      | Ok o => Some (mkShelf (v_places v ++ [Loose o]) (v_nodes v))
      | _ => None
      end
  | DNode =>
      match newLocalNode with
      | Ok nd => Some (mkShelf (v_places v ++ [Inside (length (v_nodes v)) (ProfRef 0)]) (v_nodes v ++ [nd]))
      | _ => None
      end
  | DWrite x code d => alter v x (fun o => let '(o', ev, _) := SetPropertyData o code d in Some (o', ev))
  | DProperty x q => alter v x (fun o => Super_AddProperty o q)
  | DCode x code => alter v x (fun o => Super_SetCode o code)
  | DAdd n x =>
      match nth_error (v_nodes v) n, nth_error (v_places v) x with
      | Some nd, Some (Loose o) =>
          match Node_AddDevice nd o with
          | Ok nd' => Some (mkShelf (set_nth (v_places v) x (Inside n (DevRef (length (n_devices nd)))))
                                    (set_nth (v_nodes v) n nd'))
          | _ => None
          end
      | _, _ => None
      end
  | DManufacturer n code => on_node v n (fun nd => Node_SetManufacturerCode nd code)
  | DStart n => on_node v n (fun nd => fst (Node_Start nd None))
  | DStop n => on_node v n Node_Stop
  end.

Fixpoint vplay (es : list deed) (v : shelf) : option shelf :=
  match es with
  | [] => Some v
  | e :: t => match vdoes e v with None => None | Some v' => vplay t v' end
  end.

(** The value of an object. *)
Definition value_at (v : shelf) (x : nat) : option object :=
  match nth_error (v_places v) x with
  | None => None
  | Some (Loose o) => Some o
  | Some (Inside n r) => match nth_error (v_nodes v) n with Some nd => obj_at nd r | None => None end
  end.

(** What a node has announced: source and property, oldest first. *)
Definition said (nd : node) : list (Z * pprop) :=
  flat_map (fun s => match s with Multicast m => map (pair (SEOJ m)) (m_ep m) | _ => [] end) (n_sent nd).

(** The arguments are in range: a known class for a new device, a code of 64 bits, a
    value made of bytes, a property with such a value and a byte as code. *)
Definition proper (e : deed) : Prop :=
  match e with
  | DDevice code => 0 <= code < 2 ^ 64 /\ DB_LookupObject code <> None
  | DWrite _ _ d => is_bytes d
  | DProperty _ q => is_byte (p_code q) /\ is_bytes (p_data q)
  | DCode _ code => 0 <= code < 2 ^ 64
  | _ => True
  end.

(** The program holds what it names: the object and the node were made before, an
    object is added to a node once, and the node profile keeps its code. *)
Definition refers (v : shelf) (e : deed) : Prop :=
  match e with
  | DDevice _ | DNode => True
  | DWrite x _ _ | DProperty x _ => (x < length (v_places v))%nat
  | DCode x _ => match nth_error (v_places v) x with
                 | Some (Loose _) | Some (Inside _ (DevRef _)) => True
                 | _ => False
                 end
  | DAdd n x => (n < length (v_nodes v))%nat /\ exists o, nth_error (v_places v) x = Some (Loose o)
  | DManufacturer n _ | DStart n | DStop n => (n < length (v_nodes v))%nat
  end.

(** A program whose calls are proper and refer to what is there. *)
Fixpoint sensible (v : shelf) (es : list deed) : Prop :=
  match es with
  | [] => True
  | e :: t => proper e /\ refers v e /\ (forall v', vdoes e v = Some v' -> sensible v' t)
  end.

(** The objects a call can change: the one it names, and for the manufacturer and for
    a new device those of the node. *)
Definition concerns (v : shelf) (e : deed) (y : nat) : Prop :=
  match e with
  | DDevice _ | DNode => y = length (v_places v)
  | DWrite x _ _ | DProperty x _ | DCode x _ => y = x
  | DAdd n x => y = x \/ exists r, nth_error (v_places v) y = Some (Inside n r)
  | DManufacturer n _ => exists r, nth_error (v_places v) y = Some (Inside n r)
  | DStart _ | DStop _ => False
  end.

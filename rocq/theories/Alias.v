(** Model of who shares which memory: byte slices and pointers of
    net/echonet/property.go, property_map.go, object.go, super_object.go,
    database.go, protocol/property.go, protocol/message.go,
    protocol/message_parser.go and transport/udp_socket.go.

    The other files of the model use lists for slices, so that nothing is ever
    shared.  Here a slice is a window of an array, an array has an identity, and
    two slices may show the same array; a property of an object is a pointer to a
    cell that several objects may hold.

    Simplified: capacities are left out (no modelled code appends to a byte
    slice it does not own); the bytes of tid, seoj and deoj of a message never
    leave the message and are values; so are the source address and the packet
    type; a protocol property is made and put into one message by one call;
    announcements are left out (they depend on the values only, see [Object]). *)

From Verif Require Import Go Encoding Protocol Parser StdDB Property Object.
Local Open Scope Z_scope.

(** ** Memory *)

Record window : Set := mkWindow { w_arr : nat; w_off : nat; w_len : nat }.

Definition arrays : Set := list (list Z).

Definition array (a : arrays) (i : nat) : list Z := nth i a [].

(** The bytes of a slice. *)
Definition content (a : arrays) (s : window) : list Z :=
  firstn (w_len s) (skipn (w_off s) (array a (w_arr s))).

(** make([]byte, n) followed by writes, or a literal *)
Definition alloc (a : arrays) (l : list Z) : arrays * window :=
  (a ++ [l], mkWindow (length a) 0 (length l)).

(** Overwrites the bytes of the slice from its beginning on. *)
Definition store (a : arrays) (s : window) (l : list Z) : arrays :=
  let old := array a (w_arr s) in
  set_nth a (w_arr s) (firstn (w_off s) old ++ l ++ skipn (w_off s + length l) old).

(** copy(dst, src) *)
Definition copies_to (a : arrays) (dst src : window) : arrays :=
  store a dst (firstn (w_len dst) (content a src)).

(** s[i] = b, in range *)
Definition store_byte (a : arrays) (s : window) (i : nat) (b : Z) : arrays :=
  set_nth a (w_arr s) (set_nth (array a (w_arr s)) (w_off s + i) b).

(** make([]byte, len(data)) and copy: property.go L370-L371, protocol/property.go
    L92-L93. *)
Definition clone (a : arrays) (src : window) : arrays * window :=
  let '(a, dst) := alloc a (zeros (Z.of_nat (w_len src))) in
  (copies_to a dst src, dst).

(** property.go L114-L122 *)
Record cell : Set := mkCell { c_code : Z; c_get : attr; c_set : attr; c_anno : attr; c_data : window }.

(** object.go L102-L111 and property_map.go L22-L25: the code bytes and the pointers
    to the properties, one per code. *)
Record shape : Set := mkShape { s_codes : window; s_props : list nat }.

(** message.go L37-L49; the list of properties with their data. *)
Record envelope : Set := mkEnvelope { e_msg : message; e_props : list (Z * window) }.

(** The memory; [h_vars] are the slices the application holds, with whether it made
    the array itself; [h_db] is the map of database.go L32; [h_buffer] is the buffer
    of a UDP socket (udp_socket.go L23). *)
Record memory : Set := mkMemory {
  h_arrays : arrays;
  h_cells : list cell;
  h_objs : list shape;
  h_msgs : list envelope;
  h_vars : list (window * bool);
  h_db : list (Z * nat);
  h_buffer : window }.

Definition with_arrays (h : memory) (a : arrays) : memory :=
  mkMemory a (h_cells h) (h_objs h) (h_msgs h) (h_vars h) (h_db h) (h_buffer h).
Definition with_cells (h : memory) (c : list cell) : memory :=
  mkMemory (h_arrays h) c (h_objs h) (h_msgs h) (h_vars h) (h_db h) (h_buffer h).
Definition with_objs (h : memory) (o : list shape) : memory :=
  mkMemory (h_arrays h) (h_cells h) o (h_msgs h) (h_vars h) (h_db h) (h_buffer h).
Definition with_msgs (h : memory) (m : list envelope) : memory :=
  mkMemory (h_arrays h) (h_cells h) (h_objs h) m (h_vars h) (h_db h) (h_buffer h).
Definition add_var (h : memory) (s : window) (own : bool) : memory :=
  mkMemory (h_arrays h) (h_cells h) (h_objs h) (h_msgs h) (h_vars h ++ [(s, own)]) (h_db h) (h_buffer h).

(** ** What is to be seen in the memory *)

Definition see_cell (a : arrays) (c : cell) : property :=
  mkProperty (c_code c) (c_get c) (c_set c) (c_anno c) (content a (c_data c)).

Definition no_cell : cell := mkCell 0 Prohibited Prohibited Prohibited (mkWindow 0 0 0).

Definition see_object (a : arrays) (cs : list cell) (o : shape) : object :=
  mkObject (content a (s_codes o)) (map (fun p => see_cell a (nth p cs no_cell)) (s_props o)).

Definition see_message (a : arrays) (m : envelope) : message :=
  Protocol.with_props (e_msg m) (m_opc (e_msg m)) (map (fun p => mkPProp (fst p) (content a (snd p))) (e_props m)).

(** ** Properties and objects *)

(** property.go L369-L380 *)
Definition h_SetData (h : memory) (p : nat) (src : window) : memory :=
  let '(a, s) := clone (h_arrays h) src in
  let c := nth p (h_cells h) no_cell in
  with_cells (with_arrays h a) (set_nth (h_cells h) p (mkCell (c_code c) (c_get c) (c_set c) (c_anno c) s)).

(** property.go L183-L193 (L188 makes the empty data), L491-L501 *)
Definition h_NewProperty (h : memory) (code : Z) (g s an : attr) : memory * nat :=
  let '(a, w) := alloc (h_arrays h) [] in
  (with_cells (with_arrays h a) (h_cells h ++ [mkCell code g s an w]), length (h_cells h)).

(** property.go L491-L501 *)
Definition h_CopyProperty (h : memory) (p : nat) : memory * nat :=
  let c := nth p (h_cells h) no_cell in
  h_NewProperty h (c_code c) (c_get c) (c_set c) (c_anno c).

(** object.go L113-L127 *)
Definition h_newObject (h : memory) : memory * nat :=
  let '(a, w) := alloc (h_arrays h) [0; 0; 0] in
  (with_objs (with_arrays h a) (h_objs h ++ [mkShape w []]), length (h_objs h)).

(** property_map.go L86-L89 *)
Fixpoint lookup_ptr (cs : list cell) (ps : list nat) (code : Z) : option nat :=
  match ps with
  | [] => None
  | p :: t => if c_code (nth p cs no_cell) =? code then Some p else lookup_ptr cs t code
  end.

(** property_map.go L51-L54 *)
Fixpoint add_ptr (cs : list cell) (ps : list nat) (q : nat) : list nat :=
  match ps with
  | [] => [q]
  | p :: t => if c_code (nth p cs no_cell) =? c_code (nth q cs no_cell) then q :: t else p :: add_ptr cs t q
  end.

(** property_map.go L64-L83 *)
Definition ptrs (cs : list cell) (ps : list nat) : list nat :=
  flat_map (fun c => match lookup_ptr cs ps c with Some p => [p] | None => [] end)
           (sort_z (map (fun p => c_code (nth p cs no_cell)) ps)).

Definition no_shape : shape := mkShape (mkWindow 0 0 0) [].
Definition obj_of (h : memory) (o : nat) : shape := nth o (h_objs h) no_shape.

(** object.go L155-L157: IntegerToByte writes into obj.codes. *)
Definition h_SetCode (h : memory) (o : nat) (code : Z) : memory :=
  let s := s_codes (obj_of h o) in
  with_arrays h (store (h_arrays h) s (IntegerToByte code (w_len s))).

(** object.go L165-L167 *)
Definition h_SetCodes (h : memory) (o : nat) (src : window) : memory :=
  with_arrays h (copies_to (h_arrays h) (s_codes (obj_of h o)) src).

(** property_map.go L51-L54 *)
Definition h_AddProperty (h : memory) (o : nat) (q : nat) : memory :=
  let x := obj_of h o in
  with_objs h (set_nth (h_objs h) o (mkShape (s_codes x) (add_ptr (h_cells h) (s_props x) q))).

(** property_map.go L109-L116 *)
Definition h_SetPropertyData (h : memory) (o : nat) (code : Z) (src : window) : memory :=
  match lookup_ptr (h_cells h) (s_props (obj_of h o)) code with
  | None => h
  | Some p => h_SetData h p src
  end.

(** super_object.go L106-L136: the map is built in an array of its own. *)
Definition h_setPropertyMap (h : memory) (o : nat) (propMapCode : Z) (propCodes : list Z) : option memory :=
  match lookup_ptr (h_cells h) (s_props (obj_of h o)) propMapCode with
  | None => Some h
  | Some _ =>
      match propertyMapBytes propCodes with
      | Ok d => let '(a, w) := alloc (h_arrays h) d in
                Some (h_SetPropertyData (with_arrays h a) o propMapCode w)
      | Err _ => Some h
      | Panic => None
      end
  end.

(** super_object.go L149-L160 *)
Definition ptr_codes (f : attr -> bool) (sel : cell -> attr) (h : memory) (o : nat) : list Z :=
  map c_code (filter (fun c => f (sel c))
    (map (fun p => nth p (h_cells h) no_cell) (ptrs (h_cells h) (s_props (obj_of h o))))).

(** super_object.go L139-L170 *)
Definition h_updatePropertyMap (h : memory) (o : nat) : option memory :=
  let allowed x := negb (attr_IsProhibited x) in
  fold_left (fun acc m =>
      match acc with
      | None => None
      | Some h => h_setPropertyMap h o (fst m) (snd m)
      end)
    [ (ObjectGetPropertyMap, ptr_codes allowed c_get h o);
      (ObjectSetPropertyMap, ptr_codes allowed c_set h o);
      (ObjectAnnoPropertyMap, ptr_codes allowed c_anno h o) ] (Some h).

(** super_object.go L100-L103 *)
Definition h_Super_AddProperty (h : memory) (o : nat) (q : nat) : option memory :=
  h_updatePropertyMap (h_AddProperty h o q) o.

(** super_object.go L88-L97: every property of the object of the database is
    copied. *)
Definition h_addStandard (h : memory) (o : nat) (objCode : Z) : option memory :=
  match assoc_z (h_db h) (Z.land objCode 0xFFFF00) with
  | None => Some h
  | Some std =>
      fold_left (fun acc p =>
          match acc with
          | None => None
          | Some h => let '(h, q) := h_CopyProperty h p in h_Super_AddProperty h o q
          end) (ptrs (h_cells h) (s_props (obj_of h std))) (Some h)
  end.

(** super_object.go L71-L74 *)
Definition h_Super_SetCode (h : memory) (o : nat) (code : Z) : option memory :=
  let h := h_SetCode h o code in
  h_addStandard h o (ByteToInteger (content (h_arrays h) (s_codes (obj_of h o)))).

(** super_object.go L60-L68 *)
Definition h_NewSuperObject (h : memory) : option (memory * nat) :=
  let '(h, o) := h_newObject h in
  match h_addStandard (h_SetCode h o 0) o 0 with
  | None => None
  | Some h => match h_updatePropertyMap h o with None => None | Some h => Some (h, o) end
  end.

(** device.go L148-L154 and L101-L110 *)
Definition h_NewDevice (h : memory) (code : Z) : option memory :=
  match h_NewSuperObject h with
  | None => None
  | Some (h', o) =>
      match assoc_z (h_db h) (Z.land code 0xFFFF00) with
      | None => None
      | Some _ => h_Super_SetCode h' o code
      end
  end.

(** object.go L258-L276 *)
Definition h_Copy (h : memory) (o : nat) : memory :=
  let '(h', n) := h_newObject h in
  let h' := h_SetCode h' n (ByteToInteger (content (h_arrays h') (s_codes (obj_of h' n)))) in
  fold_left (fun h p => let '(h, q) := h_CopyProperty h p in h_AddProperty h n q)
    (ptrs (h_cells h) (s_props (obj_of h o))) h'.

(** ** Messages *)

(** message.go L232-L239 with protocol/property.go L51-L57: empty properties. *)
Fixpoint blank_props (a : arrays) (n : nat) : arrays * list (Z * window) :=
  match n with
  | O => (a, [])
  | S n => let '(a, w) := alloc a [] in let '(a, l) := blank_props a n in (a, (0, w) :: l)
  end.

(** message_parser.go L84-L104 for the property [p] *)
Definition h_parse_prop (a : arrays) (data : window) (p : Z * window) (offset : Z) : res (arrays * (Z * window) * Z) :=
  let d := content a data in
  let dataSize := len d in
  if dataSize - 1 <? offset then Ok (a, p, offset)
  else
    c <- idx d offset ;;
    let p := (c, snd p) in
    let offset := offset + 1 in
    if dataSize - 1 <? offset then Ok (a, p, offset)
    else
      propDataSize <- idx d offset ;;
      let offset := offset + 1 in
      if dataSize - 1 <? offset + propDataSize - 1 then Ok (a, p, offset)
      else
        _ <- Go.slice d offset (offset + propDataSize) ;;
        let '(a, w) := clone a (mkWindow (w_arr data) (w_off data + Z.to_nat offset) (Z.to_nat propDataSize)) in
        Ok (a, (fst p, w), offset + propDataSize).

(** message_parser.go L68-L108 *)
Fixpoint h_parse_props (a : arrays) (data : window) (ps : list (Z * window)) (offset : Z) : res (arrays * list (Z * window)) :=
  match ps with
  | [] => Ok (a, [])
  | p :: t =>
      st <- h_parse_prop a data p offset ;;
      let '(a, p, offset) := st in
      rest <- h_parse_props a data t offset ;;
      Ok (fst rest, p :: snd rest)
  end.

(** message.go L79-L85, message_parser.go L111-L134: the header bytes are copied one
    by one. *)
Definition h_Decode (h : memory) (data : window) : res memory :=
  let d := content (h_arrays h) data in
  m <- parseFrameHeaderBytes NewMessage d ;;
  d1 <- slice_from d FrameHeaderSize ;;
  m <- parseFormat1HeaderBytes m d1 ;;
  _ <- slice_from d Format1MinSize ;;
  let '(a, ps) := blank_props (h_arrays h) (Z.to_nat (m_opc m)) in
  st <- h_parse_props a (mkWindow (w_arr data) (w_off data + 12) (w_len data - 12)) ps 0 ;;
  Ok (with_msgs (with_arrays h (fst st))
        (h_msgs h ++ [mkEnvelope (Protocol.with_props m (m_opc m) []) (snd st)])).

(** message.go L247-L250 of a new property with a copy of the data *)
Definition h_AddMessageProperty (h : memory) (m : nat) (code : Z) (src : window) : memory :=
  match nth_error (h_msgs h) m with
  | None => h
  | Some e =>
      let '(a, w) := clone (h_arrays h) src in
      with_msgs (with_arrays h a)
        (set_nth (h_msgs h) m (mkEnvelope (Protocol.with_props (e_msg e) (u8 (m_opc (e_msg e) + 1)) [])
                                 (e_props e ++ [(code, w)])))
  end.

(** ** Calls of an application *)

Inductive call : Set :=
| AMake (l : list Z)                    (* v := []byte{...} *)
| AWrite (v i : nat) (b : Z)            (* v[i] = b *)
| ANewObject
| ASetCode (o : nat) (code : Z)
| ASetCodes (o v : nat)
| ACodes (o : nat)                      (* v := obj.Codes() *)
| AAddProperty (o : nat) (code : Z) (g s a : attr) (v : nat)
| AShare (o o' : nat) (code : Z)        (* obj'.AddProperty of a property of obj *)
| ASetPropertyData (o : nat) (code : Z) (v : nat)
| AData (o : nat) (code : Z)            (* v := obj.LookupPropertyData(code) *)
| ANewDevice (code : Z)
| ASuperAddProperty (o : nat) (code : Z) (g s a : attr) (v : nat)
| ASuperSetCode (o : nat) (code : Z)
| ACopy (o : nat)
| ANewMessage
| AHeader (m : nat) (tid seoj deoj esv : Z)
| AAddMessageProperty (m : nat) (code : Z) (v : nat)
| ARespond (m o : nat) (code : Z)       (* msg.AddProperty(prop.ToProtocol()) *)
| ADecode (v lo hi : nat)               (* NewMessageWithBytes(v[lo:hi]) *)
| AReceive (d : list Z)                 (* a datagram arrives: ReadMessage *)
| AMessageData (m n : nat)              (* v := msg.Property(n).Data() *)
| ABytes (m : nat)                      (* v := msg.Bytes() *)
| ACopyMessage (m : nat).               (* NewMessageWithMessage(msg) *)

Definition var_of (h : memory) (v : nat) : option window := option_map fst (nth_error (h_vars h) v).

(** The slice v[lo:hi], if in range. *)
Definition sub_window (s : window) (lo hi : nat) : option window :=
  if (lo <=? hi)%nat && (hi <=? w_len s)%nat then Some (mkWindow (w_arr s) (w_off s + lo) (hi - lo)) else None.

Definition or_same {A} (x : A) (r : option A) : A := match r with Some y => y | None => x end.
Definition if_ok {A} (x : A) (r : res A) : A := match r with Ok y => y | _ => x end.

(** message.go L162-L219 *)
Definition set_header (m : message) (tid seoj deoj esv : Z) : message :=
  SetESV (SetDEOJ (SetSEOJ (SetTID m tid) seoj) deoj) esv.

(** What a call does.  A call with a handle that does not exist, or that would
    panic, is not made. *)
Definition perform (h : memory) (c : call) : memory :=
  match c with
  | AMake l => let '(a, w) := alloc (h_arrays h) l in add_var (with_arrays h a) w true
  | AWrite v i b =>
      match var_of h v with
      | Some s => if (i <? w_len s)%nat then with_arrays h (store_byte (h_arrays h) s i b) else h
      | None => h
      end
  | ANewObject => fst (h_newObject h)
  | ASetCode o code => if (o <? length (h_objs h))%nat then h_SetCode h o code else h
  | ASetCodes o v =>
      match var_of h v with
      | Some s => if (o <? length (h_objs h))%nat then h_SetCodes h o s else h
      | None => h
      end
  | ACodes o => if (o <? length (h_objs h))%nat then add_var h (s_codes (obj_of h o)) false else h
  | AAddProperty o code g s a v =>
      match var_of h v with
      | Some src =>
          if (o <? length (h_objs h))%nat
          then let '(h, q) := h_NewProperty h code g s a in h_AddProperty (h_SetData h q src) o q
          else h
      | None => h
      end
  | AShare o o' code =>
      if (o' <? length (h_objs h))%nat then
        match lookup_ptr (h_cells h) (s_props (obj_of h o)) code with
        | Some q => h_AddProperty h o' q
        | None => h
        end
      else h
  | ASetPropertyData o code v =>
      match var_of h v with
      | Some src => if (o <? length (h_objs h))%nat then h_SetPropertyData h o code src else h
      | None => h
      end
  | AData o code =>
      match lookup_ptr (h_cells h) (s_props (obj_of h o)) code with
      | Some p => add_var h (c_data (nth p (h_cells h) no_cell)) false
      | None => h
      end
  | ANewDevice code => or_same h (h_NewDevice h code)
  | ASuperAddProperty o code g s a v =>
      match var_of h v with
      | Some src =>
          if (o <? length (h_objs h))%nat
          then let '(h', q) := h_NewProperty h code g s a in or_same h (h_Super_AddProperty (h_SetData h' q src) o q)
          else h
      | None => h
      end
  | ASuperSetCode o code => if (o <? length (h_objs h))%nat then or_same h (h_Super_SetCode h o code) else h
  | ACopy o => if (o <? length (h_objs h))%nat then h_Copy h o else h
  | ANewMessage => with_msgs h (h_msgs h ++ [mkEnvelope NewMessage []])
  | AHeader m tid seoj deoj esv =>
      match nth_error (h_msgs h) m with
      | Some e => with_msgs h (set_nth (h_msgs h) m (mkEnvelope (set_header (e_msg e) tid seoj deoj esv) (e_props e)))
      | None => h
      end
  | AAddMessageProperty m code v =>
      match var_of h v with Some src => h_AddMessageProperty h m code src | None => h end
  | ARespond m o code =>
      match lookup_ptr (h_cells h) (s_props (obj_of h o)) code with
      | Some p => let c := nth p (h_cells h) no_cell in h_AddMessageProperty h m (c_code c) (c_data c)
      | None => h
      end
  | ADecode v lo hi =>
      match var_of h v with
      | Some s => match sub_window s lo hi with Some w => if_ok h (h_Decode h w) | None => h end
      | None => h
      end
  | AReceive d =>
      (* udp_socket.go L132-L137 *)
      let d := firstn (w_len (h_buffer h)) d in
      let h := with_arrays h (store (h_arrays h) (h_buffer h) d) in
      if_ok h (h_Decode h (mkWindow (w_arr (h_buffer h)) (w_off (h_buffer h)) (length d)))
  | AMessageData m n =>
      match nth_error (h_msgs h) m with
      | Some e => match nth_error (e_props e) n with Some p => add_var h (snd p) false | None => h end
      | None => h
      end
  | ABytes m =>
      match nth_error (h_msgs h) m with
      | Some e => match Bytes (see_message (h_arrays h) e) with
                  | Ok b => let '(a, w) := alloc (h_arrays h) b in add_var (with_arrays h a) w true
                  | _ => h
                  end
      | None => h
      end
  | ACopyMessage m =>
      (* message.go L88-L101 *)
      match nth_error (h_msgs h) m with
      | Some e => match Bytes (see_message (h_arrays h) e) with
                  | Ok b =>
                      let '(a, w) := alloc (h_arrays h) b in
                      match h_Decode (with_arrays h a) w with
                      | Ok h' =>
                          match nth_error (h_msgs h') (length (h_msgs h)) with
                          | Some e' => with_msgs h' (set_nth (h_msgs h') (length (h_msgs h))
                              (mkEnvelope (SetPacketType (SetFrom (e_msg e') (m_from (e_msg e))) (m_pktType (e_msg e))) (e_props e')))
                          | None => h'
                          end
                      | _ => h
                      end
                  | _ => h
                  end
      | None => h
      end
  end.

Definition performs (h : memory) (cs : list call) : memory := fold_left perform cs h.

(** ** The memory at the start: the database (database.go L35-L43,
    database_mra_objects.go) and the buffer of a socket (udp_socket.go L41). *)

Fixpoint place_props (a : arrays) (cs : list cell) (m : props) : arrays * list cell * list nat :=
  match m with
  | [] => (a, cs, [])
  | p :: m =>
      let '(a, w) := alloc a (p_data p) in
      let '(a, cs', ps) := place_props a (cs ++ [mkCell (p_code p) (p_get p) (p_set p) (p_anno p) w]) m in
      (a, cs', length cs :: ps)
  end.

Fixpoint place_objects (h : memory) (db : list (Z * object)) : memory :=
  match db with
  | [] => h
  | (k, o) :: db =>
      let '(a, w) := alloc (h_arrays h) (o_codes o) in
      let '(a, cs, ps) := place_props a (h_cells h) (o_props o) in
      place_objects (mkMemory a cs (h_objs h ++ [mkShape w ps]) (h_msgs h) (h_vars h)
                       (h_db h ++ [(k, length (h_objs h))]) (h_buffer h)) db
  end.

Definition memory_start (size : nat) : memory :=
  place_objects (mkMemory [zeros (Z.of_nat size)] [] [] [] [] [] (mkWindow 0 0 size)) db_objects.

(** ** The same calls on values

    What the rest of the model says about the calls: every slice, object and message
    is a value of its own. *)

(** What the application sees. *)
Record world : Set := mkWorld { v_vars : list (list Z); v_objs : list object; v_msgs : list message; v_size : nat }.

Definition see (h : memory) : world :=
  mkWorld (map (fun v => content (h_arrays h) (fst v)) (h_vars h))
          (map (see_object (h_arrays h) (h_cells h)) (h_objs h))
          (map (see_message (h_arrays h)) (h_msgs h))
          (w_len (h_buffer h)).

Definition put_obj (w : world) (o : nat) (x : object) : world := mkWorld (v_vars w) (set_nth (v_objs w) o x) (v_msgs w) (v_size w).
Definition new_obj (w : world) (x : object) : world := mkWorld (v_vars w) (v_objs w ++ [x]) (v_msgs w) (v_size w).
Definition put_msg (w : world) (m : nat) (x : message) : world := mkWorld (v_vars w) (v_objs w) (set_nth (v_msgs w) m x) (v_size w).
Definition new_msg (w : world) (x : message) : world := mkWorld (v_vars w) (v_objs w) (v_msgs w ++ [x]) (v_size w).
Definition new_var (w : world) (x : list Z) : world := mkWorld (v_vars w ++ [x]) (v_objs w) (v_msgs w) (v_size w).

(** The object [o] becomes [f] of itself. *)
Definition edit_obj (w : world) (o : nat) (f : object -> option object) : world :=
  match nth_error (v_objs w) o with
  | Some x => match f x with Some y => put_obj w o y | None => w end
  | None => w
  end.

Definition add_to_msg (w : world) (m : nat) (p : pprop) : world :=
  match nth_error (v_msgs w) m with
  | Some x => put_msg w m (AddProperty x p)
  | None => w
  end.

Definition if_decoded (w : world) (r : res message) : world :=
  match r with Ok m => new_msg w m | _ => w end.

Definition on_values (w : world) (c : call) : world :=
  match c with
  | AMake l => new_var w l
  | AWrite v i b =>
      mkWorld (set_nth (v_vars w) v (set_nth (nth v (v_vars w) []) i b)) (v_objs w) (v_msgs w) (v_size w)
  | ANewObject => new_obj w newObject
  | ASetCode o code => edit_obj w o (fun x => Some (Obj_SetCode x code))
  | ASetCodes o v =>
      match nth_error (v_vars w) v with
      | Some d => edit_obj w o (fun x => Some (Obj_SetCodes x d))
      | None => w
      end
  | ACodes o => match nth_error (v_objs w) o with Some x => new_var w (Codes x) | None => w end
  | AAddProperty o code g s a v =>
      match nth_error (v_vars w) v with
      | Some d => edit_obj w o (fun x => Some (Obj_AddProperty x (with_data (newProperty code g s a) d)))
      | None => w
      end
  | AShare o o' code =>
      match nth_error (v_objs w) o with
      | Some y => match LookupProperty (o_props y) code with
                  | Some p => edit_obj w o' (fun x => Some (Obj_AddProperty x p))
                  | None => w
                  end
      | None => w
      end
  | ASetPropertyData o code v =>
      match nth_error (v_vars w) v with
      | Some d => edit_obj w o (fun x => Some (fst (fst (SetPropertyData x code d))))
      | None => w
      end
  | AData o code =>
      match nth_error (v_objs w) o with
      | Some x => match LookupProperty (o_props x) code with Some p => new_var w (p_data p) | None => w end
      | None => w
      end
  | ANewDevice code => match NewDeviceWithCode code with Ok x => new_obj w x | _ => w end
  | ASuperAddProperty o code g s a v =>
      match nth_error (v_vars w) v with
      | Some d => edit_obj w o (fun x => option_map fst (Super_AddProperty x (with_data (newProperty code g s a) d)))
      | None => w
      end
  | ASuperSetCode o code => edit_obj w o (fun x => option_map fst (Super_SetCode x code))
  | ACopy o => match nth_error (v_objs w) o with Some x => new_obj w (Obj_Copy x) | None => w end
  | ANewMessage => new_msg w NewMessage
  | AHeader m tid seoj deoj esv =>
      match nth_error (v_msgs w) m with
      | Some x => put_msg w m (set_header x tid seoj deoj esv)
      | None => w
      end
  | AAddMessageProperty m code v =>
      match nth_error (v_vars w) v with Some d => add_to_msg w m (mkPProp code d) | None => w end
  | ARespond m o code =>
      match nth_error (v_objs w) o with
      | Some x => match LookupProperty (o_props x) code with Some p => add_to_msg w m (ToProtocol p) | None => w end
      | None => w
      end
  | ADecode v lo hi =>
      match nth_error (v_vars w) v with
      | Some d => match Go.slice d (Z.of_nat lo) (Z.of_nat hi) with
                  | Ok d => if_decoded w (NewMessageWithBytes d)
                  | _ => w
                  end
      | None => w
      end
  | AReceive d => if_decoded w (NewMessageWithBytes (firstn (v_size w) d))
  | AMessageData m n =>
      match nth_error (v_msgs w) m with
      | Some x => match nth_error (m_ep x) n with Some p => new_var w (pp_data p) | None => w end
      | None => w
      end
  | ABytes m =>
      match nth_error (v_msgs w) m with
      | Some x => match Bytes x with Ok b => new_var w b | _ => w end
      | None => w
      end
  | ACopyMessage m =>
      match nth_error (v_msgs w) m with Some x => if_decoded w (NewMessageWithMessage x) | None => w end
  end.

Definition on_values_all (w : world) (cs : list call) : world := fold_left on_values cs w.

(** ** Care

    What an application has to keep away from for that to be the truth: writing into
    a slice it got from the library, keeping the slice of Codes, giving a property of
    an object to another object, and changing an object of the database. *)
Definition careful (h : memory) (c : call) : Prop :=
  match c with
  | AWrite v _ _ => forall s own, nth_error (h_vars h) v = Some (s, own) -> own = true
  | ACodes _ | AShare _ _ _ => False
  | ASetCode o _ | ASetCodes o _ | AAddProperty o _ _ _ _ _ | ASetPropertyData o _ _
  | ASuperAddProperty o _ _ _ _ _ | ASuperSetCode o _ => (length db_objects <= o)%nat
  | _ => True
  end.

Fixpoint all_careful (h : memory) (cs : list call) : Prop :=
  match cs with
  | [] => True
  | c :: cs => careful h c /\ all_careful (perform h c) cs
  end.

(** * The unit tests of the repository, run on the model

    No properties: each Example is what a test of /repo checks, computed by the
    definitions of the model.  They tie the model to the code in the cases the
    authors of the code have run. *)

From Coq Require Import String.
From Verif Require Import Go Encoding Protocol Parser StdDB ManDB Property Object Node Handler Remote Transport Exchange Lan Cmd LanScan Programs Options AddressText.
From Verif Require PropsAddress PropsExchange.
Local Open Scope Z_scope.
Local Open Scope list_scope.

(** ** encoding/binary_test.go *)

(** TestBinaryEncoding L11-L45; the loops of the test for sizes 1 to 3 do not run (n == 0xFF as condition), here they do. *)
Definition steps (n : nat) (by_ : Z) : list Z := map (fun k => Z.of_nat k * by_) (seq 0 n).
Example TestBinaryEncoding :
  forallb (fun n => ByteToInteger (IntegerToByte n 1) =? n) (steps 256 1) &&
  forallb (fun n => ByteToInteger (IntegerToByte n 2) =? n) (steps 256 257) &&
  forallb (fun n => ByteToInteger (IntegerToByte n 3) =? n) (steps 256 65793) &&
  forallb (fun n => ByteToInteger (IntegerToByte n 4) =? n) (steps 256 16843009) = true.
Proof. vm_compute. reflexivity. Qed.

(** ** protocol/address_test.go *)

(** TestNewAddressParse L17-L51 *)
Definition address_case (host : string) (port : Z) : bool :=
  let text := JoinHostPort (PropsAddress.bytes_of host) (Itoa port) in
  match NewAddressWithString text with
  | Some a => bytes_eqb (IP_String (at_ip a)) (PropsAddress.bytes_of host) && (at_port a =? port) && bytes_eqb (Address_String a) text
  | None => false
  end.
Example TestNewAddressParse : address_case "192.0.2.1" 25 && address_case "2001:db8::1" 80 = true.
Proof. vm_compute. reflexivity. Qed.

(** ** protocol/message_parser_test.go, protocol/message_test.go *)

(** message_parser_test.go L12-L23 *)
Definition testMessageBytes : list Z :=
  [EHD1Echonet; EHD2Format1; 0; 0; 0xA0; 0xB0; 0xC0; 0xD0; 0xE0; 0xF0; ESVReadRequest; 3; 1; 1; 97; 2; 2; 98; 99; 3; 3; 99; 100; 101].
(** message_parser_test.go L25-L64 *)
Definition testParsedMessage (m : message) : bool :=
  (TID m =? 0) && (SEOJ m =? 0xA0B0C0) && (DEOJ m =? 0xD0E0F0) && (m_esv m =? ESVReadRequest) && (OPC m =? 3) &&
  forallb (fun n => match MsgProperty m (n - 1) with
                    | Ok (Some p) => (pp_code p =? n) && (len (pp_data p) =? n) &&
                                     forallb (fun i => nth i (pp_data p) 0 =? 97 + (n - 1) + Z.of_nat i) (seq 0 (length (pp_data p)))
                    | _ => false
                    end) [1; 2; 3].
Definition ok_and {A} (f : A -> bool) (r : res A) : bool := match r with Ok a => f a | _ => false end.
(** L66-L74 *)
Example TestParseByteMessage : ok_and testParsedMessage (ParseBytes NewMessage testMessageBytes) = true.
Proof. vm_compute. reflexivity. Qed.
(** message_test.go L14-L20 *)
Example TestNewMessage : ok_and (fun _ => true) (NewMessageWithMessage NewMessage) = true.
Proof. vm_compute. reflexivity. Qed.
(** message_test.go L22-L72 *)
Example TestNewFormat1TestMessage :
  ok_and (fun m => (TID m =? 100) && (SEOJ m =? 0xA0B0C0) && (DEOJ m =? 0xD0E0F0) && (m_esv m =? ESVNotification) && (OPC m =? 3) &&
                   forallb (fun n => match MsgProperty m (n - 1) with Ok (Some p) => (pp_code p =? n) && (pp_Size p =? n) | _ => false end) [1; 2; 3])
    (NewMessageWithBytes ([EHD1Echonet; EHD2Format1] ++ IntegerToByte 100 2 ++
       [0xA0; 0xB0; 0xC0; 0xD0; 0xE0; 0xF0; ESVNotification; 3; 1; 1; 97; 2; 2; 98; 99; 3; 3; 99; 100; 101])) = true.
Proof. vm_compute. reflexivity. Qed.
(** L74-L86 *)
Example TestMessageAddProperty : OPC NewMessage = 0 /\ OPC (AddProperty NewMessage NewPProp) = 1.
Proof. vm_compute. auto. Qed.
(** L88-L99 *)
Example TestEncodeMessage : ok_and (fun m => ok_and (bytes_eqb testMessageBytes) (Bytes m)) (ParseBytes NewMessage testMessageBytes) = true.
Proof. vm_compute. reflexivity. Qed.
(** L101-L128 *)
Example TestMessageEquals :
  ok_and (fun m => ok_and negb (Equals (Some m) None) &&
                   ok_and (fun m2 => ok_and (fun b => b) (Equals (Some m) (Some m2))) (ParseBytes NewMessage testMessageBytes))
    (ParseBytes NewMessage testMessageBytes) = true.
Proof. vm_compute. reflexivity. Qed.

(** ** property_map_test.go *)

Definition rows16 (base bit : Z) : list (Z * Z * Z) := map (fun k => (base + Z.of_nat k, 1 + Z.of_nat k, bit)) (seq 0 16).
(** TestPropertyMapCodeToFormat2 L17-L104 *)
Example TestPropertyMapCodeToFormat2 :
  forallb (fun e => let '(code, row, bit) := e in
             match propertyMapCodeToFormat2 code with Some (r, b) => (r =? row) && (b =? bit) | None => false end)
    (rows16 0x80 0 ++ rows16 0x90 1 ++ rows16 0xC0 4 ++ rows16 0xF0 7) = true.
Proof. vm_compute. reflexivity. Qed.
(** TestPropertyMapFormat2ToCode L106-L130 *)
Example TestPropertyMapFormat2ToCode :
  forallb (fun e => let '(row, bit, code) := e in propertyMapFormat2BitToCode row bit =? code)
    [(0, 0, 0x80); (8, 0, 0x88); (15, 0, 0x8F); (0, 4, 0xC0); (8, 4, 0xC8); (15, 4, 0xCF); (0, 7, 0xF0); (8, 7, 0xF8); (15, 7, 0xFF)] = true.
Proof. vm_compute. reflexivity. Qed.
(** TestObjectPropertyMap L132-L191 *)
Definition map_case (o : object) (c : Z) (f : property -> bool) : bool :=
  let expected := map p_code (filter f (Properties (o_props o))) in
  match LookupProperty (o_props o) c with
  | Some p => ok_and (fun got => (len got =? len expected) && forallb (fun x => existsb (Z.eqb x) expected) got) (PropertyMapData p)
  | None => false
  end.
Definition maps_case (o : object) : bool :=
  map_case o ObjectGetPropertyMap IsReadable && map_case o ObjectSetPropertyMap IsWritable && map_case o ObjectAnnoPropertyMap IsAnnounceable.
Definition some_and {A} (f : A -> bool) (r : option A) : bool := match r with Some a => f a | None => false end.
Example TestObjectPropertyMap : some_and maps_case NewSuperObject && ok_and maps_case (NewDeviceWithCode 0x03CE) = true.
Proof. vm_compute. reflexivity. Qed.

(** ** database_test.go *)

(** TestStandardDatabase L12-L55 *)
Example TestStandardDatabase :
  some_and (fun _ => true) (LookupManufacture 0x000005) &&
  forallb (fun c => some_and (fun _ => true) (DB_LookupObject c)) [0x000000; 0x0EF000; 0x029101] = true.
Proof. vm_compute. reflexivity. Qed.

(** ** super_object_test.go, node_profile_test.go, device_test.go, profile_test.go *)

(** super_object_test.go L37-L67 *)
Definition testObjectPropertyMaps (o : object) : bool :=
  forallb (fun c => match LookupProperty (o_props o) c with
                    | Some p => match p_data p with
                                | [] => false
                                | n :: codes => negb (n <=? PropertyMapFormat1MaxSize) || forallb (fun x => negb (x =? 0)) codes
                                end
                    | None => false
                    end) [0x9F; 0x9E; 0x9D].
Definition has_all (cs : list Z) (o : object) : bool := forallb (HasProp (o_props o)) cs.
Example TestSuperObject : some_and (fun o => has_all [0x8A] o && testObjectPropertyMaps o) NewSuperObject = true.
Proof. vm_compute. reflexivity. Qed.
(** node_profile_test.go L12-L42 *)
Example TestNewNodeProfile :
  ok_and (fun o => ok_and (fun b => b) (IsProfile o) && has_all [0x8A; 0x80; 0x82; 0x83; 0xD3; 0xD4; 0xD5; 0xD6; 0xD7] o && testObjectPropertyMaps o) NewNodeProfile = true.
Proof. vm_compute. reflexivity. Qed.
(** profile_test.go L11-L30 *)
Example TestNewProfile : ok_and (fun o => ok_and (fun b => b) (IsProfile o) && has_all [0x8A; 0x9F; 0x9E; 0x9D] o) NewProfile = true.
Proof. vm_compute. reflexivity. Qed.
(** object_test.go L19-L34 *)
Example TestObjectCodes :
  forallb (fun c => ByteToInteger (IntegerToByte c 3) =? c) [NodeProfileObjectCode; NodeProfileObjectReadOnlyCode] = true.
Proof. vm_compute. reflexivity. Qed.

(** ** transport/interface_test.go *)

Local Open Scope string_scope.
(** TestIPv6Addresses, TestIPv4Addresses, TestLocalAddresses, TestCommunicableAddresses L31-L129 *)
Example TestAddresses :
  forallb IsIPv6Address ["::1"; "fe80::1875:6549:801:d487"] && negb (existsb IsIPv6Address [""; "127.0.0.1"; "192.168.0.1"]) &&
  forallb IsIPv4Address ["127.0.0.1"; "192.168.0.1"] && negb (existsb IsIPv4Address [""; "::1"; "fe80::1875:6549:801:d487"]) &&
  forallb IsLoopbackAddress ["127.0.0.1"; "::1"] && negb (existsb IsLoopbackAddress [""; "192.168.0.1"; "fe80::1875:6549:801:d487"]) &&
  forallb IsCommunicableAddress ["192.168.0.1"; "fe80::1875:6549:801:d487"] && negb (existsb IsCommunicableAddress [""; "127.0.0.1"; "::1"]) = true.
Proof. vm_compute. reflexivity. Qed.
Local Close Scope string_scope.

(** ** device_test.go, local_node_test.go L28-L33 *)

(** device.go L128-L143 without options *)
Example TestNewDevice :
  ok_and (fun d : device unit => has_all [0x80; 0x81; 0x82; 0x88; 0x8A] (fst d) && testObjectPropertyMaps (fst d)) (build_device []) = true.
Proof. vm_compute. reflexivity. Qed.
Example TestNewLocalNode : ok_and (fun nd => some_and (fun _ => true) (NodeProfile nd)) newLocalNode = true.
Proof. vm_compute. reflexivity. Qed.

(** ** local_node_test.go L59-L291, local_node_sample_test.go *)

(** local_node_sample_test.go L54-L73: the listener of the sample node *)
Definition sample_OnMessage (w : unit) (nd : node) (m : message) : unit * node * bool :=
  match LookupDevice nd 0x029101 with
  | None => (w, nd, true)
  | Some r =>
      (w, if ESV_IsWriteRequest (m_esv m)
          then fold_left (fun nd p => if pp_code p =? 0x80 then fst (on_object nd r (fun o => SetPropertyData o 0x80 (pp_data p))) else nd) (m_ep m) nd
          else nd, false)
  end.
(** local_node_sample_test.go L28-L48 and controller.go; both are bound to the same interface and to ports of their own. *)
Definition sample_node : res node :=
  d <- build_device (H := unit) [WithDeviceCode 0x029101] ;;
  let '(o, _, _) := SetPropertyData (fst d) 0x80 [0x31] in
  x <- build_node (L := unit) [WithLocalNodeDevices [o]; WithLocalNodeManufacturerCode (NodeManufacturerExperimental + 1)] ;;
  Ok (PropsExchange.at_address (b_node x) (mkAddress 1 50002) true).
Definition sample_lan : res (lan unit) :=
  nd <- sample_node ;;
  c <- newLocalNode ;;
  Ok (mkLan (PropsExchange.at_address c (mkAddress 1 50001) true) newCtrl
        [mkHost nd tt (mkCallbacks (Some sample_OnMessage) (fun _ => None) (fun _ => None))] []).
Definition sample_conf : ctrl_conf := mkConf true true [(Some 3610, Some 1)].
(** Everything on its way arrives, in order. *)
Fixpoint settle (n : nat) (s : lan unit) : lan unit :=
  match n, l_packets s with
  | S n, _ :: _ => settle n (lan_step sample_conf s (LDeliver 0))
  | _, _ => s
  end.
Definition quiet (s : lan unit) : bool := match l_packets s with [] => true | _ => false end.
(** L34-L57 *)
Definition power_is (v : Z) (r : message + string) : bool :=
  match r with
  | inl m => (OPC m =? 1) && match MsgProperty m 0 with Ok (Some p) => (pp_code p =? 0x80) && bytes_eqb (pp_data p) [v] | _ => false end
  | inr _ => false
  end.
Definition post (s : lan unit) (esv : Z) (d : list Z) : lan unit * (message + string) :=
  net_post sample_conf s (mkAddress 1 50002)
    (build_message [WithMessageDEOJ 0x029101; WithMessageESV esv; WithMessageProperties [snd (build_property [WithPropertyCode 0x80; WithPropertyData d])]]).
Definition send (s : lan unit) (esv : Z) (d : list Z) : lan unit :=
  settle 20 (acts s 0 (fun nd => fst (SendMessage nd (mkAddress 1 50002) (new_request 0x029101 esv [mkPProp 0x80 d])))).
Definition read_is (v : Z) (x : lan unit * bool) : lan unit * bool :=
  let '(s, r) := post (fst x) ESVReadRequest [] in (s, snd x && power_is v r && quiet s).
Definition write_read_is (v : Z) (x : lan unit * bool) : lan unit * bool :=
  let '(s, r) := post (fst x) ESVWriteReadRequest [v] in (s, snd x && power_is v r && quiet (settle 20 s)).
Definition times4 {A} (f : nat -> A -> A) (x : A) : A := fold_left (fun x n => f n x) (seq 0 4) x.
Definition on_off (n : nat) : Z := if Nat.even n then 0x30 else 0x31.

(** The controller starts, the node starts; the controller has found the node with
    its device; reads, writes each followed by a read, and writes that read. *)
Definition local_node_test : res (list (address * list Z) * bool * bool) :=
  s <- sample_lan ;;
  let s := settle 20 (acts s 0 (fun nd => fst (Node_Start nd None))) in
  let start := n_lastTID (l_node s) in
  let s := settle 20 (acts s 1 (fun nd => fst (Node_Start nd None))) in
  let found := map (fun n => (rn_addr n, map Code (rn_devices n))) (ct_found (l_ctrl s)) in
  let s := times4 (fun _ s => send s ESVReadRequest []) s in
  let x := times4 (fun _ => read_is 0x31) (s, true) in
  let x := times4 (fun n x => read_is (on_off n) (send (fst x) ESVWriteRequest [on_off n], snd x)) x in
  let x := times4 (fun n => write_read_is (on_off n)) x in
  Ok (found, snd x, start <=? n_lastTID (l_node (fst x))).
Example TestLocalNode :
  local_node_test = Ok ([(mkAddress 1 50001, []); (mkAddress 1 50002, [0x029101])], true, true).
Proof. vm_compute. reflexivity. Qed.

(** ** controller_test.go L70-L160 *)

(** L15-L48, L103-L127: the controller starts, ten nodes start, the controller
    searches; its listener is told of each node with the device, once. *)
Definition controller_test : res (bool * list (list Z)) :=
  nd <- sample_node ;;
  c <- newLocalNode ;;
  let s := mkLan (PropsExchange.at_address c (mkAddress 1 50001) true) newCtrl
             (map (fun k => mkHost (PropsExchange.at_address nd (mkAddress 1 (50002 + Z.of_nat k)) true) tt
                              (mkCallbacks (Some sample_OnMessage) (fun _ => None) (fun _ => None))) (seq 0 10)) [] in
  let s := settle 500 (acts s 0 (fun nd => fst (Node_Start nd None))) in
  let s := fold_left (fun s k => acts s (S k) (fun nd => fst (Node_Start nd None))) (seq 0 10) s in
  let s := settle 500 s in
  let s := settle 500 (acts s 0 (fun nd => fst (SearchAllObjectsWithESV nd ESVReadRequest))) in
  Ok (quiet s, map (fun n => map Code (rn_devices n)) (ct_told (l_ctrl s))).
Example TestController : controller_test = Ok (true, [] :: repeat [0x029101] 10).
Proof. vm_compute. reflexivity. Qed.

(** ** transport/unicast_config_test.go, transport/extention_config_test.go *)

(** Equals (unicast_config.go L104-L106, extention_config.go L39-L42) compares all fields, as [=] does. *)
Definition with_tcp_timeout (tcp : bool) (t : Z) : unicast_config :=
  let c := NewDefaultUnicastConfig in mkUC tcp t (uc_requestTimeout c) (uc_bindRetryCount c) (uc_bindRetryWaitTime c).
Example TestUnicastConfigEquals :
  let conf01 := with_tcp_timeout true 1000 in let conf02 := with_tcp_timeout false 1000000000 in
  let conf03 := UC_SetConfig NewDefaultUnicastConfig conf01 in
  conf01 <> conf02 /\ conf01 = conf03 /\ conf02 <> conf03 /\ conf02 = UC_SetConfig conf03 conf02.
Proof. repeat split; discriminate. Qed.
Example TestExtensionConfigEquals :
  let conf01 := mkEC true in let conf02 := mkEC false in
  let conf03 := EC_SetConfig (cf_extension NewDefaultConfig) conf01 in
  conf01 <> conf02 /\ conf01 = conf03 /\ conf02 <> conf03 /\ conf02 = EC_SetConfig conf03 conf02.
Proof. repeat split; discriminate. Qed.

(** C78: what enters a node into the table of a controller. *)

From Verif Require Import Go GoFacts Encoding EncodingFacts Protocol Parser MessageFacts ParserFacts
  ProtocolFacts Reader StdDB Property PropertyFacts Object ObjectFacts Spec Node NodeFacts
  Handler HandlerFacts PropsHandler Remote RemoteFacts PropsRemote Transport TransportFacts Exchange ExchangeFacts
  PropsExchange.
From Verif Require PropsProtocol PropsNode.
From Coq Require Import ZifyBool ZifyNat.
Local Open Scope Z_scope.

(** The full claim: only a message from a node profile enters a node. *)
Definition only_profiles : Prop := forall conf nd ct m, received m ->
  ct_found (ctrl_receive conf nd ct m) <> ct_found ct -> In (SEOJ m) [0x0EF001; 0x0EF002].

(** What holds: a message that carries some other property first, or none, leaves
    the table alone, whoever sent it. *)
Theorem C78_other_partial : forall conf nd ct m, received m ->
  (forall p rest, m_ep m = p :: rest -> ~ In (pp_code p) [0xD5; 0xD6]) ->
  ct_found (ctrl_receive conf nd ct m) = ct_found ct /\ ct_told (ctrl_receive conf nd ct m) = ct_told ct.
Proof.
  intros conf nd ct m HR HN.
  destruct (C38_step conf nd ct m HR) as [(n & (_ & _ & codes & (p & rest & tr & _ & E & I & _) & _) & _)|(_ & X)]; [|exact X].
  exfalso. exact (HN p rest E I).
Qed.

(** A message that the controller waits for changes the table in the same way as
    one it does not wait for. *)
Lemma receive_waiting conf nd ct pending m : received m -> pending_ok pending ->
  out_world (ProtocolMessageReceived (ctrl_callbacks conf) ct nd pending m) = ctrl_receive conf nd ct m.
Proof.
  intros HR HP. unfold ctrl_receive.
  destruct (negb (n_self nd) && addr_eqb (m_from m) (n_addr nd)) eqn:EO.
  { unfold ProtocolMessageReceived. rewrite EO. reflexivity. }
  pose proof (not_own_of nd m EO) as HO.
  destruct (valid_dec nd m HR) as [(r & o & HV)|HV].
  - destruct (handle_valid (ctrl_callbacks conf) ct nd pending m r o HR HP HO HV) as (d & st & E & _ & _ & ->).
    destruct (handle_valid (ctrl_callbacks conf) ct nd None m r o HR I HO HV) as (d' & st' & E' & _ & _ & ->).
    cbn [out_world]. congruence.
  - destruct (handle_invalid (ctrl_callbacks conf) ct nd pending m HR HP HO HV) as (d & resp & -> & _).
    destruct (handle_invalid (ctrl_callbacks conf) ct nd None m HR I HO HV) as (d' & resp' & -> & _).
    reflexivity.
Qed.

(** The claim is false for every device with a property 0xD5 or 0xD6 (a volume, a
    voltage, a water flow rate) whose data begin like an instance list: a
    controller that reads it enters the node with the devices the data seem to
    name, and what the node announces about itself afterwards is ignored. *)
Theorem C78_read_refuted : forall (W : Type) (cb : callbacks W) w conf ct cl nd i o pending pt ca sa obj code post a rest codes extra,
  library_node cl -> n_running cl = true ->
  library_node nd -> keeps_node cb -> pending_ok pending -> hears nd ca -> 0 <= obj < 2 ^ 24 ->
  LookupObject nd obj = Some (DevRef i) -> obj_at nd (DevRef i) = Some o ->
  In code [0xD5; 0xD6] -> Forall (accepts o 0x62) [mkPProp code []] ->
  holds o code (Z.of_nat (length codes) :: concat codes ++ extra) ->
  value (Z.of_nat (length codes) :: concat codes ++ extra) ->
  Forall (fun c => length c = 3%nat) codes -> Forall RemoteFacts.acceptable codes ->
  exists m cl' b,
    Node_PostMessage cl sa (new_request obj 0x62 [mkPProp code []]) (udp_net post a rest) = Ok (cl', [SentUDP 0 b], PostWaits m) /\
    let s := serve_datagram cb w nd pending pt sa (mkDatagram b ca) in
    ((forall k e, In (k, e) (out_calls (fst s)) -> e = false) ->
     exists b' resp, snd s = Ok (Some (ca, mkDatagram b' sa)) /\ ReadMessage (mkDatagram b' sa) = Ok resp /\ SEOJ resp = obj /\
      let r := SetPacketType resp UDPUnicastPacket in
      (foreign conf cl' r -> ~ known ct (sender conf r) ->
       let ct' := out_world (fst (serve_datagram (ctrl_callbacks conf) ct cl' (Some m) UDPUnicastPacket ca (mkDatagram b' sa))) in
       exists n, ct_found ct' = ct_found ct ++ [n] /\ describes (sender conf r) codes n /\
         forall nd' m', received m' -> sender conf m' = sender conf r ->
           ct_found (ctrl_receive conf nd' ct' m') = ct_found ct')).
Proof.
  intros W cb w conf ct cl nd i o pending pt ca sa obj code post a rest codes extra
    Hcl Hrun Hnd HK HP HO Hobj HL HOb HC HA HH HV H3 HAc.
  set (data := Z.of_nat (length codes) :: concat codes ++ extra) in *.
  assert (HS : sendable [mkPProp code []]).
  { split; [cbn; lia|]. split; [|cbn; lia]. constructor; [|constructor]. cbn [pp_code pp_data In] in *.
    split; [lia|]. split; [cbn; lia|constructor]. }
  assert (HE : In (0x62, 0x72) spec_answer) by (cbn [spec_answer In]; tauto).
  assert (HK' : respects calls_library cb).
  { destruct HK as (A & B & C). split; [|split].
    - intros g w0 nd0 m0 Hg. rewrite (A g w0 nd0 m0 Hg). exists []. split; [constructor|reflexivity].
    - intros r0 g w0 nd0 e0 p0 Hg. rewrite (B r0 g w0 nd0 e0 p0 Hg). exists []. split; [constructor|reflexivity].
    - intros r0 g w0 nd0 e0 p0 Hg. rewrite (C r0 g w0 nd0 e0 p0 Hg). exists []. split; [constructor|reflexivity]. }
  destruct (exchange W cb w cl nd i o pending pt ca sa obj 0x62 0x72 [mkPProp code []] post a rest
    Hcl Hrun Hnd HK' HP HO HE Hobj HS HL HOb HA)
    as (c & m & cl' & req & HLc & C1 & C2 & C3 & C4 & RM & HI & NA & NS & _ & P1 & P2 & P3 & EP & EC & EA).
  exists m, cl', (wire c). split; [exact EP|]. cbv zeta. intros Hok.
  destruct (EA Hok) as (o' & vs & O' & F & HVs).
  assert (EN : out_node (fst (serve_datagram cb w nd pending pt sa (mkDatagram (wire c) ca))) = nd).
  { unfold serve_datagram. destruct (ReadMessage _); [|reflexivity|reflexivity].
    unfold handle_datagram_message. cbn [fst]. apply C29_no_change. exact HK. }
  rewrite EN in O'. assert (o' = o) by congruence. subst o'.
  assert (vs = [data]).
  { cbn [map pp_code] in F. inversion F as [|? v ? vs' (q & Q1 & Q2) F']; subst. inversion F'; subst.
    destruct HH as (q' & Q3 & Q4). assert (q' = q) by congruence. subst q'. rewrite Q4. reflexivity. }
  subst vs. destruct (HVs ltac:(constructor; [exact HV|constructor])) as (HLa & Es).
  assert (Hlen : (length (wire (answer_content c 0x72 [data])) <= 1024)%nat).
  { rewrite wire_length. cbn [answer_content c_props]. rewrite C4. cbn [map to_pair fst combine snd pp_code].
    unfold message_size. cbn [fold_right]. destruct HV as (HV & _). lia. }
  destruct (wire_arrives _ sa HLa Hlen) as (x & EX & FX & RX & VX).
  destruct (represents_getters x _ RX HLa) as (G1 & G2 & G3 & G4 & G5 & G6).
  cbn [answer_content c_tid c_seoj c_deoj c_esv c_props] in G1, G2, G3, G4, G5, G6.
  rewrite C1 in G3. rewrite C2 in G2.
  rewrite C4 in G5, G6. cbn [map to_pair fst combine of_pair snd pp_code length] in G5, G6.
  exists (wire (answer_content c 0x72 [data])), x. split; [exact Es|]. split; [exact EX|]. split; [exact G2|].
  set (r := SetPacketType x UDPUnicastPacket) in *. intros HF HU.
  assert (HAn : announcement conf cl' r).
  { split; [apply VX|]. split; [exact HF|]. change (m_esv r) with (m_esv x). change (DEOJ r) with (DEOJ x).
    rewrite G3, G4. split; [cbn; tauto|]. split; [left; reflexivity|].
    destruct HI as (_ & _ & (np & rst & Ep & Hc & _)). cbn [core_of k_profs] in Ep.
    destruct (self_object cl' np rst Ep Hc) as (q & oo & Q & _). rewrite Q. discriminate. }
  assert (HIL : instance_list r codes).
  { exists (mkPProp code data), [], extra. change (OPC r) with (OPC x). change (m_ep r) with (m_ep x).
    rewrite G5, G6. split; [lia|]. split; [reflexivity|]. split; [exact HC|]. split; [reflexivity|exact H3]. }
  destruct (C37_discovered_partial conf cl' ct r codes HAn HU HIL HAc) as (n & N1 & N2 & _ & _).
  assert (EW : out_world (fst (serve_datagram (ctrl_callbacks conf) ct cl' (Some m) UDPUnicastPacket ca
                 (mkDatagram (wire (answer_content c 0x72 [data])) sa))) = ctrl_receive conf cl' ct r).
  { unfold serve_datagram. rewrite EX. unfold handle_datagram_message. cbn [fst].
    apply receive_waiting; [apply VX|exact (pending_shape m c RM)]. }
  rewrite EW. exists n. split; [exact N1|]. split; [exact N2|].
  intros nd' m' HR' HS'. apply C40_stale; [exact HR'|]. unfold known. rewrite N1, map_app, HS'.
  apply in_app_iff. right. left. apply N2.
Qed.

(** Reading the volume of a water heater that is turned down enters a node with no
    device at all; the node has two. *)
Definition ex_heater : object :=
  mkObject [0x02; 0x72; 0x01] [mkProperty 0x80 Required Required Required [0x30]; mkProperty 0xD6 Required Optional Optional [0]].
Definition ex_table (o : object) (from : list Z) : res (list (address * list (list Z))) :=
  cl <- ex_client ;; nd <- ex_server o ;;
  r <- Node_PostMessage cl (mkAddress 7 3610) (new_request 0x027201 0x62 [mkPProp 0xD6 []]) (udp_net [] ADialFails []) ;;
  match r with
  | (cl', [SentUDP _ b], PostWaits m) =>
      a <- snd (serve_datagram (no_callbacks unit) tt nd None UDPUnicastPacket (mkAddress 7 3610) (mkDatagram b (mkAddress 5 3610))) ;;
      match a with
      | Some (_, d') =>
          let conf := mkConf false true [(Some 3610, Some 5)] in
          let ct := out_world (fst (serve_datagram (ctrl_callbacks conf) newCtrl cl' (Some m) UDPUnicastPacket (mkAddress 5 3610) d')) in
          x <- NewMessageWithBytes from ;;
          Ok (map (fun n => (rn_addr n, map o_codes (rn_devices n)))
                (ct_found (ctrl_receive conf cl' ct (SetPacketType (SetFrom x (mkAddress 7 3610)) MulticastPacket))))
      | None => Err ErrOther
      end
  | _ => Err ErrOther
  end.

Example C78_example :
  ex_table ex_heater [0x10; 0x81; 0; 9; 0x0E; 0xF0; 1; 0x0E; 0xF0; 1; 0x73; 1; 0xD5; 7; 2; 1; 0x30; 1; 2; 0x72; 1]
  = Ok [(mkAddress 7 3610, [])].
Proof. vm_compute. reflexivity. Qed.

(** So the full claim is false. *)
Theorem C78_refuted : ~ only_profiles.
Proof.
  intros H.
  set (b := [0x10; 0x81; 0; 9; 0x02; 0x72; 1; 0x0E; 0xF0; 1; 0x72; 1; 0xD6; 1; 0]).
  set (m := match NewMessageWithBytes b with Ok x => SetPacketType (SetFrom x (mkAddress 1 3610)) 2 | _ => NewMessage end).
  assert (HR : received m).
  { exists b, (match NewMessageWithBytes b with Ok x => x | _ => NewMessage end), (mkAddress 1 3610), 2.
    split; [|split; vm_compute; reflexivity].
    repeat (apply Forall_cons; [unfold is_byte; lia|]). apply Forall_nil. }
  specialize (H ex_conf ex_ctrl_node newCtrl m HR).
  destruct H as [X|[X|[]]]; [vm_compute; discriminate|vm_compute in X; discriminate X|vm_compute in X; discriminate X].
Qed.

(** Device classes of the standard database with a property 0xD5 or 0xD6 that can
    be read. *)
Example C78_classes :
  map (fun c => (cl_grp c, cl_cls c))
    (filter (fun c => negb (cl_grp c =? 0x0E) &&
       existsb (fun e => ((pe_code e =? 0xD5) || (pe_code e =? 0xD6)) &&
                         match pe_get e with RNotApplicable => false | _ => true end) (cl_entries c)) mra_table) =
  [(2, 0x72); (2, 0x7E); (2, 0x87); (2, 0x6B); (2, 0x7D); (2, 0xA7); (3, 0xD3); (2, 0x8F); (2, 0x8E); (1, 0x34); (3, 0xB7)].
Proof. vm_compute. reflexivity. Qed.

Print Assumptions C78_other_partial.
Print Assumptions C78_read_refuted.
Print Assumptions C78_refuted.

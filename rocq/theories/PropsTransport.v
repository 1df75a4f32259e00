(** Properties C46 - C49, C51, C54, C55: the transport. *)

From Coq Require Import String Ascii Permutation ZifyBool ZifyNat.
From Verif Require Import Go GoFacts Encoding EncodingFacts Protocol Parser Spec
  MessageFacts ParserFacts ProtocolFacts PropsProtocol Transport TransportFacts TransportStart.
Local Open Scope Z_scope.
Local Open Scope list_scope.

(** ** C46

    Full statement: whatever datagrams arrive, every well-formed one is
    delivered, in order.  It is false: the first malformed datagram ends the
    receiving goroutine. *)

Definition C46_full : Prop := forall pt ds, Forall byte_datagram ds ->
  exists ms, fst (receive_loop pt (map RDatagram ds)) = ms /\
    Forall2 (delivery pt) (filter (fun d => if acceptable_dec d then true else false) ds) ms.

(** What is delivered, exactly: the messages of the datagrams in front of the
    first malformed one; the loop has ended if there was one. *)
Theorem C46_delivered_exact : forall pt good bad later,
  Forall byte_datagram good -> Forall acceptable good -> byte_datagram bad -> ~ acceptable bad ->
  exists ms, receive_loop pt (map RDatagram good ++ RDatagram bad :: later) = (ms, LoopEnded) /\
             Forall2 (delivery pt) good ms.
Proof.
  intros pt good bad later HB HA HB' HA'.
  destruct (loop_prefix pt good (RDatagram bad :: later) HB HA) as (ms & E & F).
  exists ms. rewrite E, loop_bad by assumption. cbn [fst snd]. rewrite app_nil_r. auto.
Qed.

(** As long as every datagram is well-formed all of them are delivered, in order,
    with the sender and the packet type of the socket. *)
Theorem C46_well_formed_partial : forall pt ds,
  Forall byte_datagram ds -> Forall acceptable ds ->
  exists ms, receive_loop pt (map RDatagram ds) = (ms, LoopRunning) /\
    Forall2 (fun d m => m_from m = d_from d /\ m_pktType m = pt /\
               exists m0, NewMessageWithBytes (firstn 1024 (d_bytes d)) = Ok m0 /\
                 (TID m, SEOJ m, DEOJ m, m_esv m, OPC m, m_ep m)
                 = (TID m0, SEOJ m0, DEOJ m0, m_esv m0, OPC m0, m_ep m0)) ds ms.
Proof.
  intros pt ds HB HA. destruct (loop_prefix pt ds [] HB HA) as (ms & E & F).
  rewrite app_nil_r in E. cbn [receive_loop fst snd] in E. rewrite app_nil_r in E. exists ms. split; [exact E|].
  clear -F. induction F as [|d m ds ms (m0 & E & ->) _ IH]; constructor; auto.
  split; [reflexivity|]. split; [reflexivity|]. exists m0. split; [exact E|reflexivity].
Qed.

(** After any malformed datagram nothing is delivered, whatever arrives. *)
Theorem C46_malformed_refuted : forall pt bad later,
  byte_datagram bad -> ~ acceptable bad ->
  fst (receive_loop pt (RDatagram bad :: later)) = [].
Proof. intros pt bad later HB HA. rewrite loop_bad by assumption. reflexivity. Qed.

Definition C46_ok : datagram :=
  mkDatagram [0x10; 0x81; 0; 1; 5; 0xFF; 1; 0x0E; 0xF0; 1; 0x62; 1; 0x80; 0] (mkAddress 7 3610).
Definition C46_bad : datagram := mkDatagram [0x10; 0x82; 0; 1; 5; 0xFF; 1; 0x0E; 0xF0; 1; 0x62; 1; 0x80; 0] (mkAddress 8 3610).
Definition C46_empty : datagram := mkDatagram [] (mkAddress 8 3610).

Lemma C46_bytes : byte_datagram C46_ok /\ byte_datagram C46_bad /\ byte_datagram C46_empty.
Proof. repeat split; repeat constructor; lia. Qed.

Theorem C46_refuted : ~ C46_full.
Proof.
  intros H. destruct (H MulticastPacket [C46_empty; C46_ok]) as (ms & E & F).
  - destruct C46_bytes as (H1 & _ & H2). constructor; [exact H2|constructor; [exact H1|constructor]].
  - vm_compute in E. subst ms. vm_compute in F. inv F.
Qed.

Example C46_example :
  length (fst (receive_loop UDPUnicastPacket (map RDatagram [C46_ok; C46_ok; C46_bad; C46_ok]))) = 2%nat /\
  snd (receive_loop UDPUnicastPacket (map RDatagram [C46_ok; C46_ok; C46_bad; C46_ok])) = LoopEnded /\
  length (fst (receive_loop UDPUnicastPacket (map RDatagram [C46_ok; C46_ok; C46_ok]))) = 3%nat.
Proof. vm_compute. auto. Qed.

(** The handler is called once per delivered message ... *)
Theorem C46_once : forall ms sched handled,
  spawn_run (ms, [], []) sched = Some ([], [], handled) -> Permutation ms handled.
Proof.
  intros ms sched handled E. apply spawn_keeps in E. cbn [app] in E. rewrite !app_nil_r in E. exact E.
Qed.

(** ... but in no particular order: every order is possible. *)
Theorem C46_order_refuted : forall ms handled, Permutation ms handled ->
  exists sched, spawn_run (ms, [], []) sched = Some ([], [], handled).
Proof.
  intros ms handled HP. destruct (spawn_perm handled ms [] HP) as [l Hl].
  exists (repeat SpawnNext (length ms) ++ l). rewrite spawn_run_app, spawn_all. exact Hl.
Qed.

Example C46_order_example :
  spawn_run ([SetTID NewMessage 1; SetTID NewMessage 2], [], []) [SpawnNext; SpawnNext; RunNth 1; RunNth 0]
  = Some ([], [], [SetTID NewMessage 2; SetTID NewMessage 1]).
Proof. vm_compute. reflexivity. Qed.

(** ** C47

    Full statement: every message within the format limits that is sent in one
    datagram is delivered unchanged.  It is false for frames of more than 1024
    bytes: the receive buffer cuts them and the decoder accepts the rest. *)

Definition C47_full : Prop := forall ops b m from,
  in_limits (content_of ops) -> Bytes (built ops) = Ok b -> ReadMessage (mkDatagram b from) = Ok m ->
  map (fun p => (pp_code p, pp_data p)) (m_ep m) = c_props (content_of ops).

Theorem C47_up_to_buffer_partial : forall ops from,
  in_limits (content_of ops) -> (length (wire (content_of ops)) <= 1024)%nat ->
  exists b m,
    Bytes (built ops) = Ok b /\ ReadMessage (mkDatagram b from) = Ok m /\
    TID m = c_tid (content_of ops) /\ SEOJ m = c_seoj (content_of ops) /\
    DEOJ m = c_deoj (content_of ops) /\ m_esv m = c_esv (content_of ops) /\
    OPC m = Z.of_nat (length (c_props (content_of ops))) /\
    map (fun p => (pp_code p, pp_data p)) (m_ep m) = c_props (content_of ops) /\ m_from m = from.
Proof.
  intros ops from HL Hlen.
  destruct (C01_round_trip ops HL) as (b & m & EB & EM & H1 & H2 & H3 & H4 & H5 & H6 & _).
  exists b, (SetFrom m from). split; [exact EB|].
  assert (Eb : b = wire (content_of ops)).
  { pose proof (C02_wire_layout ops HL) as [HB _]. rewrite HB in EB. injection EB as <-. reflexivity. }
  split.
  - unfold ReadMessage. rewrite max_packet. cbn [d_bytes d_from]. rewrite firstn_all2 by (rewrite Eb; exact Hlen).
    rewrite EM. reflexivity.
  - repeat split; assumption.
Qed.

Lemma be3_sum x : x / 65536 * 65536 + (x / 256) mod 256 * 256 + x mod 256 = x.
Proof.
  pose proof (Z.div_mod x 256). pose proof (Z.div_mod (x / 256) 256). pose proof (Z.div_div x 256 256).
  change (256 * 256) with 65536 in *. lia.
Qed.

(** Every longer frame whose last property has data is delivered with other
    properties than were sent, without an error. *)
Theorem C47_long_refuted : forall c from,
  in_limits c -> (1024 < length (wire c))%nat -> snd (last (c_props c) (0, [])) <> [] ->
  exists m, ReadMessage (mkDatagram (wire c) from) = Ok m /\
    TID m = c_tid c /\ SEOJ m = c_seoj c /\ DEOJ m = c_deoj c /\ m_esv m = c_esv c /\
    OPC m = Z.of_nat (length (c_props c)) /\
    map (fun p => (pp_code p, pp_data p)) (m_ep m) <> c_props c.
Proof.
  intros c from HL Hlen Hlast. destruct HL as (L1 & L2 & L3 & L4 & L5 & L6).
  pose proof (wire_frame_bytes _ _ _ _ _ (conj L1 (conj L2 (conj L3 (conj L4 (conj L5 L6)))))) as HB.
  fold (wire c) in HB.
  set (area := flat_map wire_prop (c_props c)).
  assert (EW : wire c = 0x10 :: 0x81 :: c_tid c / 256 :: c_tid c mod 256 ::
     c_seoj c / 65536 :: (c_seoj c / 256) mod 256 :: c_seoj c mod 256 ::
     c_deoj c / 65536 :: (c_deoj c / 256) mod 256 :: c_deoj c mod 256 ::
     c_esv c :: Z.of_nat (length (c_props c)) :: area) by reflexivity.
  assert (HB' : Forall (fun b => 0 <= b < 256) (firstn 1024 (wire c))) by (apply Forall_firstn; exact HB).
  assert (EF : firstn 1024 (wire c) = 0x10 :: 0x81 :: c_tid c / 256 :: c_tid c mod 256 ::
     c_seoj c / 65536 :: (c_seoj c / 256) mod 256 :: c_seoj c mod 256 ::
     c_deoj c / 65536 :: (c_deoj c / 256) mod 256 :: c_deoj c mod 256 ::
     c_esv c :: Z.of_nat (length (c_props c)) :: firstn 1012 area) by (rewrite EW; reflexivity).
  rewrite EF in HB'.
  destruct (C03_decoder_exact (c_tid c / 256) (c_tid c mod 256)
     (c_seoj c / 65536) ((c_seoj c / 256) mod 256) (c_seoj c mod 256)
     (c_deoj c / 65536) ((c_deoj c / 256) mod 256) (c_deoj c mod 256)
     (c_esv c) (Z.of_nat (length (c_props c))) (firstn 1012 area)) as (m & EM & H1 & H2 & H3 & H4 & H5 & H6).
  { inv HB'. match goal with H : Forall _ (0x81 :: _) |- _ => inv H; assumption end. }
  exists (SetFrom m from). split.
  { unfold ReadMessage. rewrite max_packet. cbn [d_bytes d_from]. rewrite EF, EM. reflexivity. }
  change (TID (SetFrom m from)) with (TID m). change (SEOJ (SetFrom m from)) with (SEOJ m).
  change (DEOJ (SetFrom m from)) with (DEOJ m). change (m_esv (SetFrom m from)) with (m_esv m).
  change (OPC (SetFrom m from)) with (OPC m). change (m_ep (SetFrom m from)) with (m_ep m).
  split; [rewrite H1; pose proof (Z.div_mod (c_tid c) 256); lia|].
  split; [rewrite H2; apply be3_sum|]. split; [rewrite H3; apply be3_sum|].
  split; [exact H4|]. split; [exact H5|].
  rewrite H6, Nat2Z.id. intros E.
  assert (HBA : Forall (fun b => 0 <= b < 256) (firstn 1012 area)).
  { apply Forall_firstn. rewrite EW in HB. do 12 (apply Forall_inv_tail in HB). exact HB. }
  pose proof (split_last (length (c_props c)) (firstn 1012 area) HBA) as HS. rewrite E in HS.
  specialize (HS Hlast). fold area in HS. rewrite firstn_length in HS.
  rewrite EW in Hlen. cbn [length] in Hlen. lia.
Qed.

(** Five properties of 255 bytes. *)
Definition C47_ops : list msg_op :=
  [ OSetTID 7; OSetSEOJ 0x05FF01; OSetDEOJ 0x0EF001; OSetESV 0x73;
    OAddProperty 0xE0 (repeat 1 255); OAddProperty 0xE1 (repeat 2 255); OAddProperty 0xE2 (repeat 3 255);
    OAddProperty 0xE3 (repeat 4 255); OAddProperty 0xE4 (repeat 5 255) ].

Lemma C47_ops_in_limits : in_limits (content_of C47_ops).
Proof.
  assert (H : forall b, 0 <= b < 256 -> Forall (fun x => 0 <= x < 256) (repeat b 255)).
  { intros b Hb. apply Forall_forall. intros x Hx. apply repeat_spec in Hx. subst. exact Hb. }
  unfold in_limits, frame_in_limits. cbn [C47_ops content_of fold_left content_step c_tid c_seoj c_deoj c_esv c_props empty_content app length].
  repeat split; try lia.
  repeat (constructor; [split; [cbn [fst]; lia|split; [cbn [snd]; rewrite repeat_length; lia|cbn [snd]; apply H; lia]]|]).
  constructor.
Qed.

Theorem C47_refuted : ~ C47_full.
Proof.
  intros H. pose proof C47_ops_in_limits as HL.
  destruct (C01_round_trip C47_ops HL) as (b & _ & EB & _).
  assert (Eb : b = wire (content_of C47_ops)).
  { pose proof (C02_wire_layout C47_ops HL) as [HB _]. rewrite HB in EB. injection EB as <-. reflexivity. }
  destruct (C47_long_refuted (content_of C47_ops) (mkAddress 1 1) HL) as (m & EM & _ & _ & _ & _ & _ & HN).
  - apply Nat.ltb_lt. vm_compute. reflexivity.
  - vm_compute. intros HH. discriminate HH.
  - apply HN. apply (H C47_ops b m (mkAddress 1 1) HL EB). rewrite Eb. exact EM.
Qed.

(** The fourth arrives without data and the fifth is made of data of the fourth. *)
Example C47_example :
  length (wire (content_of C47_ops)) = 1297%nat /\
  match ReadMessage (mkDatagram (wire (content_of C47_ops)) (mkAddress 1 1)) with
  | Ok m => map (fun p => (pp_code p, length (pp_data p))) (m_ep m)
            = [(0xE0, 255%nat); (0xE1, 255%nat); (0xE2, 255%nat); (0xE3, 0%nat); (4, 4%nat)]
  | _ => False
  end.
Proof. vm_compute. auto. Qed.

(** ** C49

    Full statement: after SetConfig every value of the given configuration is the
    one in effect. *)

Definition C49_full : Prop := forall n new,
  let n' := Node_SetConfig n new in
  nc_config n' = new /\ nc_transport n' = new.

(** TCP, both timeouts and the automatic port selection are taken over. *)
Theorem C49_taken_over_partial : forall n new,
  let n' := Node_SetConfig n new in
  eff_post_tcp n' = uc_tcpEnabled (cf_unicast new) /\
  eff_server_tcp n' = uc_tcpEnabled (cf_unicast new) /\
  eff_connection_timeout n' = uc_connectionTimeout (cf_unicast new) /\
  eff_request_timeout n' = uc_requestTimeout (cf_unicast new) /\
  eff_auto_port n' = ec_autoPortBindingEnabled (cf_extension new).
Proof. intros n new. repeat split. Qed.

(** The bind retry count and wait time never are: whatever configurations are
    applied, in whatever order, a node keeps the values it was created with. *)
Theorem C49_bind_retry_refuted : forall confs,
  let n := fold_left Node_SetConfig confs NewNodeConfig in
  eff_bind_retry n = 5 /\ eff_bind_wait n = 0.
Proof.
  intros confs n. subst n.
  assert (H : forall n0, eff_bind_retry (fold_left Node_SetConfig confs n0) = eff_bind_retry n0 /\
                         eff_bind_wait (fold_left Node_SetConfig confs n0) = eff_bind_wait n0).
  { induction confs as [|c confs IH]; intros n0; cbn [fold_left]; [auto|].
    destruct (IH (Node_SetConfig n0 c)) as [-> ->]. split; reflexivity. }
  destruct (H NewNodeConfig) as [-> ->]. split; reflexivity.
Qed.

(** The configuration of the transport equals the applied one exactly when the
    three values that are not taken over were equal before. *)
Theorem C49_equal_exact : forall n new,
  nc_transport (Node_SetConfig n new) = new <->
  uc_requestTimeout (cf_unicast (nc_transport n)) = uc_requestTimeout (cf_unicast new) /\
  uc_bindRetryCount (cf_unicast (nc_transport n)) = uc_bindRetryCount (cf_unicast new) /\
  uc_bindRetryWaitTime (cf_unicast (nc_transport n)) = uc_bindRetryWaitTime (cf_unicast new).
Proof.
  intros n [[t c r k w] [a]]. cbn. unfold SetConfig, UC_SetConfig, EC_SetConfig. cbn. split.
  - intros H. injection H as H1 H2 H3. auto.
  - intros (-> & -> & ->). reflexivity.
Qed.

Theorem C49_refuted : ~ C49_full.
Proof.
  intros H. destruct (H NewNodeConfig (mkConfig (mkUC true 1 2 0 0) (mkEC true))) as [_ E].
  vm_compute in E. discriminate E.
Qed.

(** Retry switched off by the user: still five retries. *)
Example C49_example :
  let n := Node_SetConfig NewNodeConfig
             (mkConfig (SetBindRetryEnabled (mkUC true 1000000 2000000 5 0) false) (mkEC true)) in
  eff_bind_retry n = 5 /\ eff_request_timeout n = 2000000 /\ eff_server_tcp n = true /\ eff_auto_port n = true.
Proof. vm_compute. auto. Qed.

(** ** C51 *)

(** The classification looks for a colon only. *)
Theorem C51_classification : forall s,
  (IsIPv6Address s = true <-> exists a b, s = (a ++ ":" ++ b)%string) /\
  (IsIPv4Address s = true <-> s <> ""%string /\ ~ exists a b, s = (a ++ ":" ++ b)%string) /\
  ~ (IsIPv4Address s = true /\ IsIPv6Address s = true) /\
  (s <> ""%string -> IsIPv4Address s = true \/ IsIPv6Address s = true).
Proof.
  intros s. rewrite IsIPv6Address_spec.
  assert (E4 : IsIPv4Address s = negb (is_empty s) && negb (has_char ":" s)).
  { unfold IsIPv4Address. rewrite IsIPv6Address_spec. destruct (is_empty s); reflexivity. }
  rewrite E4. cbn [String.append]. rewrite <- (has_char_spec ":" s).
  assert (EE : is_empty s = true <-> s = ""%string) by (destruct s; cbn; split; congruence).
  destruct (is_empty s); cbn [negb andb].
  - rewrite (proj1 EE eq_refl) in *. cbn. intuition congruence.
  - assert (s <> ""%string) by (intros ->; destruct EE as [_ EE]; specialize (EE eq_refl); discriminate EE).
    destruct (has_char ":" s); cbn; intuition congruence.
Qed.

(** Every dotted address (digits and dots) is classified as IPv4 and every
    address with a colon as IPv6 ... *)
Fixpoint dotted (s : string) : Prop :=
  match s with
  | EmptyString => True
  | String c s => (c = "."%char \/ (48 <= nat_of_ascii c <= 57)%nat) /\ dotted s
  end.
Theorem C51_dotted_partial : forall s, s <> ""%string -> dotted s ->
  IsIPv4Address s = true /\ IsIPv6Address s = false.
Proof.
  intros s Hs Hd.
  assert (H6 : IsIPv6Address s = false).
  { rewrite IsIPv6Address_spec. clear Hs. induction s as [|c s IH]; [reflexivity|]. destruct Hd as [Hc Hd].
    cbn. rewrite IH by exact Hd. rewrite orb_false_r. apply Ascii.eqb_neq. intros ->.
    destruct Hc as [Hc|Hc]; [discriminate Hc|]. cbn in Hc. lia. }
  split; [|exact H6]. unfold IsIPv4Address. rewrite H6. destruct s; [congruence|reflexivity].
Qed.
(** ... but so is every other non-empty string without a colon. *)
Theorem C51_shape_refuted : IsIPv4Address "not an address" = true /\ IsIPv4Address "300.1.2.3" = true /\
  IsIPv6Address "12:30" = true.
Proof. vm_compute. auto. Qed.

Example C51_example :
  IsIPv4Address "192.168.0.1" = true /\ IsIPv6Address "fe80::1" = true /\ IsIPv4Address "fe80::1" = false /\
  IsIPv4Address "" = false /\ IsIPv6Address "" = false /\ dotted "192.168.0.1".
Proof. repeat split; try reflexivity; try (right; cbn; lia); left; reflexivity. Qed.

(** Loopback addresses: exactly two strings, so other loopback addresses pass. *)
Theorem C51_loopback_exact : forall s,
  (IsLoopbackAddress s = true <-> s = "127.0.0.1"%string \/ s = "::1"%string) /\
  (IsCommunicableAddress s = true <-> s <> ""%string /\ s <> "127.0.0.1"%string /\ s <> "::1"%string).
Proof.
  intros s. assert (H : IsLoopbackAddress s = true <-> s = "127.0.0.1"%string \/ s = "::1"%string).
  { unfold IsLoopbackAddress. cbn [existsb]. rewrite orb_false_r, orb_true_iff, !String.eqb_eq. tauto. }
  split; [exact H|]. unfold IsCommunicableAddress.
  destruct (IsLoopbackAddress s); destruct s as [|c s]; cbn [is_empty negb].
  - split; [discriminate|]. intros [HH _]. congruence.
  - split; [discriminate|]. intros (_ & HH). destruct (proj1 H eq_refl); tauto.
  - split; [discriminate|]. intros [HH _]. congruence.
  - split; [|reflexivity]. intros _. split; [discriminate|]. split; intros HH; apply proj2 in H; discriminate H; auto.
Qed.
Theorem C51_loopback_refuted : IsCommunicableAddress "127.0.0.2" = true /\ IsCommunicableAddress "0:0:0:0:0:0:0:1" = true.
Proof. vm_compute. auto. Qed.

(** The addresses of an interface: exactly the parts in front of the slash of the
    entries without a colon in front of the slash, in order, at least one. *)
Theorem C51_interface_addresses : forall i l,
  GetInterfaceAddresses i = Ok l <->
  exists addrs, if_addrs i = Some addrs /\ picked addrs l /\ l <> [].
Proof.
  intros i l. unfold GetInterfaceAddresses. destruct (if_addrs i) as [addrs|].
  - pose proof (collect_picked addrs) as HP. split.
    + intros E. exists addrs. split; [reflexivity|]. destruct (collect_addrs addrs); [discriminate E|].
      injection E as <-. split; [exact HP|discriminate].
    + intros (addrs' & E & HP' & Hne). injection E as <-.
      rewrite (picked_fun _ _ HP _ HP'). destruct l; [congruence|reflexivity].
  - split; [discriminate|]. intros (addrs & E & _). discriminate E.
Qed.
Theorem C51_no_ipv6 : forall i l a, GetInterfaceAddresses i = Ok l -> In a l -> IsIPv6Address a = false.
Proof.
  intros i l a E Ha. apply C51_interface_addresses in E as (addrs & _ & HP & _).
  rewrite IsIPv6Address_spec. induction HP; cbn in Ha; try tauto; auto.
  destruct Ha as [<-|Ha]; auto.
Qed.

(** An interface is used exactly when it is up, multicast capable, not a loopback,
    not named as a bridge or virtual interface, and has such an address. *)
Theorem C51_available_exact : forall local l,
  GetAvailableInterfaces local = Ok l <->
  exists all, local = Some all /\ l = filter available all /\ l <> [].
Proof.
  intros local l. unfold GetAvailableInterfaces. destruct local as [all|].
  - split.
    + intros E. exists all. split; [reflexivity|]. destruct (filter available all); [discriminate E|].
      injection E as <-. split; [reflexivity|discriminate].
    + intros (all' & E & -> & Hne). injection E as <-. destruct (filter available all); [congruence|reflexivity].
  - split; [discriminate|]. intros (all & E & _). discriminate E.
Qed.
Theorem C51_usable : forall i,
  available i = true <->
  Z.testbit (if_flags i) 2 = false /\ Z.testbit (if_flags i) 0 = true /\ Z.testbit (if_flags i) 4 = true /\
  (forall p, In p ["virbr0"; "utun"; "llw"; "awdl"; "en6"; "docker0"]%string -> String.prefix p (if_name i) = false) /\
  exists addrs l, if_addrs i = Some addrs /\ picked addrs l /\ l <> [].
Proof.
  intros i. unfold available.
  change FlagLoopback with (2 ^ 2). change FlagUp with (2 ^ 0). change FlagMulticast with (2 ^ 4).
  rewrite !land_bit, !negb_involutive by lia. rewrite !andb_true_iff, !negb_true_iff.
  assert (HA : match GetInterfaceAddresses i with Ok _ => true | _ => false end = true <->
               exists addrs l, if_addrs i = Some addrs /\ picked addrs l /\ l <> []).
  { split.
    - destruct (GetInterfaceAddresses i) as [l| |] eqn:E; try discriminate. intros _.
      apply C51_interface_addresses in E as (addrs & H). eauto.
    - intros (addrs & l & H). assert (E : GetInterfaceAddresses i = Ok l) by (apply C51_interface_addresses; eauto).
      rewrite E. reflexivity. }
  rewrite HA.
  assert (HN : (IsBridgeInterface i = false /\ IsVirtualInterface i = false) <->
    (forall p, In p ["virbr0"; "utun"; "llw"; "awdl"; "en6"; "docker0"]%string -> String.prefix p (if_name i) = false)).
  { unfold IsBridgeInterface, IsVirtualInterface. cbn [existsb]. rewrite !orb_false_iff. split.
    - intros (H1 & H2) p Hp. cbn in Hp. intuition congruence.
    - intros H. repeat split; apply H; cbn; tauto. }
  tauto.
Qed.

Definition C51_eth : iface := mkIface 2 "eth0" 19 (Some ["192.168.0.5/24"%string; "fe80::1/64"%string; "10.0.0.1/8"%string]).
Definition C51_lo : iface := mkIface 1 "lo" 5 (Some ["127.0.0.1/8"%string]).
Definition C51_docker : iface := mkIface 3 "docker0" 19 (Some ["172.17.0.1/16"%string]).
Example C51_interface_example :
  GetInterfaceAddresses C51_eth = Ok ["192.168.0.5"; "10.0.0.1"]%string /\
  GetAvailableInterfaces (Some [C51_lo; C51_eth; C51_docker]) = Ok [C51_eth] /\
  GetAvailableInterfaces (Some [C51_lo; C51_docker]) = Err ErrInvalid.
Proof. vm_compute. auto. Qed.

Print Assumptions C46_delivered_exact.
Print Assumptions C46_well_formed_partial.
Print Assumptions C46_malformed_refuted.
Print Assumptions C46_refuted.
Print Assumptions C46_once.
Print Assumptions C46_order_refuted.
Print Assumptions C47_up_to_buffer_partial.
Print Assumptions C47_long_refuted.
Print Assumptions C47_refuted.
Print Assumptions C49_taken_over_partial.
Print Assumptions C49_bind_retry_refuted.
Print Assumptions C49_equal_exact.
Print Assumptions C49_refuted.
Print Assumptions C51_classification.
Print Assumptions C51_dotted_partial.
Print Assumptions C51_shape_refuted.
Print Assumptions C51_loopback_exact.
Print Assumptions C51_loopback_refuted.
Print Assumptions C51_interface_addresses.
Print Assumptions C51_no_ipv6.
Print Assumptions C51_available_exact.
Print Assumptions C51_usable.

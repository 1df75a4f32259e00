(** C62: a search, from the controller to the nodes and back. *)

From Verif Require Import Go GoFacts Encoding EncodingFacts Protocol Parser MessageFacts ParserFacts
  ProtocolFacts Reader StdDB Property PropertyFacts Object ObjectFacts Spec Node NodeFacts
  Handler HandlerFacts PropsHandler Remote RemoteFacts PropsRemote Transport TransportFacts Exchange ExchangeFacts
  PropsExchange.
From Verif Require PropsProtocol PropsNode.
From Coq Require Import ZifyBool ZifyNat.
Local Open Scope Z_scope.

(** ** The instance list of the node profile stays readable *)

Definition gat (o : object) (c : Z) : option attr := option_map p_get (LookupProperty (o_props o) c).

Lemma gat_setd o c d x : gat (setd c d o) x = gat o x.
Proof.
  unfold gat, setd. cbn [o_props Object.with_props]. rewrite Lookup_set.
  destruct (c =? x); [|reflexivity]. destruct (LookupProperty (o_props o) x); reflexivity.
Qed.

Lemma gat_add_std p o x : p_code p <> x -> ~ is_map_code x -> gat (add_std p o) x = gat o x.
Proof.
  intros H1 H2. unfold gat, add_std, add_props. cbn [o_props Object.with_props].
  rewrite upd_lookup_other by assumption. rewrite Lookup_Add.
  destruct (p_code p =? x) eqn:E; [lia|reflexivity].
Qed.

Definition readable_list (k : core) : Prop :=
  exists np rest, k_profs k = np :: rest /\ gat np 0xD6 = Some Required.

Lemma refresh_readable devs profs np rest : profs = np :: rest -> gat np 0xD6 = Some Required ->
  exists np' rest', refresh devs profs = np' :: rest' /\ gat np' 0xD6 = Some Required.
Proof.
  intros -> H. cbn [refresh]. eexists. eexists. split; [reflexivity|]. unfold refresh_np. cbv zeta.
  rewrite !gat_setd. exact H.
Qed.

Lemma put_readable l i f np rest : l = np :: rest -> gat np 0xD6 = Some Required ->
  (i = O -> gat (f np) 0xD6 = gat np 0xD6) ->
  exists np' rest', put_list l i f = np' :: rest' /\ gat np' 0xD6 = Some Required.
Proof.
  intros -> H Hf. unfold put_list. destruct i as [|i]; cbn [nth_error].
  - exists (f np), rest. split; [reflexivity|]. rewrite Hf by reflexivity. exact H.
  - destruct (nth_error rest i); eexists; eexists; (split; [reflexivity|exact H]).
Qed.

Lemma step_readable op k : core_inv k -> node_op_ok op -> keeps_lists op -> readable_list k ->
  readable_list (core_step op k).
Proof.
  intros _ _ Hk (np & rest & E & H). unfold readable_list. destruct op; cbn [core_step keeps_lists k_profs] in *.
  - exact (refresh_readable _ _ np rest E H).
  - apply (refresh_readable _ _ np (rest ++ [setman (k_man k) o])); [rewrite E; reflexivity|exact H].
  - rewrite E. cbn [map]. eexists. eexists. split; [reflexivity|]. unfold setman. rewrite gat_setd. exact H.
  - destruct r as [i|i]; cbn [put_core k_profs]; [eauto|].
    apply (put_readable _ i _ np rest E H). intros _. apply gat_setd.
  - destruct r as [i|i]; cbn [put_core k_profs]; [eauto|].
    apply (put_readable _ i _ np rest E H). intros ->. apply gat_add_std.
    + intros X. apply Hk. rewrite X. cbn. tauto.
    + unfold is_map_code. lia.
  - eauto.
  - eauto.
  - destruct server; cbn [k_profs]; eauto.
  - eauto.
Qed.

Lemma initial_readable : readable_list initial_core.
Proof. eexists. eexists. split; [reflexivity|]. vm_compute. reflexivity. Qed.

Lemma node_readable ops nd : Forall node_op_ok ops -> Forall keeps_lists ops -> node_after ops = Ok nd ->
  exists np rest, n_profiles nd = np :: rest /\ gat np 0xD6 = Some Required.
Proof.
  intros H1 H2 E.
  destruct (PropsNode.history_state keeps_lists readable_list ops step_readable initial_readable H1 H2)
    as (nd' & E' & _ & (np & rest & X & Y) & _).
  assert (nd' = nd) by congruence. subst nd'. exists np, rest. auto.
Qed.

(** ** The search *)

Lemma no_profile_device nd : core_inv (core_of nd) ->
  Forall (fun c => is_profile c = false) (map o_codes (n_devices nd)) -> LookupDevice nd 0x0EF001 = None.
Proof.
  intros (HD & _) HF. cbn [core_of k_devs] in HD. unfold LookupDevice.
  pose proof (find_code_spec (n_devices nd) 0x0EF001) as H.
  destruct (find_code (n_devices nd) 0x0EF001) as [i|]; [|reflexivity]. exfalso.
  destruct H as (o & Ho & Hc & _). apply nth_error_In in Ho.
  rewrite Forall_forall in HD. destruct (HD o Ho) as ((H3 & HB) & _).
  rewrite Forall_forall in HF. specialize (HF (o_codes o) (in_map _ _ _ Ho)).
  unfold Code in Hc. destruct (o_codes o) as [|x [|y [|z [|]]]]; try discriminate H3.
  unfold is_bytes in HB. inversion HB as [|? ? B1 HB1]; subst. inversion HB1 as [|? ? B2 HB2]; subst.
  inversion HB2 as [|? ? B3 _]; subst. rewrite ByteToInteger_3 in Hc by assumption.
  cbn [is_profile] in HF. unfold is_byte in *. lia.
Qed.

Lemma search_answered : forall (W : Type) (cb : callbacks W) w ops nd0 na self cn conf esv aesv ca sa pending,
  Forall node_op_ok ops -> Forall keeps_lists ops -> node_after ops = Ok nd0 -> let nd := at_address nd0 na self in
  (length (PropsNode.added_devices ops) <= 84)%nat ->
  Forall (fun c => is_profile c = false) (PropsNode.added_devices ops) ->
  keeps_node cb -> pending_ok pending -> hears nd ca ->
  library_node cn -> n_running cn = true -> In (esv, aesv) [(0x62, 0x72); (0x63, 0x73)] ->
  exists cn' m b,
    SearchAllObjectsWithESV cn esv = (cn', None) /\ n_sent cn' = n_sent cn ++ [Multicast m] /\
    UDP_SendMessage ca m = Ok (mkDatagram b ca) /\
    let s := serve_datagram cb w nd pending MulticastPacket sa (mkDatagram b ca) in
    ((forall k e, In (k, e) (out_calls (fst s)) -> e = false) ->
     exists b' resp, snd s = Ok (Some (ca, mkDatagram b' sa)) /\ ReadMessage (mkDatagram b' sa) = Ok resp /\
      m_from resp = sa /\ TID resp = TID m /\ m_esv resp = aesv /\
      let r := SetPacketType resp UDPUnicastPacket in
      (foreign conf cn' r -> announcement conf cn' r /\ instance_list r (PropsNode.added_devices ops))).
Proof.
  intros W cb w ops nd0 na self cn conf esv aesv ca sa pending H1 H2 HN nd H84 HC HK HP HO Hcn Hrun HE.
  destruct (library_ok cn Hcn) as (HI & HT).
  assert (HE' : In (esv, aesv) spec_answer) by (cbn [spec_answer In] in *; tauto).
  assert (Hesv : 0 <= esv < 256) by (cbn [In] in HE; repeat destruct HE as [HE|HE]; try contradiction; injection HE as <- _; lia).
  set (t := (n_lastTID cn + 1) mod 65536).
  set (c := mkContent t 0x0EF001 0x0EF001 esv [(0xD6, [])]).
  assert (HLc : in_limits c).
  { unfold in_limits, frame_in_limits. cbn [c c_tid c_seoj c_deoj c_esv c_props].
    split; [apply tid_small|]. split; [lia|]. split; [lia|]. split; [exact Hesv|]. split; [cbn; lia|].
    constructor; [|constructor]. split; [cbn; lia|]. split; [cbn; lia|constructor]. }
  destruct (search_sent (SetESV newSearchMessage esv) t esv) as (_ & A);
    [apply Z.mod_pos_bound; lia|assumption|auto|].
  exists (fst (SearchAllObjectsWithESV cn esv)).
  unfold SearchAllObjectsWithESV. rewrite AnnounceMessage_run by assumption. fold t.
  set (m := SetDEOJ (SetTID (SetESV newSearchMessage esv) t) 0x0EF001) in *.
  exists m, (wire c). cbn [fst]. split; [reflexivity|]. split; [reflexivity|].
  destruct A as (D & S & V & P & B). split; [unfold UDP_SendMessage; rewrite B; reflexivity|].
  cbv zeta.
  destruct (PropsNode.lists_state ops H1 H2) as (nd' & np & rest & E & Hi & Ep & Hcc & HL & Ed & Eq).
  assert (nd' = nd0) by congruence. subst nd'. clear E.
  destruct (node_readable ops nd0 H1 H2 HN) as (np' & rest' & Ep' & HG).
  assert (np' = np) by congruence. subst np'. clear Ep'.
  change (core_of nd0) with (core_of nd) in Hi. change (n_profiles nd0) with (n_profiles nd) in Ep.
  change (n_devices nd0) with (n_devices nd) in *.
  assert (LK : LookupObject nd 0x0EF001 = Some (ProfRef 0)).
  { unfold LookupObject. rewrite (no_profile_device nd Hi).
    - unfold LookupProfile. rewrite Ep. cbn [find_code]. rewrite (np_Code np Hcc). reflexivity.
    - rewrite Ed. exact HC. }
  assert (OA : obj_at nd (ProfRef 0) = Some np) by (cbn [obj_at]; rewrite Ep; reflexivity).
  set (data := PropsNode.count_byte (length (PropsNode.added_devices ops)) :: concat (PropsNode.added_devices ops)).
  assert (H3 : Forall (fun k => length k = 3%nat) (PropsNode.added_devices ops)).
  { rewrite <- Ed. apply Forall_map. destruct Hi as [Hi _]. eapply Forall_impl; [|exact Hi].
    intros o [[Ho _] _]. exact Ho. }
  assert (HD : holds np 0xD6 data).
  { destruct HL as (_ & _ & _ & L4 & _). unfold dat in L4.
    destruct (LookupProperty (o_props np) 0xD6) as [q|] eqn:Q; [|discriminate L4].
    exists q. split; [exact Q|]. cbn [option_map] in L4. injection L4 as L4. rewrite L4.
    unfold instance_bytes, data. rewrite PropsNode.count_list_count, flat_map_concat_map, <- Ed, map_length. reflexivity. }
  assert (HV : value data).
  { split.
    - unfold data. cbn [length]. rewrite PropsNode.concat3 by exact H3. lia.
    - destruct HL as (_ & _ & _ & L4 & _). unfold dat in L4. destruct HD as (q & Hq & Hd).
      rewrite Hq in L4. cbn [option_map] in L4. injection L4 as L4. rewrite <- Hd, L4. apply instance_bytes_ok, Hi. }
  assert (Hlen : (length (wire c) <= 1024)%nat) by (cbn; lia).
  destruct (serves cb w nd pending MulticastPacket ca sa c aesv (ProfRef 0) np HLc Hlen HP HO HE' LK OA)
    as (req & HR & RR & NO & EF & E1 & E2 & E3).
  { intros [HX|HX]; cbn [c c_esv] in HX.
    - cbn [c c_esv c_props map of_pair fst snd]. constructor; [|constructor]. cbn [pp_code pp_data].
      destruct HD as (q & Hq & _). exists q. cbn [pp_code]. split; [exact Hq|]. split.
      + intros _. unfold gat in HG. rewrite Hq in HG. cbn [option_map] in HG. injection HG as ->. discriminate.
      + unfold writes. cbn [In] in *. intros HW. exfalso.
        repeat destruct HE as [HE|HE]; try contradiction; injection HE as <- _; lia.
    - exfalso. unfold writes in HX. cbn [In] in *.
      repeat destruct HE as [HE|HE]; try contradiction; injection HE as <- _; lia. }
  rewrite E1. intros Hok.
  assert (EN : out_node (ProtocolMessageReceived cb w nd pending req) = nd) by (apply C29_no_change; exact HK).
  destruct (E3 Hok (ProfRef 0) np [data]) as (HLa & Es).
  { rewrite EN. exact LK. } { rewrite EN. exact OA. }
  { cbn [c c_props map fst]. constructor; [exact HD|constructor]. }
  { constructor; [exact HV|constructor]. }
  assert (Hla : (length (wire (answer_content c aesv [data])) <= 1024)%nat).
  { rewrite wire_length. cbn [answer_content c c_props map fst combine snd]. unfold message_size. cbn [fold_right].
    destruct HV as (HV & _). lia. }
  destruct (wire_arrives _ sa HLa Hla) as (x & EX & FX & RX & VX).
  destruct (represents_getters x _ RX HLa) as (G1 & G2 & G3 & G4 & G5 & G6).
  cbn [answer_content c c_tid c_seoj c_deoj c_esv c_props map fst combine length of_pair snd] in G1, G2, G3, G4, G5, G6.
  exists (wire (answer_content c aesv [data])), x. split; [exact Es|]. split; [exact EX|]. split; [exact FX|].
  split.
  { rewrite G1. unfold m. change (TID (SetDEOJ (SetTID (SetESV newSearchMessage esv) t) 0x0EF001))
      with (TID (SetTID (SetESV newSearchMessage esv) t)).
    unfold TID. rewrite SetTID_TID by (pose proof (tid_small (n_lastTID cn + 1)); unfold t; lia). cbn [fst snd].
    rewrite Z.shiftl_mul_pow2 by lia. change (2 ^ 8) with 256. lia. }
  split; [exact G4|].
  intros HF. set (r := SetPacketType x UDPUnicastPacket) in *.
  destruct HI as (_ & _ & (cnp & crest & Ecp & Hcp & _)). cbn [core_of k_profs] in Ecp.
  assert (HA : announcement conf (hand_over (with_lastTID cn t) (Multicast m)) r).
  { split; [apply VX|]. split; [exact HF|]. change (m_esv r) with (m_esv x). change (DEOJ r) with (DEOJ x).
    rewrite G3, G4. split; [cbn [In] in *; repeat destruct HE as [HE|HE]; try contradiction; injection HE as _ <-; tauto|].
    split; [left; reflexivity|].
    destruct (self_object (hand_over (with_lastTID cn t) (Multicast m)) cnp crest Ecp Hcp) as (q & oo & Q & _).
    rewrite Q. discriminate. }
  assert (HIL : instance_list r (PropsNode.added_devices ops)).
  { exists (mkPProp 0xD6 data), [], []. change (OPC r) with (OPC x). change (m_ep r) with (m_ep x).
    rewrite G5, G6. split; [lia|]. split; [reflexivity|]. split; [cbn; tauto|].
    cbn [pp_data]. rewrite app_nil_r. split; [|exact H3].
    unfold data. f_equal. unfold PropsNode.count_byte.
    destruct (Nat.leb (length (PropsNode.added_devices ops)) 254) eqn:EL; [reflexivity|]. apply Nat.leb_gt in EL. lia. }
  split; assumption.
Qed.

(** Missing for the full claim: the same as for C37 (unknown classes, nodes
    already in the table, more than 84 devices); the first two are settled below. *)
Theorem C62_search_partial : forall (W : Type) (cb : callbacks W) w ops nd0 na self cn conf ct esv aesv ca sa pending,
  Forall node_op_ok ops -> Forall keeps_lists ops -> node_after ops = Ok nd0 -> let nd := at_address nd0 na self in
  (length (PropsNode.added_devices ops) <= 84)%nat ->
  Forall (fun c => known_class c /\ is_profile c = false) (PropsNode.added_devices ops) ->
  keeps_node cb -> pending_ok pending -> hears nd ca ->
  library_node cn -> n_running cn = true -> In (esv, aesv) [(0x62, 0x72); (0x63, 0x73)] ->
  exists cn' m b,
    SearchAllObjectsWithESV cn esv = (cn', None) /\ n_sent cn' = n_sent cn ++ [Multicast m] /\
    UDP_SendMessage ca m = Ok (mkDatagram b ca) /\
    let s := serve_datagram cb w nd pending MulticastPacket sa (mkDatagram b ca) in
    ((forall k e, In (k, e) (out_calls (fst s)) -> e = false) ->
     exists b' resp, snd s = Ok (Some (ca, mkDatagram b' sa)) /\ ReadMessage (mkDatagram b' sa) = Ok resp /\
      m_from resp = sa /\ TID resp = TID m /\ m_esv resp = aesv /\
      let r := SetPacketType resp UDPUnicastPacket in
      (foreign conf cn' r -> ~ known ct (sender conf r) ->
       exists n, ct_found (ctrl_receive conf cn' ct r) = ct_found ct ++ [n] /\ rn_addr n = sender conf r /\
         map o_codes (rn_devices n) = PropsNode.added_devices ops)).
Proof.
  intros W cb w ops nd0 na self cn conf ct esv aesv ca sa pending H1 H2 HN nd H84 HC HK HP HO Hcn Hrun HE.
  assert (HC' : Forall (fun c => is_profile c = false) (PropsNode.added_devices ops)).
  { eapply Forall_impl; [|exact HC]. intros k [_ Hk]. exact Hk. }
  destruct (search_answered W cb w ops nd0 na self cn conf esv aesv ca sa pending H1 H2 HN H84 HC' HK HP HO Hcn Hrun HE)
    as (cn' & m & b & A1 & A2 & A3 & A4).
  exists cn', m, b. do 3 (split; [assumption|]). cbv zeta in *. intros Hok.
  destruct (A4 Hok) as (b' & resp & B1 & B2 & B3 & B4 & B5 & B6). exists b', resp. do 5 (split; [assumption|]).
  intros HF HU. destruct (B6 HF) as (HA & HIL).
  destruct (C37_discovered_partial conf _ ct _ (PropsNode.added_devices ops) HA HU HIL) as (n & N1 & (N2 & _) & N3 & _).
  { eapply Forall_impl; [|exact HC]. intros k [Hk _]. right. exact Hk. }
  exists n. split; [exact N1|]. split; [exact N2|]. rewrite N3.
  clear -HC'. induction HC' as [|k l Hk _ IH]; [reflexivity|]. cbn [filter]. rewrite Hk. cbn [negb]. rewrite IH. reflexivity.
Qed.

(** The node answers the search all the same when it has a device of a class
    outside the standard table, or is in the table of the controller already,
    and the table does not change: the first case is never found, the second
    keeps the devices of the first answer. *)
Theorem C62_unchanged_refuted : forall (W : Type) (cb : callbacks W) w ops nd0 na self cn conf ct esv aesv ca sa pending,
  Forall node_op_ok ops -> Forall keeps_lists ops -> node_after ops = Ok nd0 -> let nd := at_address nd0 na self in
  (length (PropsNode.added_devices ops) <= 84)%nat ->
  Forall (fun c => is_profile c = false) (PropsNode.added_devices ops) ->
  keeps_node cb -> pending_ok pending -> hears nd ca ->
  library_node cn -> n_running cn = true -> In (esv, aesv) [(0x62, 0x72); (0x63, 0x73)] ->
  exists cn' m b,
    SearchAllObjectsWithESV cn esv = (cn', None) /\ n_sent cn' = n_sent cn ++ [Multicast m] /\
    UDP_SendMessage ca m = Ok (mkDatagram b ca) /\
    let s := serve_datagram cb w nd pending MulticastPacket sa (mkDatagram b ca) in
    ((forall k e, In (k, e) (out_calls (fst s)) -> e = false) ->
     exists b' resp, snd s = Ok (Some (ca, mkDatagram b' sa)) /\ ReadMessage (mkDatagram b' sa) = Ok resp /\
      let r := SetPacketType resp UDPUnicastPacket in
      (foreign conf cn' r ->
       ~ Forall known_class (PropsNode.added_devices ops) \/ known ct (sender conf r) ->
       ct_found (ctrl_receive conf cn' ct r) = ct_found ct)).
Proof.
  intros W cb w ops nd0 na self cn conf ct esv aesv ca sa pending H1 H2 HN nd H84 HC HK HP HO Hcn Hrun HE.
  destruct (search_answered W cb w ops nd0 na self cn conf esv aesv ca sa pending H1 H2 HN H84 HC HK HP HO Hcn Hrun HE)
    as (cn' & m & b & A1 & A2 & A3 & A4).
  exists cn', m, b. do 3 (split; [assumption|]). cbv zeta in *. intros Hok.
  destruct (A4 Hok) as (b' & resp & B1 & B2 & B3 & B4 & B5 & B6). exists b', resp. do 2 (split; [assumption|]).
  intros HF HU. destruct (B6 HF) as (HA & HIL). destruct HU as [HU|HU].
  - apply (C37_unknown_class_refuted conf _ ct _ _ HA HIL). intros F. apply HU.
    clear -F HC. induction F as [|k l Hk F IH]; [constructor|]. inversion HC; subst. constructor; [|auto].
    destruct Hk as [Hk|Hk]; [congruence|exact Hk].
  - apply C40_stale; [apply HA|exact HU].
Qed.

(** ** Example *)

(** A controller at address 5 finds the node with two devices at address 7. *)
Example C62_example :
  (cn <- ex_client ;; nd <- ex_server PropsNode.ex_dev ;;
   let cn' := fst (SearchAllObjectsWithESV cn 0x62) in
   match last (n_sent cn') (Unicast NewAddress NewMessage) with
   | Multicast m =>
       d <- UDP_SendMessage (mkAddress 5 3610) m ;;
       a <- snd (serve_datagram (no_callbacks unit) tt nd None MulticastPacket (mkAddress 7 3610) d) ;;
       match a with
       | Some (_, d') =>
           x <- ReadMessage d' ;;
           Ok (d_bytes d, d_bytes d',
               map (fun n => (rn_addr n, map o_codes (rn_devices n)))
                 (ct_found (ctrl_receive (mkConf false true [(Some 3610, Some 5)]) cn' newCtrl (SetPacketType x UDPUnicastPacket))))
       | None => Err ErrOther
       end
   | _ => Err ErrOther
   end) =
  Ok ([0x10; 0x81; 0; 2; 0x0E; 0xF0; 1; 0x0E; 0xF0; 1; 0x62; 1; 0xD6; 0],
      [0x10; 0x81; 0; 2; 0x0E; 0xF0; 1; 0x0E; 0xF0; 1; 0x72; 1; 0xD6; 7; 2; 1; 0x30; 1; 2; 0x90; 1],
      [(mkAddress 7 3610, [[1; 0x30; 1]; [2; 0x90; 1]])]).
Proof. vm_compute. reflexivity. Qed.

Print Assumptions C62_search_partial.
Print Assumptions C62_unchanged_refuted.

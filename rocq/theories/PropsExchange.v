(** C60-C66: requests and responses from one node to another, over UDP and TCP. *)

From Verif Require Import Go GoFacts Encoding EncodingFacts Protocol Parser MessageFacts ParserFacts
  ProtocolFacts Reader ReaderFacts StdDB Property PropertyFacts Object ObjectFacts Spec Node NodeFacts
  Handler HandlerFacts PropsHandler Transport TransportFacts Exchange ExchangeFacts.
From Verif Require PropsProtocol PropsNode.
From Coq Require Import ZifyBool ZifyNat.
Local Open Scope Z_scope.

(** ** Vocabulary *)

(** Data that fits into one property. *)
Definition value (v : list Z) : Prop := (length v <= 255)%nat /\ Forall (fun b => 0 <= b < 256) v.

(** The object has property [c] with data [v]. *)
Definition holds (o : object) (c : Z) (v : list Z) : Prop :=
  exists q, LookupProperty (o_props o) c = Some q /\ p_data q = v.

(** The number of bytes of a message with these property data. *)
Definition message_size (vs : list (list Z)) : nat := fold_right (fun v n => 2 + length v + n)%nat 12%nat vs.

(** A node made by library calls, with any address and self message setting
    (which the configuration and the transport decide). *)
Definition at_address (nd : node) (a : address) (self : bool) : node :=
  mkNode (n_devices nd) (n_profiles nd) (n_manufacturer nd) (n_lastTID nd) (n_running nd) a self (n_sent nd).
Definition library_node (nd : node) : Prop :=
  exists ops nd0 a self, Forall node_op_ok ops /\ node_after ops = Ok nd0 /\ nd = at_address nd0 a self.

Lemma library_ok nd : library_node nd -> core_inv (core_of nd) /\ tid_ok nd.
Proof. intros (ops & nd0 & a & self & H & E & ->). exact (node_after_ok ops nd0 H E). Qed.

(** The node does not take messages from the address for its own. *)
Definition hears (nd : node) (a : address) : Prop := n_self nd = true \/ a <> n_addr nd.

(** A network without TCP, on which the datagram of the first server is sent. *)
Definition udp_net (post : list tcp_answer) (a : tcp_answer) (rest : list (tcp_answer * bool)) : post_net :=
  mkPostNet false false post ((a, true) :: rest).

(** ** Lemmas *)

Lemma flat_wire_length ps : length (flat_map wire_prop ps) =
  fold_right (fun v n => 2 + length v + n)%nat 0%nat (map snd ps).
Proof.
  induction ps as [|[c v] ps IH]; [reflexivity|]. cbn [flat_map map fold_right snd].
  rewrite app_length, IH. unfold wire_prop. cbn [fst snd length]. lia.
Qed.

Lemma size_12 vs : message_size vs = (12 + fold_right (fun v n => 2 + length v + n) 0 vs)%nat.
Proof. induction vs as [|v vs IH]; [reflexivity|]. unfold message_size in *. cbn [fold_right]. lia. Qed.

Lemma wire_length c : length (wire c) = message_size (map snd (c_props c)).
Proof.
  unfold wire, wire_frame. rewrite size_12, !app_length, flat_wire_length. unfold be2, be3. reflexivity.
Qed.

Lemma map_snd_combine {A B} (l : list A) (l' : list B) : length l = length l' -> map snd (combine l l') = l'.
Proof.
  revert l'. induction l as [|a l IH]; intros [|b l']; cbn [length combine map snd]; try discriminate; [reflexivity|].
  intros E. rewrite IH by lia. reflexivity.
Qed.

Lemma found_holds o ps vs : Forall2 (fun p v => holds o (pp_code p) v) ps vs ->
  map to_pair (flat_map (found o) ps) = combine (map pp_code ps) vs.
Proof.
  induction 1 as [|p v ps vs (q & Hq & Hv) _ IH]; [reflexivity|].
  cbn [flat_map map combine]. unfold found at 1. rewrite Hq. cbn [app map]. rewrite IH. f_equal.
  unfold to_pair, ToProtocol. cbn [pp_code pp_data]. rewrite (Lookup_code _ _ _ Hq), Hv. reflexivity.
Qed.

Lemma delivered {W} (cb : callbacks W) w nd pending m d : not_own nd m ->
  isResponseMessage pending m = Ok d -> out_delivered (ProtocolMessageReceived cb w nd pending m) = d.
Proof.
  intros HO HI. unfold ProtocolMessageReceived. rewrite (own_false nd m HO), HI.
  destruct (validateReceivedMessage nd m) as [[|]| |]; try reflexivity.
  destruct (executeMessageListeners cb w nd m) as [st| |]; try reflexivity.
  destruct (r_err st); [reflexivity|]. destruct (negb _); reflexivity.
Qed.

Lemma self_object nd np rest : n_profiles nd = np :: rest -> o_codes np = np_codes ->
  exists r o, LookupObject nd 0x0EF001 = Some r /\ obj_at nd r = Some o.
Proof.
  intros Ep Hc. unfold LookupObject, LookupDevice, LookupProfile.
  pose proof (find_code_spec (n_devices nd) 0x0EF001) as H.
  destruct (find_code (n_devices nd) 0x0EF001) as [i|].
  - destruct H as (o & H & _). exists (DevRef i), o. split; [reflexivity|exact H].
  - rewrite Ep. cbn [find_code]. rewrite (np_Code np Hc). cbn [Z.eqb Pos.eqb].
    exists (ProfRef 0), np. split; [reflexivity|]. cbn [obj_at]. rewrite Ep. reflexivity.
Qed.

Lemma pending_shape m c : represents m c -> pending_ok (Some m).
Proof.
  intros (_ & _ & _ & H4 & H5 & _). cbn [pending_ok]. split; [rewrite H4|rewrite H5]; apply IntegerToByte_length.
Qed.

(** The answer of a node to a request it accepts. *)
Definition answer_content (c : content) (esv : Z) (vs : list (list Z)) : content :=
  mkContent (c_tid c) (c_deoj c) (c_seoj c) esv (combine (map fst (c_props c)) vs).

Lemma answer_limits c esv vs : in_limits c -> 0 <= esv < 256 -> length vs = length (c_props c) ->
  Forall value vs -> in_limits (answer_content c esv vs).
Proof.
  intros (Ht & Hs & Hd & He & Hl & Hp) HE HV Hvs. unfold answer_content, in_limits, frame_in_limits.
  cbn [c_tid c_seoj c_deoj c_esv c_props]. do 4 (split; [assumption|]). split.
  - rewrite combine_length, map_length. lia.
  - revert vs HV Hvs. clear Hl. induction Hp as [|p ps (P1 & P2) _ IH]; intros [|v vs]; cbn [length map combine];
      intros E H; try discriminate E; constructor.
    + inversion H as [|? ? [V1 V2] ?]; subst. split; [exact P1|]. split; assumption.
    + inversion H; subst. apply IH; [lia|assumption].
Qed.

Section Serving.
Context {W : Type}.

(** What a node does with a received request for one of its objects. *)
Lemma handles (cb : callbacks W) w nd pending req c aesv r o :
  received req -> represents req c -> in_limits c -> pending_ok pending -> not_own nd req ->
  In (c_esv c, aesv) spec_answer ->
  LookupObject nd (c_deoj c) = Some r -> obj_at nd r = Some o ->
  (reads (c_esv c) \/ writes (c_esv c) -> Forall (accepts o (c_esv c)) (map of_pair (c_props c))) ->
  let out := ProtocolMessageReceived cb w nd pending req in
  map fst (out_calls out) = filter (installed cb)
    (CallNode req :: flat_map (fun p => [CallListener r (m_esv req) p; CallHandler r (m_esv req) p]) (m_ep req)) /\
  ((forall k e, In (k, e) (out_calls out) -> e = false) ->
   forall r' o' vs, LookupObject (out_node out) (c_deoj c) = Some r' -> obj_at (out_node out) r' = Some o' ->
   Forall2 (holds o') (map fst (c_props c)) vs ->
   exists resp, out_reply out = Ok (Some resp) /\ represents resp (answer_content c aesv vs)).
Proof.
  intros HR HRep HL HP HO HE HLk HOb HA out.
  destruct (represents_getters req c HRep HL) as (T & S & D & V & P & O).
  assert (EP : m_ep req = map of_pair (c_props c)) by apply HRep.
  assert (HV : valid nd req r o).
  { split; [rewrite <- D in HLk; split; assumption|]. rewrite V, EP. split; [|exact HA].
    unfold known_esv, spec_request, spec_response, spec_notification. cbn [spec_answer In app] in *.
    repeat destruct HE as [HE|HE]; try contradiction; injection HE as <- <-; tauto. }
  destruct (handle_valid cb w nd pending req r o HR HP HO HV) as (d & st & E & RO & RC & EQ).
  split; [exact (C32_calls cb w nd pending req r o HR HP HO HV)|].
  subst out. rewrite EQ. cbn [out_calls out_node out_reply].
  intros Hok r' o' vs L' O' F.
  assert (EF : r_err st = false).
  { rewrite RO. destruct (existsb snd (r_calls st)) eqn:X; [|reflexivity].
    apply existsb_exists in X. destruct X as ([k e] & I & X). cbn [snd] in X. subst e.
    specialize (Hok k true I). discriminate Hok. }
  rewrite EF. assert (ER : ESV_IsResponseRequired (m_esv req) = true).
  { apply required_iff. rewrite V. apply (in_map fst _ _ HE). }
  rewrite ER. cbn [negb]. rewrite <- D in L'. rewrite (createResponse_eq _ _ _ _ L' O'). cbn [bind].
  eexists. split; [reflexivity|].
  pose proof (response_represents o' req) as X.
  rewrite (received_visited req HR), EP in X. rewrite (found_holds o' _ vs) in X.
  - unfold answer_content. rewrite T, S, D, V in X.
    replace (response_esv (c_esv c)) with aesv in X.
    + rewrite map_map in X. exact X.
    + cbn [spec_answer In] in HE. repeat destruct HE as [HE|HE]; try contradiction; injection HE as <- <-; reflexivity.
  - clear - F. remember (map fst (c_props c)) as l eqn:El. revert El. generalize (c_props c) as ps.
    induction F as [|k v l vs H _ IH]; intros [|p ps] El; cbn [map] in *; try discriminate El; [constructor|].
    injection El as -> El. constructor; [exact H|]. apply IH. exact El.
Qed.

(** The same over UDP. *)
Lemma serves (cb : callbacks W) w nd pending pt ca sa c aesv r o :
  in_limits c -> (length (wire c) <= 1024)%nat -> pending_ok pending -> hears nd ca ->
  In (c_esv c, aesv) spec_answer ->
  LookupObject nd (c_deoj c) = Some r -> obj_at nd r = Some o ->
  (reads (c_esv c) \/ writes (c_esv c) -> Forall (accepts o (c_esv c)) (map of_pair (c_props c))) ->
  exists req, received req /\ represents req c /\ not_own nd req /\ m_from req = ca /\
    let out := ProtocolMessageReceived cb w nd pending req in
    fst (serve_datagram cb w nd pending pt sa (mkDatagram (wire c) ca)) = out /\
    map fst (out_calls out) = filter (installed cb)
    (CallNode req :: flat_map (fun p => [CallListener r (m_esv req) p; CallHandler r (m_esv req) p]) (m_ep req)) /\
    ((forall k e, In (k, e) (out_calls out) -> e = false) ->
     forall r' o' vs, LookupObject (out_node out) (c_deoj c) = Some r' -> obj_at (out_node out) r' = Some o' ->
     Forall2 (holds o') (map fst (c_props c)) vs -> Forall value vs ->
     in_limits (answer_content c aesv vs) /\
     snd (serve_datagram cb w nd pending pt sa (mkDatagram (wire c) ca)) =
       Ok (Some (ca, mkDatagram (wire (answer_content c aesv vs)) sa))).
Proof.
  intros HL Hlen HP HO HE HLk HOb HA.
  destruct (wire_arrives c ca HL Hlen) as (x & EX & FX & RX & VX).
  assert (NO : not_own nd (SetPacketType x pt)) by (unfold not_own; cbn [SetPacketType m_from]; rewrite FX; exact HO).
  exists (SetPacketType x pt). split; [apply VX|]. split; [exact RX|]. split; [exact NO|]. split; [exact FX|].
  unfold serve_datagram. rewrite EX. unfold handle_datagram_message. cbn [fst snd]. split; [reflexivity|].
  destruct (handles cb w nd pending (SetPacketType x pt) c aesv r o (VX pt) RX HL HP NO HE HLk HOb HA) as (A1 & A2).
  split; [exact A1|]. intros Hok r' o' vs L' O' F HVs.
  destruct (A2 Hok r' o' vs L' O' F) as (resp & ER & RR).
  assert (HL' : in_limits (answer_content c aesv vs)).
  { apply answer_limits; try assumption.
    - cbn [spec_answer In] in HE. repeat destruct HE as [HE|HE]; try contradiction; injection HE as _ <-; lia.
    - rewrite <- (Forall2_len _ _ _ F). apply map_length. }
  split; [exact HL'|]. rewrite ER, (UDP_sent _ _ _ RR HL'). cbn [bind SetPacketType m_from]. rewrite FX. reflexivity.
Qed.

(** What the node that waits for the answer does with it. *)
Lemma client_hears (cb : callbacks W) w nd m pt ca d x :
  core_inv (core_of nd) -> shape m -> ReadMessage d = Ok x -> received (SetPacketType x pt) -> hears nd (m_from x) ->
  TID x = TID m -> DEOJ x = 0x0EF001 -> m_esv x <> m_esv m -> In (m_esv x) (spec_response ++ spec_error ++ [0x73]) ->
  isResponseMessage (Some m) x = Ok true /\
  out_delivered (fst (serve_datagram cb w nd (Some m) pt ca d)) = true /\
  snd (serve_datagram cb w nd (Some m) pt ca d) = Ok None.
Proof.
  intros HI HS EX HR HO HT HD HN HE.
  assert (EI : forall t, isResponseMessage (Some m) (SetPacketType x t) = Ok true).
  { intros t. pose proof (received_header _ HR) as (_ & _ & _ & _ & _ & _ & H7).
    assert (H7' : shape (SetPacketType x t)) by exact H7.
    unfold isResponseMessage, Equals. rewrite (Bytes_general _ H7'), (Bytes_general _ HS). cbn [bind].
    change (TID (SetPacketType x t)) with (TID x). rewrite HT, Z.eqb_refl. cbn [negb].
    destruct (bytes_eqb _ _) eqn:E; [|reflexivity]. exfalso. apply bytes_eqb_eq in E.
    apply (f_equal (fun l => nth 10 l 0)) in E.
    destruct H7' as (L1 & L2), HS as (L3 & L4). unfold raw_header in E.
    change (m_seoj (SetPacketType x t)) with (m_seoj x) in *.
    change (m_deoj (SetPacketType x t)) with (m_deoj x) in *.
    change (m_esv (SetPacketType x t)) with (m_esv x) in *.
    destruct (m_seoj x) as [|? [|? [|? [|]]]]; try discriminate L1.
    destruct (m_deoj x) as [|? [|? [|? [|]]]]; try discriminate L2.
    destruct (m_seoj m) as [|? [|? [|? [|]]]]; try discriminate L3.
    destruct (m_deoj m) as [|? [|? [|? [|]]]]; try discriminate L4.
    cbn [app nth] in E. contradiction. }
  split; [exact (EI (m_pktType x))|].
  assert (NO : not_own nd (SetPacketType x pt)) by exact HO.
  unfold serve_datagram. rewrite EX. unfold handle_datagram_message. cbn [fst snd]. split.
  - apply delivered; [exact NO|apply EI].
  - destruct HI as (_ & _ & (np & rest & Ep & Hc & _)). cbn [core_of k_profs] in Ep.
    destruct (self_object nd np rest Ep Hc) as (r & o & A1 & A2).
    assert (HV : valid nd (SetPacketType x pt) r o).
    { split; [split; [|exact A2]|].
      - change (DEOJ (SetPacketType x pt)) with (DEOJ x). rewrite HD. exact A1.
      - change (m_esv (SetPacketType x pt)) with (m_esv x).
        unfold known_esv, reads, writes, spec_request, spec_response, spec_notification, spec_error.
        unfold spec_response, spec_error in HE. cbn [In app] in *.
        split; [tauto|intros HX; exfalso; lia]. }
    destruct (handle_valid cb w nd (Some m) _ r o HR HS NO HV) as (k & st & _ & _ & _ & EQ).
    rewrite EQ. cbn [out_reply]. destruct (r_err st); [reflexivity|].
    destruct (ESV_IsResponseRequired (m_esv (SetPacketType x pt))) eqn:X; [|reflexivity].
    exfalso. apply required_iff in X. change (m_esv (SetPacketType x pt)) with (m_esv x) in X.
    unfold spec_response, spec_error in HE. cbn [spec_answer In map fst app] in *. lia.
Qed.

Lemma answer_esv esv aesv : In (esv, aesv) spec_answer ->
  aesv <> esv /\ In aesv (spec_response ++ spec_error ++ [0x73]).
Proof.
  unfold spec_response, spec_error. cbn [spec_answer In app]. intros HE.
  repeat destruct HE as [HE|HE]; try contradiction; injection HE as <- <-; (split; [lia|tauto]).
Qed.

Lemma error_esv esv eesv : In (esv, eesv) spec_error_answer ->
  eesv <> esv /\ In eesv (spec_response ++ spec_error ++ [0x73]).
Proof.
  unfold spec_response, spec_error. cbn [spec_error_answer In app]. intros HE.
  repeat destruct HE as [HE|HE]; try contradiction; injection HE as <- <-; (split; [lia|tauto]).
Qed.
End Serving.

(** Callbacks that use the library do not remove a device. *)
Lemma out_library {W} (cb : callbacks W) w nd pending m : respects calls_library cb ->
  calls_library nd (out_node (ProtocolMessageReceived cb w nd pending m)).
Proof.
  intros HK.
  assert (H0 : calls_library nd nd) by (exists []; split; [constructor|reflexivity]).
  unfold ProtocolMessageReceived. destruct (negb (n_self nd) && _); [exact H0|].
  destruct (isResponseMessage pending m); try exact H0.
  destruct (validateReceivedMessage nd m) as [[|]| |]; try exact H0.
  destruct (executeMessageListeners cb w nd m) as [st| |] eqn:E; try exact H0.
  pose proof (exec_library cb w nd m st HK E) as H1.
  destruct (r_err st); [exact H1|]. destruct (negb _); exact H1.
Qed.

Lemma device_stays nd nd' code i o : library_node nd -> calls_library nd nd' ->
  LookupObject nd code = Some (DevRef i) -> obj_at nd (DevRef i) = Some o ->
  LookupObject nd' code = Some (DevRef i) /\
  exists o', obj_at nd' (DevRef i) = Some o' /\ o_codes o' = o_codes o /\
    forall c, HasProp (o_props o) c = true -> HasProp (o_props o') c = true.
Proof.
  intros Hlib (ops' & HO' & HF) A1 A2.
  destruct (library_ok nd Hlib) as (Hinv & HT).
  assert (LD : LookupDevice nd code = Some (DevRef i)).
  { unfold LookupObject in A1. destruct (LookupDevice nd code); [assumption|].
    unfold LookupProfile in A1. destruct (find_code (n_profiles nd) code); discriminate A1. }
  destruct (PropsNode.C25_lookup_stable ops' nd nd' code i Hinv HT HO' HF LD) as [_ L2].
  destruct (history_run ops' nd Hinv HO' HT) as (nd2 & E2 & _ & Ec & _).
  assert (nd2 = nd') by congruence. subst nd2.
  destruct (history_grows ops' (core_of nd) i o A2) as (o' & Ho' & G1 & G2).
  rewrite <- Ec in Ho'. cbn [core_of k_devs] in Ho'. split; [exact L2|].
  exists o'. auto.
Qed.

Lemma tid_small t : 0 <= t mod 65536 < 65536.
Proof. apply Z.mod_pos_bound. lia. Qed.

Lemma post_udp cl sa obj esv ps post a rest : core_inv (core_of cl) -> tid_ok cl -> n_running cl = true ->
  let t := (n_lastTID cl + 1) mod 65536 in
  let c := mkContent t 0x0EF001 obj esv (map to_pair ps) in
  let m := SetSEOJ (SetTID (new_request obj esv ps) t) 0x0EF001 in
  in_limits c ->
  Node_PostMessage cl sa (new_request obj esv ps) (udp_net post a rest) =
    Ok (hand_over (with_lastTID cl t) (Unicast sa m), [SentUDP 0 (wire c)], PostWaits m).
Proof.
  intros HI HT HR t c m HL. unfold Node_PostMessage, udp_net.
  cbn [pn_node_tcp pn_server_tcp pn_send pn_post bind]. rewrite HR. cbn [negb].
  rewrite header_run by assumption. fold t. fold m.
  cbn [UManager_Send UServer_SendMessage bind].
  rewrite (represents_Bytes m c (request_represents obj esv ps t 0x0EF001) HL). reflexivity.
Qed.

(** ** Datagrams that are too long *)

Lemma cut_split : forall ps k,
  Forall (fun p => prop_in_limits p /\ snd p <> []) ps -> (k < length (flat_map wire_prop ps))%nat ->
  split_props (length ps) (firstn k (flat_map wire_prop ps)) <> ps.
Proof.
  induction ps as [|[c v] ps IH]; intros k H Hk; [cbn [flat_map length] in Hk; lia|].
  inversion H as [|? ? [(L1 & L2 & L3) N] Hps]; subst. cbn [fst snd] in *.
  cbn [flat_map length]. unfold wire_prop at 1. cbn [fst snd app].
  destruct k as [|[|k]]; cbn [firstn split_props].
  - intros X. apply (f_equal (hd (0, []))) in X. cbn [hd] in X. injection X as _ X. congruence.
  - intros X. apply (f_equal (hd (0, []))) in X. cbn [hd] in X. injection X as X. congruence.
  - destruct (Z.of_nat (length v) <=? Z.of_nat (length (firstn k (v ++ flat_map wire_prop ps)))) eqn:E.
    + intros X. apply (f_equal (@tl _)) in X. cbn [tl] in X. revert X.
      rewrite Nat2Z.id. rewrite firstn_length in E.
      rewrite skipn_firstn_comm, skipn_app, skipn_all, Nat.sub_diag. cbn [skipn app].
      apply IH; [exact Hps|]. cbn [flat_map] in Hk. unfold wire_prop at 1 in Hk. cbn [fst snd app length] in Hk.
      rewrite app_length in Hk. lia.
    + intros X. apply (f_equal (hd (0, []))) in X. cbn [hd] in X. injection X as X. congruence.
Qed.

(** A longer datagram is cut and delivered with other properties. *)
Lemma cut_arrives c self : in_limits c -> (1024 < length (wire c))%nat ->
  (forall p, In p (c_props c) -> snd p <> []) ->
  exists r, ReadMessage (mkDatagram (wire c) self) = Ok r /\ m_from r = self /\
    (forall pt, received (SetPacketType r pt)) /\
    TID r = c_tid c /\ SEOJ r = c_seoj c /\ DEOJ r = c_deoj c /\ m_esv r = c_esv c /\
    OPC r = Z.of_nat (length (c_props c)) /\ m_ep r <> map of_pair (c_props c).
Proof.
  intros HL Hlen Hne. pose proof (wire_bytes c HL) as HB. pose proof HL as (Lt & Ls & Ld & Le & Ll & Lp).
  set (full := flat_map wire_prop (c_props c)).
  assert (E0 : wire c = [0x10; 0x81; c_tid c / 256; c_tid c mod 256;
    c_seoj c / 65536; c_seoj c / 256 mod 256; c_seoj c mod 256;
    c_deoj c / 65536; c_deoj c / 256 mod 256; c_deoj c mod 256; c_esv c; Z.of_nat (length (c_props c))] ++ full) by reflexivity.
  assert (Lf : (1012 < length full)%nat) by (rewrite E0, app_length in Hlen; cbn [length] in Hlen; lia).
  assert (EW : firstn 1024 (wire c) = [0x10; 0x81; c_tid c / 256; c_tid c mod 256;
    c_seoj c / 65536; c_seoj c / 256 mod 256; c_seoj c mod 256;
    c_deoj c / 65536; c_deoj c / 256 mod 256; c_deoj c mod 256; c_esv c; Z.of_nat (length (c_props c))] ++ firstn 1012 full)
    by (rewrite E0, firstn_app; reflexivity).
  assert (HB' : is_bytes (firstn 1024 (wire c))) by (apply Forall_firstn; exact HB).
  pose proof HB' as HB2. rewrite EW in HB2. cbn [app] in HB2. do 2 apply Forall_inv_tail in HB2.
  destruct (PropsProtocol.C03_decoder_exact _ _ _ _ _ _ _ _ _ _ _ HB2) as (x & Ex & H1 & H2 & H3 & H4 & H5 & H6).
  exists (SetFrom x self). split.
  - unfold ReadMessage. rewrite max_packet. cbn [d_bytes d_from]. rewrite EW. cbn [app]. rewrite Ex. reflexivity.
  - split; [reflexivity|]. split.
    { intros pt. exists (firstn 1024 (wire c)), x, self, pt. split; [exact HB'|]. split; [rewrite EW; exact Ex|reflexivity]. }
    change (TID (SetFrom x self)) with (TID x). change (SEOJ (SetFrom x self)) with (SEOJ x).
    change (DEOJ (SetFrom x self)) with (DEOJ x). change (OPC (SetFrom x self)) with (OPC x).
    cbn [SetFrom m_esv m_ep]. rewrite H1, H2, H3, H4, H5. change (2 ^ 24) with 16777216 in *.
    split; [lia|]. split; [lia|]. split; [lia|]. split; [reflexivity|]. split; [reflexivity|].
    intros X. rewrite X in H6. rewrite Nat2Z.id in H6.
    apply (cut_split (c_props c) 1012); [|exact Lf|].
    + rewrite Forall_forall in *. intros p Hp. split; [apply Lp, Hp|apply Hne, Hp].
    + fold full. rewrite <- H6. rewrite map_map. rewrite <- (map_id (c_props c)) at 2.
      apply map_ext. intros [? ?]. reflexivity.
Qed.

(** ** C60: a request and its response over UDP *)

(** The properties of a request, within the limits of a message. *)
Definition sendable (ps : list pprop) : Prop :=
  (length ps <= 255)%nat /\ Forall (fun p => 0 <= pp_code p < 256 /\ value (pp_data p)) ps /\
  (message_size (map pp_data ps) <= 1024)%nat.

Lemma sendable_limits tid obj esv ps : 0 <= tid < 65536 -> 0 <= obj < 2 ^ 24 -> 0 <= esv < 256 -> sendable ps ->
  in_limits (mkContent tid 0x0EF001 obj esv (map to_pair ps)).
Proof.
  intros Ht Ho He (Hl & Hp & _). unfold in_limits, frame_in_limits. cbn [c_tid c_seoj c_deoj c_esv c_props].
  do 4 (split; [assumption || lia|]). split; [rewrite map_length; exact Hl|].
  rewrite Forall_forall in *. intros q Hq. apply in_map_iff in Hq. destruct Hq as (p & <- & Hq).
  destruct (Hp p Hq) as (A & B & C). split; [exact A|]. split; assumption.
Qed.

(** The values [vs] under the codes of [ps]. *)
Definition with_values (ps : list pprop) (vs : list (list Z)) : list pprop :=
  map (fun pv => mkPProp (pp_code (fst pv)) (snd pv)) (combine ps vs).

Lemma with_values_pairs ps vs : map of_pair (combine (map pp_code ps) vs) = with_values ps vs.
Proof.
  unfold with_values. revert vs. induction ps as [|p ps IH]; intros [|v vs]; try reflexivity.
  cbn [map combine]. rewrite IH. reflexivity.
Qed.

Lemma holds_all o ps : (forall p, In p ps -> HasProp (o_props o) (pp_code p) = true) ->
  exists vs, Forall2 (holds o) (map pp_code ps) vs.
Proof.
  induction ps as [|p ps IH]; intros H; [exists []; constructor|].
  destruct IH as (vs & F); [intros q Hq; apply H; right; exact Hq|].
  destruct (proj1 (HasProp_some _ _) (H p (or_introl eq_refl))) as [q Hq].
  exists (p_data q :: vs). cbn [map]. constructor; [exists q; auto|exact F].
Qed.

(** What is common to all sizes of the response. *)
Lemma exchange (W : Type) (cb : callbacks W) w cl nd i o pending pt ca sa obj esv aesv ps post a rest :
  library_node cl -> n_running cl = true ->
  library_node nd -> respects calls_library cb -> pending_ok pending -> hears nd ca ->
  In (esv, aesv) spec_answer -> 0 <= obj < 2 ^ 24 -> sendable ps ->
  LookupObject nd obj = Some (DevRef i) -> obj_at nd (DevRef i) = Some o -> Forall (accepts o esv) ps ->
  exists c m cl' req,
    in_limits c /\ c_seoj c = 0x0EF001 /\ c_deoj c = obj /\ c_esv c = esv /\ c_props c = map to_pair ps /\
    represents m c /\ core_inv (core_of cl') /\ n_addr cl' = n_addr cl /\ n_self cl' = n_self cl /\
    n_sent cl' = n_sent cl ++ [Unicast sa m] /\ m_ep req = ps /\ SEOJ req = 0x0EF001 /\ m_from req = ca /\
    Node_PostMessage cl sa (new_request obj esv ps) (udp_net post a rest) = Ok (cl', [SentUDP 0 (wire c)], PostWaits m) /\
    let s := serve_datagram cb w nd pending pt sa (mkDatagram (wire c) ca) in
    map fst (out_calls (fst s)) = filter (installed cb)
      (CallNode req :: flat_map (fun p => [CallListener (DevRef i) esv p; CallHandler (DevRef i) esv p]) ps) /\
    ((forall k e, In (k, e) (out_calls (fst s)) -> e = false) ->
     exists o' vs, obj_at (out_node (fst s)) (DevRef i) = Some o' /\ Forall2 (holds o') (map pp_code ps) vs /\
      (Forall value vs -> in_limits (answer_content c aesv vs) /\
        snd s = Ok (Some (ca, mkDatagram (wire (answer_content c aesv vs)) sa)))).
Proof.
  intros Hcl Hrun Hnd HK HP HO HE Hobj HS HL HOb HA.
  destruct (library_ok cl Hcl) as (HI & HT).
  set (t := (n_lastTID cl + 1) mod 65536).
  set (c := mkContent t 0x0EF001 obj esv (map to_pair ps)).
  set (m := SetSEOJ (SetTID (new_request obj esv ps) t) 0x0EF001).
  assert (HLc : in_limits c).
  { apply sendable_limits; try assumption; [apply tid_small|].
    cbn [spec_answer In] in HE. repeat destruct HE as [HE|HE]; try contradiction; injection HE as <- _; lia. }
  assert (Hlen : (length (wire c) <= 1024)%nat).
  { rewrite wire_length. cbn [c c_props]. rewrite map_map. cbn [to_pair snd].
    destruct HS as (_ & _ & HS). exact HS. }
  assert (HAc : reads (c_esv c) \/ writes (c_esv c) -> Forall (accepts o (c_esv c)) (map of_pair (c_props c))).
  { intros _. cbn [c c_esv c_props]. rewrite of_to_pair. exact HA. }
  destruct (serves cb w nd pending pt ca sa c aesv (DevRef i) o HLc Hlen HP HO HE HL HOb HAc)
    as (req & HR & RR & NO & EF & E1 & E2 & E3).
  destruct (represents_getters req c RR HLc) as (G1 & G2 & G3 & G4 & _ & G5).
  assert (EP : m_ep req = ps) by (rewrite G5; cbn [c c_props]; apply of_to_pair).
  exists c, m, (hand_over (with_lastTID cl t) (Unicast sa m)), req.
  do 5 (split; [assumption || reflexivity|]).
  split; [apply request_represents|]. split; [exact HI|]. do 3 (split; [reflexivity|]).
  split; [exact EP|]. split; [exact G2|].
  split; [exact EF|]. split; [apply post_udp; assumption|].
  cbv zeta. rewrite E1. split; [rewrite E2, G4, EP; reflexivity|]. intros Hok.
  pose proof (out_library cb w nd pending req HK) as HC.
  destruct (device_stays nd _ obj i o Hnd HC HL HOb) as (L' & o' & O' & _ & Hkeep).
  destruct (holds_all o' ps) as (vs & F).
  { intros p Hp. apply Hkeep. rewrite Forall_forall in HA. destruct (HA p Hp) as (q & Hq & _).
    apply HasProp_some. eauto. }
  exists o', vs. split; [exact O'|]. split; [exact F|]. intros HV.
  assert (Ec : map fst (c_props c) = map pp_code ps) by (cbn [c c_props]; rewrite map_map; reflexivity).
  apply (E3 Hok (DevRef i) o' vs L' O'); [rewrite Ec; exact F|exact HV].
Qed.

(** Full statement: the node that sends a request another node accepts gets the
    values the addressed device holds after the callbacks, whatever their size.
    Proved for responses of at most 1024 bytes. *)
Theorem C60_request_partial : forall (W : Type) (cb : callbacks W) w cl nd i o pending pt ca sa obj esv aesv ps post a rest,
  library_node cl -> n_running cl = true ->
  library_node nd -> respects calls_library cb -> pending_ok pending -> hears nd ca ->
  In (esv, aesv) spec_answer -> 0 <= obj < 2 ^ 24 -> sendable ps ->
  LookupObject nd obj = Some (DevRef i) -> obj_at nd (DevRef i) = Some o -> Forall (accepts o esv) ps ->
  exists m cl' b,
    Node_PostMessage cl sa (new_request obj esv ps) (udp_net post a rest) = Ok (cl', [SentUDP 0 b], PostWaits m) /\
    let s := serve_datagram cb w nd pending pt sa (mkDatagram b ca) in
    (exists req, m_ep req = ps /\ SEOJ req = 0x0EF001 /\ m_from req = ca /\
      map fst (out_calls (fst s)) = filter (installed cb)
        (CallNode req :: flat_map (fun p => [CallListener (DevRef i) esv p; CallHandler (DevRef i) esv p]) ps)) /\
    ((forall k e, In (k, e) (out_calls (fst s)) -> e = false) ->
     exists o' vs, obj_at (out_node (fst s)) (DevRef i) = Some o' /\ Forall2 (holds o') (map pp_code ps) vs /\
      (Forall value vs -> (message_size vs <= 1024)%nat ->
       exists b' resp, snd s = Ok (Some (ca, mkDatagram b' sa)) /\
        ReadMessage (mkDatagram b' sa) = Ok resp /\ m_from resp = sa /\ TID resp = TID m /\
        SEOJ resp = obj /\ DEOJ resp = 0x0EF001 /\ m_esv resp = aesv /\
        OPC resp = Z.of_nat (length ps) /\ m_ep resp = with_values ps vs /\
        (hears cl sa -> forall (W' : Type) (cb' : callbacks W') w' pt',
           let s' := serve_datagram cb' w' cl' (Some m) pt' ca (mkDatagram b' sa) in
           out_delivered (fst s') = true /\ snd s' = Ok None))).
Proof.
  intros W cb w cl nd i o pending pt ca sa obj esv aesv ps post a rest Hcl Hrun Hnd HK HP HO HE Hobj HS HL HOb HA.
  destruct (exchange W cb w cl nd i o pending pt ca sa obj esv aesv ps post a rest Hcl Hrun Hnd HK HP HO HE Hobj HS HL HOb HA)
    as (c & m & cl' & req & HLc & C1 & C2 & C3 & C4 & RM & HI & NA & NS & _ & P1 & P2 & P3 & EP & EC & EA).
  exists m, cl', (wire c). split; [exact EP|]. cbv zeta. split; [exists req; auto|].
  intros Hok. destruct (EA Hok) as (o' & vs & O' & F & HV). exists o', vs. split; [exact O'|]. split; [exact F|].
  intros Hvs Hsize. destruct (HV Hvs) as (HLa & Es).
  assert (Ef : map fst (c_props c) = map pp_code ps) by (rewrite C4, map_map; reflexivity).
  assert (EL : length (map pp_code ps) = length vs) by (exact (Forall2_len _ _ _ F)).
  assert (Hlen : (length (wire (answer_content c aesv vs)) <= 1024)%nat).
  { rewrite wire_length. cbn [answer_content c_props]. rewrite Ef, map_snd_combine by exact EL. exact Hsize. }
  destruct (wire_arrives _ sa HLa Hlen) as (x & EX & FX & RX & VX).
  destruct (represents_getters x _ RX HLa) as (G1 & G2 & G3 & G4 & G5 & G6).
  destruct (represents_getters m c RM HLc) as (M1 & _ & _ & M4 & _).
  cbn [answer_content c_tid c_seoj c_deoj c_esv c_props] in *.
  exists (wire (answer_content c aesv vs)), x.
  split; [exact Es|]. split; [exact EX|]. split; [exact FX|]. split; [congruence|].
  split; [congruence|]. split; [congruence|]. split; [exact G4|]. split.
  { rewrite G5, Ef, combine_length, <- EL, Nat.min_id, map_length. reflexivity. }
  split; [rewrite G6, Ef; apply with_values_pairs|].
  intros HH W' cb' w' pt'. cbv zeta.
  apply (client_hears cb' w' cl' m pt' ca _ x); try assumption.
  - exact (pending_shape m c RM).
  - apply VX.
  - unfold hears. rewrite NA, NS, FX. exact HH.
  - congruence.
  - congruence.
  - rewrite M4, C3, G4. apply (answer_esv _ _ HE).
  - rewrite G4. apply (answer_esv _ _ HE).
Qed.

(** What is missing is false: a response of more than 1024 bytes is cut by the
    receiver; the client takes it for the response and returns it with other
    properties than those sent. *)
Theorem C60_large_refuted : forall (W : Type) (cb : callbacks W) w cl nd i o pending pt ca sa obj esv aesv ps post a rest,
  library_node cl -> n_running cl = true -> hears cl sa ->
  library_node nd -> respects calls_library cb -> pending_ok pending -> hears nd ca ->
  In (esv, aesv) spec_answer -> 0 <= obj < 2 ^ 24 -> sendable ps ->
  LookupObject nd obj = Some (DevRef i) -> obj_at nd (DevRef i) = Some o -> Forall (accepts o esv) ps ->
  exists m cl' b,
    Node_PostMessage cl sa (new_request obj esv ps) (udp_net post a rest) = Ok (cl', [SentUDP 0 b], PostWaits m) /\
    let s := serve_datagram cb w nd pending pt sa (mkDatagram b ca) in
    ((forall k e, In (k, e) (out_calls (fst s)) -> e = false) ->
     exists o' vs, obj_at (out_node (fst s)) (DevRef i) = Some o' /\ Forall2 (holds o') (map pp_code ps) vs /\
      (Forall value vs -> (forall v, In v vs -> v <> []) -> (1024 < message_size vs)%nat ->
       exists b' resp, snd s = Ok (Some (ca, mkDatagram b' sa)) /\
        ReadMessage (mkDatagram b' sa) = Ok resp /\ isResponseMessage (Some m) resp = Ok true /\
        m_esv resp = aesv /\ OPC resp = Z.of_nat (length ps) /\ m_ep resp <> with_values ps vs)).
Proof.
  intros W cb w cl nd i o pending pt ca sa obj esv aesv ps post a rest Hcl Hrun HH Hnd HK HP HO HE Hobj HS HL HOb HA.
  destruct (exchange W cb w cl nd i o pending pt ca sa obj esv aesv ps post a rest Hcl Hrun Hnd HK HP HO HE Hobj HS HL HOb HA)
    as (c & m & cl' & req & HLc & C1 & C2 & C3 & C4 & RM & HI & NA & NS & _ & P1 & P2 & P3 & EP & EC & EA).
  exists m, cl', (wire c). split; [exact EP|]. cbv zeta.
  intros Hok. destruct (EA Hok) as (o' & vs & O' & F & HV). exists o', vs. split; [exact O'|]. split; [exact F|].
  intros Hvs Hne Hsize. destruct (HV Hvs) as (HLa & Es).
  assert (Ef : map fst (c_props c) = map pp_code ps) by (rewrite C4, map_map; reflexivity).
  assert (EL : length (map pp_code ps) = length vs) by (exact (Forall2_len _ _ _ F)).
  assert (Hlen : (1024 < length (wire (answer_content c aesv vs)))%nat).
  { rewrite wire_length. cbn [answer_content c_props]. rewrite Ef, map_snd_combine by exact EL. exact Hsize. }
  destruct (cut_arrives _ sa HLa Hlen) as (x & EX & FX & VX & G1 & G2 & G3 & G4 & G5 & G6).
  { cbn [answer_content c_props]. intros p Hp. apply Hne. destruct p as [k v]. exact (in_combine_r _ _ _ _ Hp). }
  destruct (represents_getters m c RM HLc) as (M1 & _ & _ & M4 & _).
  cbn [answer_content c_tid c_seoj c_deoj c_esv c_props] in *.
  exists (wire (answer_content c aesv vs)), x.
  split; [exact Es|]. split; [exact EX|]. split.
  { apply (client_hears cb w cl' m pt ca (mkDatagram (wire (answer_content c aesv vs)) sa) x); try assumption.
    - exact (pending_shape m c RM).
    - apply VX.
    - unfold hears. rewrite NA, NS, FX. exact HH.
    - congruence.
    - congruence.
    - rewrite M4, C3, G4. apply (answer_esv _ _ HE).
    - rewrite G4. apply (answer_esv _ _ HE). }
  split; [exact G4|]. split.
  { rewrite G5, Ef, combine_length, <- EL, Nat.min_id, map_length. reflexivity. }
  rewrite <- with_values_pairs, <- Ef. exact G6.
Qed.

(** ** C61: a refused request *)

(** The error response on the wire. *)
Lemma impossible_bytes m resp : received m -> NewImpossibleMessageWithMessage m = Ok resp ->
  let c := mkContent (TID m) (DEOJ m) (SEOJ m) (impossible_esv (m_esv m))
             (repeat (0, []) (Z.to_nat (2 * OPC m mod 256))) in
  in_limits c /\ Bytes resp = Ok (wire c).
Proof.
  intros HR HI c. pose proof (received_header m HR) as (H1 & H2 & H3 & H4 & H5 & H6 & H7).
  destruct (impossible_facts m H1 H2 H3 H4) as
    (x & E & _ & _ & _ & V & O & P & Y1 & Y2 & S & D & T).
  rewrite HI in E. injection E as <-.
  assert (HS : shape resp) by (split; rewrite ?S, ?D; reflexivity).
  assert (OB : 0 <= 2 * OPC m mod 256 < 256) by (apply Z.mod_pos_bound; lia).
  assert (OL : 2 * OPC m mod 256 <= 2 * OPC m) by (apply Z.mod_le; lia).
  assert (HL : in_limits c).
  { unfold in_limits, frame_in_limits. cbn [c c_tid c_seoj c_deoj c_esv c_props].
    do 3 (split; [assumption|]). split.
    { unfold impossible_esv. repeat match goal with |- context [if ?c then _ else _] => destruct c end;
        vm_compute; split; congruence. }
    split; [rewrite repeat_length; lia|].
    apply Forall_forall. intros p Hp. apply repeat_spec in Hp. subst p.
    split; [cbn [fst]; lia|]. split; [cbn [snd length]; lia|constructor]. }
  split; [exact HL|]. rewrite (Bytes_general resp HS). f_equal.
  unfold raw_header, visited. rewrite Y1, Y2, S, D, P, V, T.
  change (m_opc resp) with (OPC resp). rewrite O.
  unfold wire, wire_frame. cbn [c c_tid c_seoj c_deoj c_esv c_props].
  rewrite repeat_length, Z2Nat.id by lia.
  rewrite SetTID_TID by lia. cbn [fst snd]. unfold be2. cbn [app].
  assert (EF : firstn (Z.to_nat (2 * OPC m mod 256)) (repeat NewPProp (Z.to_nat (2 * OPC m)))
               = repeat NewPProp (Z.to_nat (2 * OPC m mod 256))).
  { assert (X : (Z.to_nat (2 * OPC m mod 256) <= Z.to_nat (2 * OPC m))%nat) by lia.
    revert X. generalize (Z.to_nat (2 * OPC m)) as n, (Z.to_nat (2 * OPC m mod 256)) as k. clear.
    induction n as [|n IH]; intros [|k] X; try reflexivity; [lia|]. cbn [repeat firstn]. rewrite IH by lia. reflexivity. }
  rewrite EF. rewrite <- !app_assoc. cbn [app].
  repeat (f_equal; [idtac]). do 4 f_equal.
  generalize (Z.to_nat (2 * OPC m mod 256)) as k. clear.
  induction k as [|k IH]; [reflexivity|]. cbn [repeat flat_map]. rewrite IH. reflexivity.
Qed.

(** The request cannot be served: no such object, or a property the object does
    not have or does not allow to be accessed in that way. *)
Definition cannot_serve (nd : node) (obj esv : Z) (ps : list pprop) : Prop :=
  LookupObject nd obj = None \/
  exists r o p, LookupObject nd obj = Some r /\ obj_at nd r = Some o /\ In p ps /\
    (reads esv \/ writes esv) /\ ~ accepts o esv p.

(** The node that sent it gets the error response that belongs to the service,
    under its transaction and from the object it addressed, with two empty
    properties for each one of the request; at the other node nothing happens. *)
Theorem C61_refused : forall (W : Type) (cb : callbacks W) w cl nd pending pt ca sa obj esv eesv ps post a rest,
  library_node cl -> n_running cl = true -> hears cl sa -> pending_ok pending -> hears nd ca ->
  In (esv, eesv) spec_error_answer -> 0 <= obj < 2 ^ 24 -> sendable ps -> cannot_serve nd obj esv ps ->
  exists m cl' b b' resp,
    Node_PostMessage cl sa (new_request obj esv ps) (udp_net post a rest) = Ok (cl', [SentUDP 0 b], PostWaits m) /\
    let s := serve_datagram cb w nd pending pt sa (mkDatagram b ca) in
    out_calls (fst s) = [] /\ out_world (fst s) = w /\ out_node (fst s) = nd /\
    snd s = Ok (Some (ca, mkDatagram b' sa)) /\
    ReadMessage (mkDatagram b' sa) = Ok resp /\ m_from resp = sa /\ TID resp = TID m /\
    SEOJ resp = obj /\ DEOJ resp = 0x0EF001 /\ m_esv resp = eesv /\
    m_ep resp = repeat (mkPProp 0 []) (Z.to_nat (2 * Z.of_nat (length ps) mod 256)) /\
    forall (W' : Type) (cb' : callbacks W') w' pt',
      let s' := serve_datagram cb' w' cl' (Some m) pt' ca (mkDatagram b' sa) in
      out_delivered (fst s') = true /\ snd s' = Ok None.
Proof.
  intros W cb w cl nd pending pt ca sa obj esv eesv ps post a rest Hcl Hrun HH HP HO HE Hobj HS HN.
  destruct (library_ok cl Hcl) as (HI & HT).
  set (t := (n_lastTID cl + 1) mod 65536).
  set (c := mkContent t 0x0EF001 obj esv (map to_pair ps)).
  set (m := SetSEOJ (SetTID (new_request obj esv ps) t) 0x0EF001).
  assert (RM : represents m c) by apply request_represents.
  assert (HLc : in_limits c).
  { apply sendable_limits; try assumption; [apply tid_small|].
    cbn [spec_error_answer In] in HE. repeat destruct HE as [HE|HE]; try contradiction; injection HE as <- _; lia. }
  assert (Hlen : (length (wire c) <= 1024)%nat).
  { rewrite wire_length. cbn [c c_props]. rewrite map_map. cbn [to_pair snd]. apply HS. }
  destruct (wire_arrives c ca HLc Hlen) as (x & EX & FX & RX & VX).
  destruct (represents_getters x c RX HLc) as (G1 & G2 & G3 & G4 & G5 & G6).
  cbn [c c_tid c_seoj c_deoj c_esv c_props] in G1, G2, G3, G4, G5, G6. rewrite of_to_pair in G6.
  assert (NO : not_own nd (SetPacketType x pt)) by (unfold not_own; cbn [SetPacketType m_from]; rewrite FX; exact HO).
  assert (NV : ~ (exists r o, valid nd (SetPacketType x pt) r o)).
  { intros (r & o & (A1 & A2) & _ & HA).
    change (DEOJ (SetPacketType x pt)) with (DEOJ x) in A1. change (m_esv (SetPacketType x pt)) with (m_esv x) in HA.
    change (m_ep (SetPacketType x pt)) with (m_ep x) in HA. rewrite G3 in A1. rewrite G4, G6 in HA.
    destruct HN as [HN|(r' & o' & p & B1 & B2 & B3 & B4 & B5)]; [congruence|].
    assert (r' = r) by congruence. subst r'. assert (o' = o) by congruence. subst o'.
    apply B5. specialize (HA B4). rewrite Forall_forall in HA. apply HA, B3. }
  destruct (handle_invalid cb w nd pending _ (VX pt) HP NO NV) as (d & resp & EQ & EI & _).
  destruct (impossible_bytes _ resp (VX pt) EI) as (HLr & EB).
  set (cr := mkContent _ _ _ _ _) in HLr, EB.
  assert (Hlr : (length (wire cr) <= 1024)%nat).
  { rewrite wire_length. subst cr. cbn [c_props].
    assert (K : (Z.to_nat (2 * OPC (SetPacketType x pt) mod 256) <= 255)%nat)
      by (pose proof (Z.mod_pos_bound (2 * OPC (SetPacketType x pt)) 256); lia).
    revert K. generalize (Z.to_nat (2 * OPC (SetPacketType x pt) mod 256)) as k. clear. intros k K.
    assert (X : message_size (map snd (repeat (0, @nil Z) k)) = (12 + 2 * k)%nat).
    { clear K. induction k as [|k IH]; [reflexivity|]. cbn [repeat map snd]. unfold message_size in *.
      cbn [fold_right length]. rewrite IH. lia. }
    rewrite X. lia. }
  destruct (wire_arrives cr sa HLr Hlr) as (y & EY & FY & RY & VY).
  destruct (represents_getters y cr RY HLr) as (K1 & K2 & K3 & K4 & _ & K6).
  assert (K7 : m_ep y = repeat (mkPProp 0 []) (Z.to_nat (2 * Z.of_nat (length ps) mod 256))).
  { rewrite K6. subst cr. cbn [c_props]. change (OPC (SetPacketType x pt)) with (OPC x). rewrite G5, map_length.
    generalize (Z.to_nat (2 * Z.of_nat (length ps) mod 256)) as k. clear. induction k as [|k IH]; [reflexivity|]. cbn [repeat map]. rewrite IH. reflexivity. }
  assert (K : TID y = t /\ SEOJ y = obj /\ DEOJ y = 0x0EF001 /\ m_esv y = eesv).
  { rewrite K1, K2, K3, K4. subst cr. cbn [c_tid c_seoj c_deoj c_esv].
    change (TID (SetPacketType x pt)) with (TID x). change (DEOJ (SetPacketType x pt)) with (DEOJ x).
    change (SEOJ (SetPacketType x pt)) with (SEOJ x). change (m_esv (SetPacketType x pt)) with (m_esv x).
    rewrite G1, G2, G3, G4. do 3 (split; [reflexivity|]).
    cbn [spec_error_answer In] in HE. repeat destruct HE as [HE|HE]; try contradiction; injection HE as <- <-; reflexivity. }
  destruct K as (T1 & T2 & T3 & T4).
  destruct (represents_getters m c RM HLc) as (M1 & _ & _ & M4 & _).
  cbn [c c_tid c_esv] in M1, M4.
  exists m, (hand_over (with_lastTID cl t) (Unicast sa m)), (wire c), (wire cr), y.
  split; [apply post_udp; assumption|]. cbv zeta.
  unfold serve_datagram at 1 2 3 4. rewrite EX. unfold handle_datagram_message at 1 2 3 4. cbn [fst snd].
  rewrite EQ. cbn [out_calls out_world out_node out_reply]. do 3 (split; [reflexivity|]).
  split. { unfold UDP_SendMessage. rewrite EB. cbn [bind SetPacketType m_from]. rewrite FX. reflexivity. }
  split; [exact EY|]. split; [exact FY|]. split; [congruence|]. do 3 (split; [assumption|]). split; [exact K7|].
  intros W' cb' w' pt'.
  apply (client_hears cb' w' (hand_over (with_lastTID cl t) (Unicast sa m)) m pt' ca (mkDatagram (wire cr) sa) y); try assumption.
  - exact (pending_shape m c RM).
  - apply VY.
  - rewrite FY. exact HH.
  - congruence.
  - rewrite T4, M4. apply (error_esv _ _ HE).
  - rewrite T4. apply (error_esv _ _ HE).
Qed.

(** ** Examples *)

(** A node at address 5 and a node with two devices at address 7. *)
Definition ex_client : res node := nd <- node_after [NStart None] ;; Ok (at_address nd (mkAddress 5 3610) false).
Definition ex_device (props : list property) : object := mkObject [0x02; 0x90; 0x01] props.
Definition ex_server (o : object) : res node :=
  nd <- node_after [NAddDevice PropsNode.ex_dev2; NAddDevice o; NStart None] ;; Ok (at_address nd (mkAddress 7 3610) false).

(** The request, the datagram of the answer, and the response as it is read. *)
Definition ex_exchange (o : object) (esv : Z) (ps : list pprop) : res (list net_event * option (list Z) * option message) :=
  cl <- ex_client ;; nd <- ex_server o ;;
  r <- Node_PostMessage cl (mkAddress 7 3610) (new_request 0x029001 esv ps) (udp_net [] ADialFails []) ;;
  match r with
  | (cl', evs, PostWaits m) =>
      match evs with
      | [SentUDP _ b] =>
          a <- snd (serve_datagram (no_callbacks unit) tt nd None UDPUnicastPacket (mkAddress 7 3610) (mkDatagram b (mkAddress 5 3610))) ;;
          match a with
          | Some (_, d) => x <- ReadMessage d ;; Ok (evs, Some (d_bytes d), Some x)
          | None => Ok (evs, None, None)
          end
      | _ => Ok (evs, None, None)
      end
  | (_, evs, _) => Ok (evs, None, None)
  end.

(** Two properties are read: the request has the transaction number after that of
    the announcements of the start. *)
Example C60_example :
  (r <- ex_exchange PropsNode.ex_dev 0x62 [mkPProp 0xB0 []; mkPProp 0x80 []] ;; Ok (fst r, option_map m_ep (snd r))) =
  Ok (([SentUDP 0 [0x10; 0x81; 0; 2; 0x0E; 0xF0; 1; 2; 0x90; 1; 0x62; 2; 0xB0; 0; 0x80; 0]],
       Some [0x10; 0x81; 0; 2; 2; 0x90; 1; 0x0E; 0xF0; 1; 0x72; 2; 0xB0; 1; 0x32; 0x80; 1; 0x30]),
      Some [mkPProp 0xB0 [0x32]; mkPProp 0x80 [0x30]]).
Proof. vm_compute. reflexivity. Qed.

(** The hypotheses of C60 hold for these nodes. *)
Lemma ex_ops_ok : Forall node_op_ok [NAddDevice PropsNode.ex_dev2; NAddDevice PropsNode.ex_dev; NStart None].
Proof.
  destruct PropsNode.ex_dev_ok as [A B]. constructor; [exact B|]. constructor; [exact A|]. constructor; [exact I|constructor].
Qed.

Example C60_hypotheses_example : exists cl nd o,
  ex_client = Ok cl /\ ex_server PropsNode.ex_dev = Ok nd /\
  library_node cl /\ n_running cl = true /\ library_node nd /\ respects calls_library (no_callbacks unit) /\
  hears nd (mkAddress 5 3610) /\ hears cl (mkAddress 7 3610) /\ sendable [mkPProp 0xB0 []; mkPProp 0x80 []] /\
  LookupObject nd 0x029001 = Some (DevRef 1) /\ obj_at nd (DevRef 1) = Some o /\
  Forall (accepts o 0x62) [mkPProp 0xB0 []; mkPProp 0x80 []].
Proof.
  destruct (node_after_spec [NStart None]) as (cl & E1 & _); [repeat constructor|].
  destruct (node_after_spec _ ex_ops_ok) as (nd & E2 & _).
  exists (at_address cl (mkAddress 5 3610) false), (at_address nd (mkAddress 7 3610) false).
  assert (OB : exists o, nth_error (n_devices nd) 1 = Some o /\ find_code (n_devices nd) 0x029001 = Some 1%nat /\
    option_map p_get (LookupProperty (o_props o) 0x80) = Some Required /\
    option_map p_get (LookupProperty (o_props o) 0xB0) = Some Required).
  { assert (X : match node_after [NAddDevice PropsNode.ex_dev2; NAddDevice PropsNode.ex_dev; NStart None] with
      | Ok nd => match nth_error (n_devices nd) 1, find_code (n_devices nd) 0x029001 with
                 | Some o, Some 1%nat =>
                     match LookupProperty (o_props o) 0x80, LookupProperty (o_props o) 0xB0 with
                     | Some p, Some q => match p_get p, p_get q with Required, Required => true | _, _ => false end
                     | _, _ => false
                     end
                 | _, _ => false
                 end
      | _ => false end = true) by (vm_compute; reflexivity).
    rewrite E2 in X. destruct (nth_error (n_devices nd) 1) as [o|]; [|discriminate X]. exists o.
    destruct (find_code (n_devices nd) 0x029001) as [[|[|]]|]; try discriminate X.
    destruct (LookupProperty (o_props o) 0x80) as [p|]; [|discriminate X].
    destruct (LookupProperty (o_props o) 0xB0) as [q|]; [|discriminate X]. cbn [option_map].
    destruct (p_get p); try discriminate X. destruct (p_get q); try discriminate X. auto. }
  destruct OB as (o & O1 & O2 & O3 & O4). exists o.
  split; [unfold ex_client; rewrite E1; reflexivity|]. split; [unfold ex_server; rewrite E2; reflexivity|].
  split; [exists [NStart None], cl, (mkAddress 5 3610), false; split; [repeat constructor|auto]|].
  split. { cbn [at_address n_running]. assert (X : match node_after [NStart None] with Ok nd => n_running nd | _ => false end = true)
    by (vm_compute; reflexivity). rewrite E1 in X. exact X. }
  split; [eexists; exists nd, (mkAddress 7 3610), false; split; [exact ex_ops_ok|auto]|].
  split; [split; [|split]; intros; discriminate|].
  split; [right; cbn [at_address n_addr]; discriminate|]. split; [right; cbn [at_address n_addr]; discriminate|].
  split. { split; [cbn; lia|]. split; [|cbn; lia]. repeat constructor; cbn; lia. }
  split. { unfold LookupObject, LookupDevice. cbn [at_address n_devices]. rewrite O2. reflexivity. }
  split; [exact O1|].
  assert (NW : ~ writes 0x62) by (unfold writes; cbn [In]; lia).
  destruct (LookupProperty (o_props o) 0x80) as [p|] eqn:L1; [|discriminate O3].
  destruct (LookupProperty (o_props o) 0xB0) as [q|] eqn:L2; [|discriminate O4].
  cbn [option_map] in *. injection O3 as O3. injection O4 as O4.
  constructor; [|constructor; [|constructor]]; eexists; cbn [pp_code]; (split; [eassumption|]);
    (split; [intros _; congruence|intros X; contradiction]).
Qed.

(** Five values of 250 bytes: the client reads five properties, the last of them
    empty. *)
Example C60_large_example :
  let o := ex_device (map (fun c => mkProperty c Required Prohibited Prohibited (repeat 7 250)) [0xE0; 0xE1; 0xE2; 0xE3; 0xE4]) in
  (r <- ex_exchange o 0x62 (map (fun c => mkPProp c []) [0xE0; 0xE1; 0xE2; 0xE3; 0xE4]) ;;
   Ok (option_map (@length Z) (snd (fst r)), option_map (fun x => (m_esv x, OPC x, map (fun p => length (pp_data p)) (m_ep x))) (snd r)))
  = Ok (Some 1272%nat, Some (0x72, 5, [250; 250; 250; 250; 0]%nat)).
Proof. vm_compute. reflexivity. Qed.

(** A property the device does not have. *)
Example C61_example :
  (r <- ex_exchange PropsNode.ex_dev 0x61 [mkPProp 0xF0 [1; 2]] ;; Ok (snd (fst r))) =
  Ok (Some [0x10; 0x81; 0; 2; 2; 0x90; 1; 0x0E; 0xF0; 1; 0x51; 2; 0; 0; 0; 0]).
Proof. vm_compute. reflexivity. Qed.

Print Assumptions C60_request_partial.
Print Assumptions C60_large_refuted.
Print Assumptions C61_refused.

(** Theorems about discovery: C37 - C41. *)

From Verif Require Import Go GoFacts Encoding EncodingFacts Protocol Parser MessageFacts ParserFacts
  ProtocolFacts StdDB Property PropertyFacts Object ObjectFacts Spec Node NodeFacts Handler HandlerFacts
  Remote RemoteFacts.
From Verif Require PropsNode PropsHandler.
From Coq Require Import ZifyBool ZifyNat.
Local Open Scope Z_scope.

(** Every theorem is about [ctrl_receive conf nd ct m]: a controller with local
    node [nd] (any content), configuration [conf] and node table [ct] receives a
    message [m] as the transport delivers it ([received]). *)

(** The message came from one of the controller's own multicast servers. *)
Definition from_server (conf : ctrl_conf) (m : message) : Prop :=
  exists port ip, In (Some port, Some ip) (cc_servers conf) /\ m_from m = mkAddress ip port.

Definition foreign (conf : ctrl_conf) (nd : node) (m : message) : Prop :=
  n_self nd = true \/ (m_from m <> n_addr nd /\ ~ from_server conf m).

(** A notification or the response to a read request, sent by another node to a
    node profile the controller has. *)
Definition announcement (conf : ctrl_conf) (nd : node) (m : message) : Prop :=
  received m /\ foreign conf nd m /\ In (m_esv m) [0x72; 0x73; 0x74; 0x7E] /\
  In (DEOJ m) [0x0EF001; 0x0EF002] /\ LookupObject nd (DEOJ m) <> None.

(** The address under which the controller records the sender: with automatic
    port binding the source of the message, otherwise the standard port. *)
Definition sender (conf : ctrl_conf) (m : message) : address :=
  mkAddress (a_ip (m_from m)) (if cc_auto conf then a_port (m_from m) else 3610).

(** The node is the one the instance list describes: devices in announced order,
    profiles likewise between two node profiles, each made for its code. *)
Definition describes (addr : address) (codes : list (list Z)) (n : rnode) : Prop :=
  rn_addr n = addr /\
  Forall2 made_device (filter (fun c => negb (is_profile c)) codes) (rn_devices n) /\
  exists ps, rn_profiles n = np_object :: ps ++ [np_object] /\ Forall2 made_profile (filter is_profile codes) ps.

Definition known (ct : ctrl) (a : address) : Prop := In a (map rn_addr (ct_found ct)).

(** ** The step *)

Lemma self_false conf nd m : foreign conf nd m -> negb (n_self nd) && isSelfMessage conf m = false.
Proof.
  intros [->|[_ H]]; [reflexivity|]. destruct (n_self nd); [reflexivity|]. cbn [negb andb].
  destruct (isSelfMessage conf m) eqn:E; [|reflexivity]. exfalso. apply H.
  unfold isSelfMessage in E. apply existsb_exists in E. destruct E as ([p i] & I & E). cbn [fst snd] in E.
  destruct p as [p|]; [|discriminate E]. destruct (Z.eqb_spec (a_port (m_from m)) p); cbn [negb] in E; [|discriminate E].
  destruct i as [i|]; [|discriminate E]. destruct (Z.eqb_spec (a_ip (m_from m)) i); cbn [negb] in E; [|discriminate E].
  exists p, i. split; [assumption|]. destruct (m_from m) as [xi xp]. cbn [a_ip a_port] in *. congruence.
Qed.

Lemma not_own_of nd m : negb (n_self nd) && addr_eqb (m_from m) (n_addr nd) = false -> PropsHandler.not_own nd m.
Proof.
  intros H. unfold PropsHandler.not_own. destruct (n_self nd); [auto|]. right. intros E. cbn [negb andb] in H.
  rewrite E in H. unfold addr_eqb in H. rewrite !Z.eqb_refl in H. discriminate H.
Qed.

Lemma profile_message_iff m : isNodeProfileMessage m = true <->
  In (m_esv m) [0x72; 0x73; 0x74; 0x7E] /\ In (DEOJ m) [0x0EF001; 0x0EF002].
Proof.
  unfold isNodeProfileMessage, ESV_IsNotification, ESV_IsReadResponse, isNodeProfileObjectCode.
  unfold ESVNotification, ESVNotificationResponseRequired, ESVReadResponse, ESVWriteReadResponse,
    NodeProfileObjectCode, NodeProfileObjectReadOnlyCode. cbn [In].
  destruct (Z.eqb_spec (m_esv m) 115), (Z.eqb_spec (m_esv m) 116), (Z.eqb_spec (m_esv m) 114),
    (Z.eqb_spec (m_esv m) 126), (Z.eqb_spec (DEOJ m) 0x0EF001), (Z.eqb_spec (DEOJ m) 0x0EF002);
    cbn [negb andb]; split; try discriminate; try reflexivity; lia.
Qed.

(** When the listener of the controller runs, its effect is OnMessage's. *)
Lemma receive_valid conf nd ct m r o : received m -> PropsHandler.not_own nd m -> PropsHandler.valid nd m r o ->
  OnMessage conf (n_self nd) ct m = Ok (ctrl_receive conf nd ct m).
Proof.
  intros HR HO HV. unfold ctrl_receive.
  destruct (PropsHandler.handle_valid (ctrl_callbacks conf) ct nd None m r o HR I HO HV) as (d & st & E & _ & _ & EQ).
  rewrite EQ. cbn [out_world].
  destruct (ctrl_exec conf nd ct m) as (st' & E' & HM & _).
  - destruct HV as ((A & _) & _). congruence.
  - apply received_byte_props, HR.
  - congruence.
Qed.

Lemma receive_invalid conf nd ct m : received m ->
  ~ (PropsHandler.not_own nd m /\ exists r o, PropsHandler.valid nd m r o) -> ctrl_receive conf nd ct m = ct.
Proof.
  intros HR HN. unfold ctrl_receive.
  destruct (negb (n_self nd) && addr_eqb (m_from m) (n_addr nd)) eqn:EO.
  { unfold ProtocolMessageReceived. rewrite EO. reflexivity. }
  pose proof (not_own_of nd m EO) as HO.
  destruct (PropsHandler.handle_invalid (ctrl_callbacks conf) ct nd None m HR I HO) as (d & resp & E & _).
  - intros H. apply HN. auto.
  - rewrite E. reflexivity.
Qed.

Lemma announcement_valid conf nd m : announcement conf nd m ->
  PropsHandler.not_own nd m /\ exists r o, PropsHandler.valid nd m r o.
Proof.
  intros (HR & HF & HE & HD & HL). split.
  - destruct HF as [HF|[HF _]]; [left|right]; assumption.
  - destruct (LookupObject nd (DEOJ m)) as [r|] eqn:EL; [|congruence].
    destruct (LookupObject_at nd (DEOJ m) r EL) as (o & EO & _). exists r, o.
    split; [split; assumption|]. clear -HE. unfold PropsHandler.known_esv, PropsHandler.reads, PropsHandler.writes.
    cbn [In] in HE. split.
    + destruct HE as [<-|[<-|[<-|[<-|[]]]]]; vm_compute; tauto.
    + intros X. exfalso. cbn [In] in X. lia.
Qed.

Lemma addr_eqb_iff a b : addr_eqb a b = true <-> a = b.
Proof.
  unfold addr_eqb. destruct a as [i p], b as [i' p']. cbn [a_ip a_port]. split; intros H.
  - f_equal; lia.
  - injection H as <- <-. rewrite !Z.eqb_refl. reflexivity.
Qed.

Lemma known_iff ct n : existsb (fun x => addr_eqb (rn_addr n) (rn_addr x)) (ct_found ct) = true <-> known ct (rn_addr n).
Proof.
  unfold known. rewrite existsb_exists, in_map_iff. split; intros (x & A & B); exists x.
  - apply addr_eqb_iff in B. auto.
  - split; [assumption|]. apply addr_eqb_iff. congruence.
Qed.

(** Whether the table gets a node with this message. *)
Definition joins (conf : ctrl_conf) (nd : node) (ct : ctrl) (m : message) (n : rnode) : Prop :=
  announcement conf nd m /\ ~ known ct (sender conf m) /\
  exists codes, instance_list m codes /\ Forall acceptable codes /\ describes (sender conf m) codes n.

Lemma remote_described conf m codes : received m -> instance_list m codes -> Forall acceptable codes ->
  exists n, newRemoteNodeWithInstanceListMessageAndConfig m (cc_auto conf) = Ok n /\ describes (sender conf m) codes n.
Proof.
  intros HR HI HA. unfold newRemoteNodeWithInstanceListMessageAndConfig.
  destruct (remote_accepts m codes (received_byte_props m HR) HI) as [(_ & ds & ps & E & D & P)|(N & _)]; [|contradiction].
  rewrite E. cbn [bind]. eexists. split; [reflexivity|]. unfold describes, sender.
  destruct (cc_auto conf); cbn [rn_SetPort rn_addr rn_devices rn_profiles].
  - split; [destruct (m_from m); reflexivity|]. split; [assumption|]. exists ps. auto.
  - split; [reflexivity|]. split; [assumption|]. exists ps. auto.
Qed.

Lemma remote_none conf m : received m ->
  ~ (exists codes, instance_list m codes /\ Forall acceptable codes) ->
  exists e, newRemoteNodeWithInstanceListMessageAndConfig m (cc_auto conf) = Err e.
Proof.
  intros HR HN. unfold newRemoteNodeWithInstanceListMessageAndConfig.
  pose proof (received_byte_props m HR) as HB.
  destruct (instance_list_dec m HB) as [(codes & H)|H].
  - destruct (remote_accepts m codes HB H) as [(F & _)|(_ & ->)].
    + exfalso. apply HN. eauto.
    + cbn [bind]. eauto.
  - rewrite remote_refuses by assumption. cbn [bind]. eauto.
Qed.

Lemma accepted_dec m : received m ->
  (exists codes, instance_list m codes /\ Forall acceptable codes) \/
  ~ (exists codes, instance_list m codes /\ Forall acceptable codes).
Proof.
  intros HR. pose proof (received_byte_props m HR) as HB.
  destruct (newRemoteNodeWithInstanceListMessage m) as [n|e|] eqn:E.
  - left. destruct (instance_list_dec m HB) as [(codes & H)|H].
    + destruct (remote_accepts m codes HB H) as [(F & _)|(_ & X)]; [eauto|congruence].
    + rewrite remote_refuses in E by assumption. discriminate E.
  - right. intros (codes & H & F).
    destruct (remote_accepts m codes HB H) as [(_ & ds & ps & X & _)|(N & _)]; [congruence|auto].
  - exfalso. exact (remote_no_panic m HB E).
Qed.

Lemma address_dec (a b : address) : {a = b} + {a <> b}.
Proof. destruct a as [i p], b as [i' p']. destruct (Z.eq_dec i i'), (Z.eq_dec p p'); [left; congruence|right; congruence..]. Qed.

(** ** C37: discovery reconstructs the announced node *)

(** Missing for the full claim: instance lists with a device of a class that is
    not in the standard database ([C37_unknown_class_refuted]), nodes already in
    the table (C40), and, for [C37_startup_partial], nodes with more than 84
    devices (whose announcement is already broken, C28). *)
Theorem C37_discovered_partial : forall conf nd ct m codes,
  announcement conf nd m -> ~ known ct (sender conf m) ->
  instance_list m codes -> Forall acceptable codes ->
  exists n, ct_found (ctrl_receive conf nd ct m) = ct_found ct ++ [n] /\ describes (sender conf m) codes n /\
    map o_codes (rn_devices n) = filter (fun c => negb (is_profile c)) codes /\
    (cc_listener conf = true -> ct_told (ctrl_receive conf nd ct m) = ct_told ct ++ [n]).
Proof.
  intros conf nd ct m codes HA HK HI HF. pose proof (announcement_valid conf nd m HA) as (HO & r & o & HV).
  pose proof HA as (HR & HFo & HE & HD & _).
  pose proof (receive_valid conf nd ct m r o HR HO HV) as HM.
  unfold OnMessage in HM. rewrite (self_false conf nd m HFo) in HM.
  rewrite (proj2 (profile_message_iff m) (conj HE HD)) in HM. unfold parseNodeProfileMessage in HM.
  rewrite (self_false conf nd m HFo) in HM.
  destruct (remote_described conf m codes HR HI HF) as (n & E & D). rewrite E in HM. cbn [bind] in HM.
  unfold addNode in HM.
  destruct (existsb _ _) eqn:X.
  { apply known_iff in X. destruct D as (D & _). rewrite D in X. contradiction. }
  injection HM as <-. exists n. split; [destruct (cc_listener conf); reflexivity|]. split; [assumption|]. split.
  - destruct D as (_ & D & _). clear -D. induction D as [|c o cs os H D IH]; [reflexivity|].
    cbn [map]. destruct H as (-> & _). congruence.
  - intros ->. reflexivity.
Qed.

Lemma startup_bytes ops nd m b : Forall node_op_ok ops -> Forall keeps_lists ops ->
  (length (PropsNode.added_devices ops) <= 84)%nat -> node_after ops = Ok nd ->
  n_sent (fst (Node_Start nd None)) = n_sent nd ++ [Multicast m] -> Bytes m = Ok b -> is_bytes b.
Proof.
  intros H1 H2 H84 E EN EB.
  destruct (PropsNode.startup_message ops H1 H2) as (nd' & m' & E' & _ & EN' & _ & HB & HN & _).
  assert (nd' = nd) by congruence. subst nd'. rewrite EN in EN'. apply app_inv_head in EN'. injection EN' as <-.
  destruct HN as (_ & _ & _ & _ & _ & _ & HW).
  assert (H3 : Forall (fun k => length k = 3%nat) (PropsNode.added_devices ops)).
  { destruct (PropsNode.lists_state ops H1 H2) as (nd' & _ & _ & _ & Hi & _ & _ & _ & Ed & _).
    rewrite <- Ed. apply Forall_map. destruct Hi as [Hi _]. eapply Forall_impl; [|exact Hi].
    intros o [[Ho _] _]. exact Ho. }
  assert (HL : (length (PropsNode.count_byte (length (PropsNode.added_devices ops)) :: concat (PropsNode.added_devices ops)) <= 255)%nat).
  { cbn [length]. rewrite PropsNode.concat3 by assumption. lia. }
  rewrite (HW HL) in EB. injection EB as <-. apply wire_frame_bytes.
  split; [apply Z.mod_pos_bound; lia|]. split; [lia|]. split; [lia|]. split; [lia|].
  split; [cbn; lia|]. constructor; [|constructor]. split; [cbn; lia|]. split; [exact HL|exact HB].
Qed.

(** What a history of a node puts on the air at start-up, received by any
    controller that does not know the node yet. *)
Theorem C37_startup_partial : forall ops, Forall node_op_ok ops -> Forall keeps_lists ops ->
  (length (PropsNode.added_devices ops) <= 84)%nat ->
  Forall (fun c => known_class c /\ is_profile c = false) (PropsNode.added_devices ops) ->
  exists nd m b r,
    node_after ops = Ok nd /\ n_sent (fst (Node_Start nd None)) = n_sent nd ++ [Multicast m] /\
    Bytes m = Ok b /\ NewMessageWithBytes b = Ok r /\
    forall conf cnd ct from kind, let d := SetPacketType (SetFrom r from) kind in
      foreign conf cnd d -> LookupObject cnd 0x0EF001 <> None -> ~ known ct (sender conf d) ->
      exists n, ct_found (ctrl_receive conf cnd ct d) = ct_found ct ++ [n] /\ rn_addr n = sender conf d /\
        map o_codes (rn_devices n) = PropsNode.added_devices ops.
Proof.
  intros ops H1 H2 H84 HK.
  destruct (PropsNode.C28_startup_partial ops H1 H2 H84) as (nd & m & b & r & E & ES & EN & EB & ER & V & S & D & P).
  exists nd, m, b, r. split; [assumption|]. split; [assumption|]. split; [assumption|]. split; [assumption|].
  intros conf cnd ct from kind d HF HL HU.
  destruct (PropsNode.lists_state ops H1 H2) as (nd' & np & rest & E' & Hi & _ & _ & _ & Ed & _).
  assert (nd' = nd) by congruence. subst nd'.
  assert (H3 : Forall (fun k => length k = 3%nat) (PropsNode.added_devices ops)).
  { rewrite <- Ed. apply Forall_map. destruct Hi as [Hi _]. eapply Forall_impl; [|exact Hi].
    intros o [[Ho _] _]. exact Ho. }
  assert (HB : is_bytes b) by (eapply startup_bytes; eassumption).
  assert (HR : received d) by (exists b, r, from, kind; auto).
  assert (HA : announcement conf cnd d).
  { split; [assumption|]. split; [assumption|]. split; [subst d; cbn; rewrite V; cbn [In]; tauto|].
    assert (X : DEOJ d = 0x0EF001) by exact D. rewrite X. split; [left; reflexivity|assumption]. }
  assert (HI : instance_list d (PropsNode.added_devices ops)).
  { exists (mkPProp 0xD5 (PropsNode.count_byte (length (PropsNode.added_devices ops)) :: concat (PropsNode.added_devices ops))), [], [].
    pose proof (received_header d HR) as (_ & _ & _ & _ & _ & H6 & _).
    assert (X : m_ep d = [mkPProp 0xD5 (PropsNode.count_byte (length (PropsNode.added_devices ops)) :: concat (PropsNode.added_devices ops))]) by exact P.
    rewrite X in H6. cbn [length] in H6. split; [lia|]. split; [assumption|]. split; [left; reflexivity|].
    split; [|assumption]. cbn [pp_data]. rewrite app_nil_r. unfold PropsNode.count_byte.
    destruct (Nat.leb_spec (length (PropsNode.added_devices ops)) 254); [reflexivity|lia]. }
  assert (HC : Forall acceptable (PropsNode.added_devices ops)).
  { eapply Forall_impl; [|exact HK]. intros c [A _]. right. assumption. }
  destruct (C37_discovered_partial conf cnd ct d _ HA HU HI HC) as (n & F & (A & _) & M & _).
  exists n. split; [assumption|]. split; [assumption|]. rewrite M.
  clear -HK. induction HK as [|c cs [_ P] HK IH]; [reflexivity|]. cbn [filter]. rewrite P. cbn [negb]. congruence.
Qed.

(** The claim without the class condition is false, for every instance list with
    an object of an unlisted class: the node is not recorded at all. *)
Theorem C37_unknown_class_refuted : forall conf nd ct m codes,
  announcement conf nd m -> instance_list m codes -> ~ Forall acceptable codes ->
  ct_found (ctrl_receive conf nd ct m) = ct_found ct.
Proof.
  intros conf nd ct m codes HA HI HF. pose proof (announcement_valid conf nd m HA) as (HO & r & o & HV).
  pose proof HA as (HR & HFo & HE & HD & _).
  pose proof (receive_valid conf nd ct m r o HR HO HV) as HM.
  unfold OnMessage in HM. rewrite (self_false conf nd m HFo) in HM.
  rewrite (proj2 (profile_message_iff m) (conj HE HD)) in HM. unfold parseNodeProfileMessage in HM.
  rewrite (self_false conf nd m HFo) in HM.
  unfold newRemoteNodeWithInstanceListMessageAndConfig in HM.
  destruct (remote_accepts m codes (received_byte_props m HR) HI) as [(F & _)|(_ & X)]; [contradiction|].
  rewrite X in HM. cbn [bind] in HM. injection HM as <-. destruct (cc_listener conf); reflexivity.
Qed.

(** ** C38: the node table is a set *)

(** Every received message either leaves the table and what the listener was told
    alone, or adds one node to both; the latter exactly for announcements of
    senders not in the table. *)
Theorem C38_step : forall conf nd ct m, received m ->
  let ct' := ctrl_receive conf nd ct m in
  (exists n, joins conf nd ct m n /\ ct_found ct' = ct_found ct ++ [n] /\
     ct_told ct' = ct_told ct ++ (if cc_listener conf then [n] else [])) \/
  ((forall n, ~ joins conf nd ct m n) /\ ct_found ct' = ct_found ct /\ ct_told ct' = ct_told ct).
Proof.
  intros conf nd ct m HR ct'.
  destruct (PropsHandler.valid_dec nd m HR) as [(r & o & HV)|HV].
  2:{ right. subst ct'. rewrite receive_invalid; [|assumption|tauto]. split; [|auto].
      intros n (HA & _). apply announcement_valid in HA. tauto. }
  destruct (negb (n_self nd) && addr_eqb (m_from m) (n_addr nd)) eqn:EO.
  { right. subst ct'. unfold ctrl_receive, ProtocolMessageReceived. rewrite EO. split; [|auto].
    intros n (HA & _). apply announcement_valid in HA. destruct HA as (HA & _).
    rewrite PropsHandler.own_false in EO by assumption. discriminate EO. }
  pose proof (not_own_of nd m EO) as HO.
  pose proof (receive_valid conf nd ct m r o HR HO HV) as HM. fold ct' in HM. unfold OnMessage in HM.
  destruct (negb (n_self nd) && isSelfMessage conf m) eqn:ES.
  { injection HM as HM. rewrite <- HM. right. split; [|auto]. intros n ((_ & HF & _) & _).
    rewrite self_false in ES by assumption. discriminate ES. }
  assert (HFo : foreign conf nd m).
  { destruct (n_self nd) eqn:EX; [left; assumption|]. right. destruct HO as [HO|HO]; [congruence|]. split; [assumption|].
    intros HS. destruct HS as (p & i & I' & F). cbn [negb andb] in ES.
    rewrite <- Bool.not_true_iff_false in ES. apply ES. unfold isSelfMessage. apply existsb_exists.
    exists (Some p, Some i). split; [assumption|]. cbn [fst snd]. rewrite F. cbn [a_port a_ip].
    rewrite !Z.eqb_refl. reflexivity. }
  destruct (isNodeProfileMessage m) eqn:EP.
  2:{ cbn [bind] in HM. right. split.
      - intros n ((_ & _ & A & B & _) & _). rewrite (proj2 (profile_message_iff m) (conj A B)) in EP. discriminate EP.
      - injection HM as <-. destruct (cc_listener conf); auto. }
  apply profile_message_iff in EP. destruct EP as (HE & HD).
  assert (HA : announcement conf nd m).
  { split; [assumption|]. split; [assumption|]. split; [assumption|]. split; [assumption|].
    destruct HV as ((A & _) & _). congruence. }
  unfold parseNodeProfileMessage in HM. rewrite ES in HM.
  destruct (accepted_dec m HR) as [(codes & HI & HC)|HN].
  - destruct (remote_described conf m codes HR HI HC) as (n & E & D). rewrite E in HM. cbn [bind] in HM.
    unfold addNode in HM. pose proof (known_iff ct n) as KI. destruct (existsb _ _).
    + right. split.
      * intros n' (_ & U & _). apply U. destruct D as (D & _). rewrite <- D. apply KI. reflexivity.
      * injection HM as <-. destruct (cc_listener conf); auto.
    + left. exists n. injection HM as <-. split.
      * split; [assumption|]. split; [|eauto]. destruct D as (D & _). rewrite <- D. intros X. apply KI in X. discriminate X.
      * destruct (cc_listener conf); cbn [ct_found ct_told]; [auto|]. rewrite app_nil_r. auto.
  - destruct (remote_none conf m HR HN) as (e & E). rewrite E in HM. cbn [bind] in HM. right. split.
    + intros n (_ & _ & codes & A & B & _). eauto.
    + injection HM as <-. destruct (cc_listener conf); auto.
Qed.

(** What happens to a controller: messages come in (the local node may change
    between them), and the application clears the table. *)
Inductive ctrl_event : Type :=
| Receives (nd : node) (m : message)
| Clears.

Definition ctrl_step (conf : ctrl_conf) (ct : ctrl) (ev : ctrl_event) : ctrl :=
  match ev with Receives nd m => ctrl_receive conf nd ct m | Clears => Clear ct end.
Definition ctrl_run (conf : ctrl_conf) (evs : list ctrl_event) (ct : ctrl) : ctrl :=
  fold_left (ctrl_step conf) evs ct.
Definition event_ok (ev : ctrl_event) : Prop :=
  match ev with Receives _ m => received m | Clears => True end.

Definition table_ok (conf : ctrl_conf) (ct : ctrl) : Prop :=
  NoDup (map rn_addr (ct_found ct)) /\
  (cc_listener conf = true -> exists before, ct_told ct = before ++ ct_found ct).

Lemma step_ok conf ct ev : event_ok ev -> table_ok conf ct -> table_ok conf (ctrl_step conf ct ev).
Proof.
  intros HE (H1 & H2). destruct ev as [nd m|]; cbn [ctrl_step event_ok] in *.
  - destruct (C38_step conf nd ct m HE) as [(n & (_ & U & codes & _ & _ & D) & F & T)|(_ & F & T)];
      unfold table_ok; rewrite F, T; [|auto]. split.
    + rewrite map_app. cbn [map]. destruct D as (-> & _). apply NoDup_Add with (a := sender conf m) (l := map rn_addr (ct_found ct)).
      * rewrite <- (app_nil_r (map rn_addr (ct_found ct))) at 1. apply Add_app.
      * auto.
    + intros L. destruct (H2 L) as (before & ->). rewrite L. exists before. rewrite app_assoc. reflexivity.
  - unfold table_ok, Clear. cbn [ct_found ct_told map]. split; [constructor|]. intros L.
    exists (ct_told ct). rewrite app_nil_r. reflexivity.
Qed.

Lemma run_table conf evs : forall ct, Forall event_ok evs -> table_ok conf ct -> table_ok conf (ctrl_run conf evs ct).
Proof.
  induction evs as [|ev evs IH]; intros ct HF HT; [assumption|]. inversion HF; subst.
  cbn [ctrl_run fold_left]. apply IH; [assumption|]. apply step_ok; assumption.
Qed.

Lemma run_grows conf evs : forall ct, Forall event_ok evs -> ~ In Clears evs ->
  exists more, ct_found (ctrl_run conf evs ct) = ct_found ct ++ more /\
    ct_told (ctrl_run conf evs ct) = ct_told ct ++ (if cc_listener conf then more else []) /\
    Forall (fun n => exists nd m ct0, In (Receives nd m) evs /\ joins conf nd ct0 m n) more.
Proof.
  induction evs as [|ev evs IH]; intros ct HF HN.
  - exists []. cbn [ctrl_run fold_left]. rewrite !app_nil_r. split; [reflexivity|]. split; [|constructor].
    destruct (cc_listener conf); rewrite app_nil_r; reflexivity.
  - inversion HF as [|? ? HE HF']; subst. cbn [ctrl_run fold_left].
    destruct (IH (ctrl_step conf ct ev) HF') as (more & F & T & A); [intros X; apply HN; right; assumption|].
    fold (ctrl_run conf evs (ctrl_step conf ct ev)). rewrite F, T.
    assert (A' : Forall (fun n => exists nd m ct0, In (Receives nd m) (ev :: evs) /\ joins conf nd ct0 m n) more).
    { eapply Forall_impl; [|exact A]. intros n (nd & m & ct0 & I & J). exists nd, m, ct0. split; [right; assumption|assumption]. }
    destruct ev as [nd m|]; [|exfalso; apply HN; left; reflexivity]. cbn [ctrl_step event_ok] in *.
    destruct (C38_step conf nd ct m HE) as [(n & J & F' & T')|(_ & F' & T')]; rewrite F', T'.
    + exists (n :: more). rewrite <- !app_assoc. split; [reflexivity|]. split; [destruct (cc_listener conf); reflexivity|].
      constructor; [|assumption]. exists nd, m, ct. split; [left; reflexivity|assumption].
    + exists more. auto.
Qed.

(** From a new controller, over any sequence of messages and clearings: no two
    nodes have the same address and port; the application was told about the
    nodes of the table last, once each, in the order of the table. *)
Theorem C38_set : forall conf evs, Forall event_ok evs ->
  let ct := ctrl_run conf evs newCtrl in
  NoDup (map rn_addr (ct_found ct)) /\
  (cc_listener conf = true -> exists before, ct_told ct = before ++ ct_found ct).
Proof.
  intros conf evs HF. apply run_table; [assumption|]. split; [constructor|]. intros _. exists []. reflexivity.
Qed.

(** Without a clearing in between the table only grows at its end, by nodes that
    were announced, and the application is told about exactly those. *)
Theorem C38_grows : forall conf evs evs', Forall event_ok evs -> Forall event_ok evs' -> ~ In Clears evs' ->
  let ct := ctrl_run conf evs newCtrl in let ct' := ctrl_run conf (evs ++ evs') newCtrl in
  exists more, ct_found ct' = ct_found ct ++ more /\
    (cc_listener conf = true -> ct_told ct' = ct_told ct ++ more) /\
    Forall (fun n => exists nd m codes, In (Receives nd m) evs' /\ announcement conf nd m /\
              instance_list m codes /\ describes (sender conf m) codes n) more.
Proof.
  intros conf evs evs' H1 H2 HN ct ct'. subst ct ct'. unfold ctrl_run. rewrite fold_left_app.
  fold (ctrl_run conf evs newCtrl). destruct (run_grows conf evs' (ctrl_run conf evs newCtrl) H2 HN) as (more & F & T & A).
  exists more. split; [exact F|]. split.
  - intros L. unfold ctrl_run in T at 1. rewrite T, L. reflexivity.
  - eapply Forall_impl; [|exact A]. intros n (nd & m & ct0 & I & HA & _ & codes & X & _ & Y). exists nd, m, codes. auto.
Qed.

(** LookupNode finds a node of the table with that address, the first one. *)
Theorem C38_lookup : forall conf evs ip, Forall event_ok evs ->
  let ct := ctrl_run conf evs newCtrl in
  match LookupNode ct ip with
  | Some n => In n (ct_found ct) /\ a_ip (rn_addr n) = ip
  | None => forall n, In n (ct_found ct) -> a_ip (rn_addr n) <> ip
  end.
Proof.
  intros conf evs ip HF ct. unfold LookupNode.
  destruct (find _ (ct_found ct)) as [n|] eqn:E.
  - apply find_some in E. destruct E as (A & B). split; [assumption|lia].
  - intros n I X. pose proof (find_none _ _ E n I) as Y. cbn beta in Y. lia.
Qed.

(** ** C39: announcements cannot break discovery *)

(** The listener of the controller for any message whatsoever whose data are bytes. *)
Theorem C39_no_panic : forall conf self ct m, byte_props m -> exists ct', OnMessage conf self ct m = Ok ct'.
Proof. exact OnMessage_ok. Qed.

(** The whole handler, for everything the transport can deliver: no panic. *)
Theorem C39_receive : forall conf nd ct pending m, received m -> PropsHandler.pending_ok pending ->
  out_reply (ProtocolMessageReceived (ctrl_callbacks conf) ct nd pending m) <> Panic.
Proof.
  intros conf nd ct pending m HR HP.
  destruct (negb (n_self nd) && addr_eqb (m_from m) (n_addr nd)) eqn:EO.
  { unfold ProtocolMessageReceived. rewrite EO. discriminate. }
  pose proof (not_own_of nd m EO) as HO.
  destruct (PropsHandler.valid_dec nd m HR) as [(r & o & HV)|HV].
  - destruct (PropsHandler.handle_valid (ctrl_callbacks conf) ct nd pending m r o HR HP HO HV) as (d & st & E & _ & _ & ->).
    cbn [out_reply]. destruct (r_err st); [discriminate|]. destruct (ESV_IsResponseRequired (m_esv m)); cbn [negb]; [|discriminate].
    destruct HV as ((A & B) & _).
    pose proof (exec_keeps _ _ _ _ _ (ctrl_keeps conf) E) as X. rewrite X.
    rewrite (createResponse_eq _ _ _ _ A B). cbn [bind]. intros X'. discriminate X'.
  - destruct (PropsHandler.handle_invalid (ctrl_callbacks conf) ct nd pending m HR HP HO HV) as (d & resp & -> & _).
    cbn [out_reply]. discriminate.
Qed.

(** A list with fewer codes than its count says is refused, and so is every
    message without an instance list in its first property. *)
Theorem C39_short_refused : forall conf nd ct m p rest count d,
  received m -> m_ep m = p :: rest -> pp_data p = count :: d -> Z.of_nat (length d) < 3 * count ->
  ct_found (ctrl_receive conf nd ct m) = ct_found ct.
Proof.
  intros conf nd ct m p rest count d HR HE HD HL.
  destruct (C38_step conf nd ct m HR) as [(n & (_ & _ & codes & (p' & rest' & tr & _ & E & _ & D & F) & _) & _)|(_ & X & _)];
    [|exact X]. exfalso.
  rewrite HE in E. injection E as <- <-. rewrite HD in D. injection D as -> ->.
  rewrite app_length in HL.
  assert (LC : length (concat codes) = (3 * length codes)%nat).
  { clear -F. induction codes as [|c cs IH]; [reflexivity|]. inversion F; subst. cbn [concat length].
    rewrite app_length, IH by assumption. lia. }
  lia.
Qed.

Theorem C39_other_refused : forall conf nd ct m, received m -> (forall codes, ~ instance_list m codes) ->
  ct_found (ctrl_receive conf nd ct m) = ct_found ct.
Proof.
  intros conf nd ct m HR HN.
  destruct (C38_step conf nd ct m HR) as [(n & (_ & _ & codes & X & _) & _)|(_ & X & _)]; [|exact X].
  exfalso. exact (HN codes X).
Qed.

(** ** C40: re-announcements *)

(** The full claim. *)
Definition refreshes : Prop := forall conf nd ct m codes,
  announcement conf nd m -> instance_list m codes -> Forall acceptable codes -> known ct (sender conf m) ->
  exists n, In n (ct_found (ctrl_receive conf nd ct m)) /\ rn_addr n = sender conf m /\
    map o_codes (rn_devices n) = filter (fun c => negb (is_profile c)) codes.

(** It fails for every table with a known sender: nothing a known sender
    announces changes the table. *)
Theorem C40_stale : forall conf nd ct m, received m -> known ct (sender conf m) ->
  ct_found (ctrl_receive conf nd ct m) = ct_found ct.
Proof.
  intros conf nd ct m HR HK. destruct (C38_step conf nd ct m HR) as [(n & (_ & U & _) & _)|(_ & X & _)]; [contradiction|exact X].
Qed.

(** What holds: the view is right as long as the list is the one first announced,
    and after a clearing the next announcement is recorded as announced. *)
Theorem C40_unchanged_partial : forall conf nd nd' ct m m' codes,
  announcement conf nd m -> ~ known ct (sender conf m) -> instance_list m codes -> Forall acceptable codes ->
  received m' -> sender conf m' = sender conf m ->
  let ct' := ctrl_receive conf nd' (ctrl_receive conf nd ct m) m' in
  exists n, In n (ct_found ct') /\ rn_addr n = sender conf m' /\
    map o_codes (rn_devices n) = filter (fun c => negb (is_profile c)) codes.
Proof.
  intros conf nd nd' ct m m' codes HA HU HI HC HR' HS ct'.
  destruct (C37_discovered_partial conf nd ct m codes HA HU HI HC) as (n & F & (A & _) & M & _).
  exists n. subst ct'. rewrite C40_stale; [|assumption|].
  - rewrite F, HS. split; [apply in_app_iff; right; left; reflexivity|]. auto.
  - unfold known. rewrite F, HS, map_app. apply in_app_iff. right. left. assumption.
Qed.

Theorem C40_cleared : forall conf nd ct m codes,
  announcement conf nd m -> instance_list m codes -> Forall acceptable codes ->
  exists n, ct_found (ctrl_receive conf nd (Clear ct) m) = [n] /\ rn_addr n = sender conf m /\
    map o_codes (rn_devices n) = filter (fun c => negb (is_profile c)) codes.
Proof.
  intros conf nd ct m codes HA HI HC.
  destruct (C37_discovered_partial conf nd (Clear ct) m codes HA) as (n & F & (A & _) & M & _); auto.
  exists n. auto.
Qed.

(** ** C41: searches *)

(** The full claim for an object code and a service. *)
Definition search_reaches (code esv : Z) : Prop := forall nd, 0 <= n_lastTID nd <= 65535 -> n_running nd = true ->
  exists m, n_sent (fst (SearchObjectWithESV nd code esv)) = n_sent nd ++ [Multicast m] /\
    DEOJ m = code /\ SEOJ m = 0x0EF001 /\ m_esv m = esv /\ m_ep m = [mkPProp 0xD6 []].

Lemma search_sent mid t esv : 0 <= t < 65536 -> 0 <= esv < 256 ->
  (exists code, mid = SetDEOJ (SetESV newSearchMessage esv) code) \/ mid = SetESV newSearchMessage esv ->
  let m := SetDEOJ (SetTID mid t) 0x0EF001 in
  TID m = t /\ DEOJ m = 0x0EF001 /\ SEOJ m = 0x0EF001 /\ m_esv m = esv /\ m_ep m = [mkPProp 0xD6 []] /\
  Bytes m = Ok (wire_frame t 0x0EF001 0x0EF001 esv [(0xD6, [])]).
Proof.
  intros HT HV HM m.
  assert (HR : represents m (mkContent t 0x0EF001 0x0EF001 esv [(0xD6, [])])).
  { destruct HM as [(code & ->)| ->].
    - apply (built_represents [OSetESV 0x62; OSetSEOJ 0x0EF001; OSetDEOJ 0x0EF001; OAddProperty 0xD6 [];
        OSetESV esv; OSetDEOJ code; OSetTID t; OSetDEOJ 0x0EF001]).
    - apply (built_represents [OSetESV 0x62; OSetSEOJ 0x0EF001; OSetDEOJ 0x0EF001; OAddProperty 0xD6 [];
        OSetESV esv; OSetTID t; OSetDEOJ 0x0EF001]). }
  pose proof HR as (R1 & R2 & R3 & R4 & R5 & R6 & R7 & R8). cbn [c_tid c_seoj c_deoj c_esv c_props] in *.
  split. { unfold TID. rewrite <- R3. rewrite SetTID_TID by lia. cbn [fst snd].
           rewrite Z.shiftl_mul_pow2 by lia. change (2 ^ 8) with 256. pose proof (Z.div_mod t 256). lia. }
  split. { unfold DEOJ. rewrite R5. reflexivity. }
  split. { unfold SEOJ. rewrite R4. reflexivity. }
  split; [assumption|]. split; [assumption|].
  apply (represents_Bytes m _ HR).
  split; [assumption|]. split; [cbn; lia|]. split; [cbn; lia|]. split; [cbn; lia|].
  split; [cbn; lia|]. constructor; [|constructor]. split; [cbn; lia|]. split; [cbn; lia|constructor].
Qed.

(** What is sent, for every code and service; missing: the destination. *)
Theorem C41_search_partial : forall nd code esv, 0 <= n_lastTID nd <= 65535 -> n_running nd = true ->
  0 <= esv < 256 ->
  exists m, n_sent (fst (SearchObjectWithESV nd code esv)) = n_sent nd ++ [Multicast m] /\
    snd (SearchObjectWithESV nd code esv) = None /\
    DEOJ m = 0x0EF001 /\ SEOJ m = 0x0EF001 /\ m_esv m = esv /\ m_ep m = [mkPProp 0xD6 []] /\
    Bytes m = Ok (wire_frame ((n_lastTID nd + 1) mod 65536) 0x0EF001 0x0EF001 esv [(0xD6, [])]).
Proof.
  intros nd code esv HT HR HV. unfold SearchObjectWithESV.
  destruct (search_sent (SetDEOJ (SetESV newSearchMessage esv) code) ((n_lastTID nd + 1) mod 65536) esv)
    as (_ & A); [apply Z.mod_pos_bound; lia|assumption|eauto|].
  rewrite AnnounceMessage_run by assumption. cbv zeta. eexists. split; [reflexivity|].
  split; [reflexivity|]. exact A.
Qed.

(** The search for all objects is addressed to the node profiles, as intended. *)
Theorem C41_search_all : forall nd esv, 0 <= n_lastTID nd <= 65535 -> n_running nd = true ->
  0 <= esv < 256 ->
  exists m, n_sent (fst (SearchAllObjectsWithESV nd esv)) = n_sent nd ++ [Multicast m] /\
    snd (SearchAllObjectsWithESV nd esv) = None /\
    DEOJ m = 0x0EF001 /\ SEOJ m = 0x0EF001 /\ m_esv m = esv /\ m_ep m = [mkPProp 0xD6 []] /\
    Bytes m = Ok (wire_frame ((n_lastTID nd + 1) mod 65536) 0x0EF001 0x0EF001 esv [(0xD6, [])]).
Proof.
  intros nd esv HT HR HV. unfold SearchAllObjectsWithESV.
  destruct (search_sent (SetESV newSearchMessage esv) ((n_lastTID nd + 1) mod 65536) esv)
    as (_ & A); [apply Z.mod_pos_bound; lia|assumption|auto|].
  rewrite AnnounceMessage_run by assumption. cbv zeta. eexists. split; [reflexivity|].
  split; [reflexivity|]. exact A.
Qed.

(** A node that is not running sends nothing and says so. *)
Theorem C41_not_running : forall nd code esv, n_running nd = false ->
  fst (SearchObjectWithESV nd code esv) = nd /\ snd (SearchObjectWithESV nd code esv) <> None /\
  fst (SearchAllObjectsWithESV nd esv) = nd /\ snd (SearchAllObjectsWithESV nd esv) <> None.
Proof.
  intros nd code esv H. unfold SearchObjectWithESV, SearchAllObjectsWithESV, AnnounceMessage. rewrite H.
  repeat split; discriminate.
Qed.

(** The full claim holds for no other code than that of the node profile. *)
Theorem C41_search_refuted : forall code esv, 0 <= code < 2 ^ 24 -> 0 <= esv < 256 ->
  search_reaches code esv <-> code = 0x0EF001.
Proof.
  intros code esv HC HV. split.
  - intros H. set (nd := mkNode [] [] 0 0 true NewAddress true []).
    destruct (H nd) as (m & E & D & _); [cbn; lia|reflexivity|].
    destruct (C41_search_partial nd code esv) as (m' & E' & _ & D' & _); [cbn; lia|reflexivity|assumption|].
    rewrite E in E'. apply app_inv_head in E'. injection E' as <-. congruence.
  - intros -> nd HT HR. destruct (C41_search_partial nd 0x0EF001 esv HT HR HV) as (m & A & _ & B & C & D & E & _).
    exists m. auto.
Qed.

(** ** Examples *)

Definition ex_conf : ctrl_conf := mkConf false true [(Some 3610, Some 7); (None, Some 8)].
Definition ex_ctrl_node : node := mkNode [] [np_object] 0 0 true (mkAddress 7 3610) false [].

(** Two nodes announce lights, an air conditioner and a node profile; the first
    one announces again with a changed list; an announcement with a device of an
    unlisted class; a short list; a message of the controller's own server. *)
Definition ex_from (ip : Z) (count : Z) (codes : list Z) : message :=
  let area := count :: codes in
  match NewMessageWithBytes ([0x10; 0x81; 0; 1; 0x0E; 0xF0; 1; 0x0E; 0xF0; 1; 0x73; 1; 0xD5; len area] ++ area) with
  | Ok m => SetPacketType (SetFrom m (mkAddress ip 50000)) 2
  | _ => NewMessage
  end.
Definition ex_events : list ctrl_event :=
  map (Receives ex_ctrl_node)
    [ex_from 1 2 [2; 0x90; 1; 1; 0x30; 1]; ex_from 2 2 [0x0E; 0xF0; 1; 2; 0x90; 2];
     ex_from 1 1 [2; 0x90; 9]; ex_from 3 1 [0xFE; 0xFE; 1]; ex_from 4 2 [2; 0x90; 1];
     SetFrom (ex_from 7 1 [2; 0x90; 1]) (mkAddress 7 3610)].
Definition ex_view (ct : ctrl) := map (fun n => (rn_addr n, map o_codes (rn_devices n), map o_codes (rn_profiles n))) (ct_found ct).

Example C37_example :
  ex_view (ctrl_run ex_conf ex_events newCtrl) =
  [(mkAddress 1 3610, [[2; 0x90; 1]; [1; 0x30; 1]], [[0x0E; 0xF0; 1]; [0x0E; 0xF0; 1]]);
   (mkAddress 2 3610, [[2; 0x90; 2]], [[0x0E; 0xF0; 1]; [0x0E; 0xF0; 1]; [0x0E; 0xF0; 1]])].
Proof. vm_compute. reflexivity. Qed.

Example C37_ports_example :
  map rn_addr (ct_found (ctrl_run (mkConf true true []) ex_events newCtrl)) = [mkAddress 1 50000; mkAddress 2 50000].
Proof. vm_compute. reflexivity. Qed.

(** The hypotheses of C37 hold for the first message. *)
Lemma ex_received ip count codes : is_bytes [ip] -> is_bytes (count :: codes) -> (length codes <= 250)%nat ->
  received (ex_from ip count codes).
Proof.
  intros _ HB HL. unfold ex_from.
  assert (B : is_bytes ([0x10; 0x81; 0; 1; 0x0E; 0xF0; 1; 0x0E; 0xF0; 1; 0x73; 1; 0xD5; len (count :: codes)] ++ (count :: codes))).
  { apply Forall_app. split; [|exact HB]. rewrite len_cons. unfold len.
    repeat (apply Forall_cons; [unfold is_byte; clear HB; lia|]). apply Forall_nil. }
  destruct (NewMessageWithBytes _) as [m| |] eqn:E.
  - eexists _, m, _, 2. split; [exact B|]. split; [exact E|]. reflexivity.
  - exfalso. cbn [app] in *. rewrite ParseBytes_long in E by assumption. discriminate E.
  - exfalso. cbn [app] in *. rewrite ParseBytes_long in E by assumption. discriminate E.
Qed.

Lemma ex_announcement ip codes count : 0 <= ip < 7 -> is_bytes (count :: codes) -> (length codes <= 250)%nat ->
  m_esv (ex_from ip count codes) = 0x73 -> DEOJ (ex_from ip count codes) = 0x0EF001 ->
  m_from (ex_from ip count codes) = mkAddress ip 50000 ->
  announcement ex_conf ex_ctrl_node (ex_from ip count codes).
Proof.
  intros HI HB HL V D F. split.
  { apply ex_received; [|assumption|assumption]. constructor; [|constructor]. unfold is_byte. lia. }
  split.
  { right. rewrite F. split; [intros [= X]; lia|]. intros (p & i & I & E). rewrite F in E. injection E as <- <-.
    cbn [ex_conf cc_servers In] in I. destruct I as [I|[I|[]]]; [injection I; lia|discriminate I]. }
  rewrite V, D. split; [cbn [In]; tauto|]. split; [cbn [In]; tauto|]. vm_compute. discriminate.
Qed.

Lemma light_known n : is_byte n -> acceptable [2; 0x90; n].
Proof.
  intros H. right. unfold known_class. rewrite be_value3. unfold is_byte in H.
  assert (X : exists k, In k mra_table /\ cl_grp k = 2 /\ cl_cls k = 0x90).
  { assert (E : existsb (fun k => (cl_grp k =? 2) && (cl_cls k =? 0x90)) mra_table = true) by (vm_compute; reflexivity).
    apply existsb_exists in E. destruct E as (k & I & E). exists k. split; [assumption|]. lia. }
  destruct X as (k & I & G & C). exists k. split; [assumption|]. split.
  - rewrite G. replace (2 * 65536 + 144 * 256 + n) with ((0x90 * 256 + n) + 2 * 65536) by lia.
    rewrite Z.div_add by lia. rewrite Z.div_small by lia. reflexivity.
  - rewrite C. replace (2 * 65536 + 144 * 256 + n) with (n + 0x290 * 256) by lia.
    rewrite Z.div_add by lia. rewrite Z.div_small by lia. reflexivity.
Qed.

Example C37_hypotheses_example :
  announcement ex_conf ex_ctrl_node (ex_from 1 2 [2; 0x90; 1; 2; 0x90; 2]) /\
  instance_list (ex_from 1 2 [2; 0x90; 1; 2; 0x90; 2]) [[2; 0x90; 1]; [2; 0x90; 2]] /\
  Forall acceptable [[2; 0x90; 1]; [2; 0x90; 2]] /\ ~ known newCtrl (sender ex_conf (ex_from 1 2 [2; 0x90; 1; 2; 0x90; 2])).
Proof.
  assert (B : forall l, forallb (fun b => (0 <=? b) && (b <? 256)) l = true -> is_bytes l).
  { intros l H. apply Forall_forall. intros b Hb. rewrite forallb_forall in H. specialize (H b Hb). unfold is_byte. lia. }
  split; [|split; [|split]].
  - apply ex_announcement; [lia|apply B; reflexivity|cbn; lia|vm_compute; reflexivity..].
  - exists (mkPProp 0xD5 [2; 2; 0x90; 1; 2; 0x90; 2]), [], []. split; [vm_compute; discriminate|].
    split; [vm_compute; reflexivity|]. split; [left; reflexivity|]. split; [reflexivity|].
    constructor; [reflexivity|]. constructor; [reflexivity|]. constructor.
  - constructor; [|constructor; [|constructor]]; apply light_known; unfold is_byte; lia.
  - intros [].
Qed.

(** The full claim C40 is false: a known node announces one light, has two, and
    the table keeps two. *)
Theorem C40_refresh_refuted : ~ refreshes.
Proof.
  intros H.
  assert (B : forall l, forallb (fun b => (0 <=? b) && (b <? 256)) l = true -> is_bytes l).
  { intros l H'. apply Forall_forall. intros b Hb. rewrite forallb_forall in H'. specialize (H' b Hb). unfold is_byte. lia. }
  set (ct := ctrl_receive ex_conf ex_ctrl_node newCtrl (ex_from 1 2 [2; 0x90; 1; 2; 0x90; 2])).
  assert (F : map rn_addr (ct_found ct) = [mkAddress 1 3610] /\
              map (fun n => map o_codes (rn_devices n)) (ct_found ct) = [[[2; 0x90; 1]; [2; 0x90; 2]]])
    by (split; vm_compute; reflexivity).
  destruct F as (F1 & F2).
  assert (HR : received (ex_from 1 1 [2; 0x90; 9])).
  { apply ex_received; [apply B; reflexivity|apply B; reflexivity|cbn; lia]. }
  assert (HK : known ct (sender ex_conf (ex_from 1 1 [2; 0x90; 9]))) by (unfold known; rewrite F1; left; vm_compute; reflexivity).
  destruct (H ex_conf ex_ctrl_node ct (ex_from 1 1 [2; 0x90; 9]) [[2; 0x90; 9]]) as (n & I & _ & M).
  - apply ex_announcement; [lia|apply B; reflexivity|cbn; lia|vm_compute; reflexivity..].
  - exists (mkPProp 0xD5 [1; 2; 0x90; 9]), [], []. split; [vm_compute; discriminate|].
    split; [vm_compute; reflexivity|]. split; [left; reflexivity|]. split; [reflexivity|].
    constructor; [reflexivity|]. constructor.
  - constructor; [|constructor]. apply light_known. unfold is_byte. lia.
  - exact HK.
  - rewrite C40_stale in I by assumption. clearbody ct.
    apply (in_map (fun n => map o_codes (rn_devices n))) in I. rewrite F2, M in I.
    destruct I as [I|[]]. discriminate I.
Qed.

Example C38_example :
  let ct := ctrl_run ex_conf (ex_events ++ [Clears] ++ ex_events) newCtrl in
  map rn_addr (ct_found ct) = [mkAddress 1 3610; mkAddress 2 3610] /\
  map rn_addr (ct_told ct) = [mkAddress 1 3610; mkAddress 2 3610; mkAddress 1 3610; mkAddress 2 3610] /\
  length (ct_messages ct) = 10%nat.
Proof. vm_compute. auto. Qed.

Example C39_example :
  map (fun m => match OnMessage ex_conf false newCtrl m with Ok ct => Some (length (ct_found ct)) | _ => None end)
    [ex_from 4 2 [2; 0x90; 1]; ex_from 4 255 []; ex_from 4 0 []; ex_from 4 1 [2; 0x90; 1; 9; 9]] =
  [Some 0; Some 0; Some 1; Some 1]%nat.
Proof. vm_compute. reflexivity. Qed.

Example C40_example :
  ex_view (ctrl_run ex_conf (map (Receives ex_ctrl_node) [ex_from 1 2 [2; 0x90; 1; 2; 0x90; 2]; ex_from 1 1 [2; 0x90; 9]]) newCtrl) =
  [(mkAddress 1 3610, [[2; 0x90; 1]; [2; 0x90; 2]], [[0x0E; 0xF0; 1]; [0x0E; 0xF0; 1]])].
Proof. vm_compute. reflexivity. Qed.

Example C41_example :
  map (fun s => Bytes (sent_message s)) (n_sent (fst (SearchObjectWithESV ex_ctrl_node 0x029001 0x63))) =
  [Ok [0x10; 0x81; 0; 1; 0x0E; 0xF0; 1; 0x0E; 0xF0; 1; 0x63; 1; 0xD6; 0]].
Proof. vm_compute. reflexivity. Qed.

Print Assumptions C37_discovered_partial.
Print Assumptions C37_startup_partial.
Print Assumptions C37_unknown_class_refuted.
Print Assumptions C38_step.
Print Assumptions C38_set.
Print Assumptions C38_grows.
Print Assumptions C38_lookup.
Print Assumptions C39_no_panic.
Print Assumptions C39_receive.
Print Assumptions C39_short_refused.
Print Assumptions C39_other_refused.
Print Assumptions C40_stale.
Print Assumptions C40_unchanged_partial.
Print Assumptions C40_cleared.
Print Assumptions C40_refresh_refuted.
Print Assumptions C41_search_partial.
Print Assumptions C41_search_all.
Print Assumptions C41_not_running.
Print Assumptions C41_search_refuted.

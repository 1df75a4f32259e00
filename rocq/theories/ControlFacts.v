(** Facts about the network model with requests. *)

From Verif Require Import Go GoFacts Encoding EncodingFacts Protocol Parser MessageFacts ParserFacts
  ProtocolFacts Reader StdDB Property PropertyFacts Object ObjectFacts Spec Node NodeFacts
  Handler HandlerFacts PropsHandler Remote RemoteFacts PropsRemote Transport TransportFacts Exchange ExchangeFacts
  PropsExchange PropsSearch Concurrent ConcurrentFacts PropsConcurrent PropsMemory Lan LanFacts Control.
From Verif Require PropsProtocol PropsNode.
From Coq Require Import ZifyBool ZifyNat.
Local Open Scope Z_scope.

(** ** Datagrams *)

(** The bytes of a frame to that object with that service. *)
Definition framed (b deoj : list Z) (esv : Z) : Prop :=
  is_bytes b /\ exists h o area, length h = 5%nat /\ length deoj = 3%nat /\ b = 0x10 :: 0x81 :: h ++ deoj ++ esv :: o :: area.

Lemma read_received d m pt : is_bytes (d_bytes d) -> ReadMessage d = Ok m -> received (SetPacketType m pt) /\ m_from m = d_from d.
Proof.
  intros HB E. unfold ReadMessage in E. destruct (NewMessageWithBytes _) as [x| |] eqn:EX; cbn [bind] in E; try discriminate E.
  injection E as <-. split; [|reflexivity]. eexists _, x, _, _. split; [|split; [exact EX|reflexivity]].
  apply Forall_firstn. exact HB.
Qed.

Lemma framed_read b deoj esv a m : framed b deoj esv -> ReadMessage (mkDatagram b a) = Ok m -> m_deoj m = deoj /\ m_esv m = esv.
Proof.
  intros (HB & h & o & area & HL & HD & ->) E. unfold ReadMessage in E. rewrite max_packet in E. cbn [d_bytes] in E.
  do 5 (destruct h as [|? h]; [discriminate HL|]). destruct h; [|discriminate HL].
  do 3 (destruct deoj as [|? deoj]; [discriminate HD|]). destruct deoj; [|discriminate HD]. cbn [app] in *.
  rewrite !firstn_cons in E. rewrite ParseBytes_long in E.
  - cbn [Z.eqb Pos.eqb andb bind] in E. injection E as <-. split; reflexivity.
  - unfold is_bytes in *. do 12 (apply Forall_cons_iff in HB as [? HB]; apply Forall_cons; [assumption|]).
    apply Forall_firstn. exact HB.
Qed.

(** A message made by the library. *)
Definition clean (m : message) : Prop :=
  exists c, represents m c /\ Forall (fun p => is_bytes (snd p)) (c_props c) /\ is_byte (c_esv c).

Lemma raw_bytes ps : Forall (fun p => is_bytes (pp_data p)) ps -> is_bytes (flat_map raw_prop ps).
Proof.
  induction 1 as [|p ps H _ IH]; [constructor|]. cbn [flat_map]. apply Forall_app. split; [|exact IH].
  unfold raw_prop. constructor; [apply Z.mod_pos_bound; lia|]. constructor; [apply Z.mod_pos_bound; lia|exact H].
Qed.

Lemma clean_frame m : clean m -> exists b, Bytes m = Ok b /\ framed b (m_deoj m) (m_esv m).
Proof.
  intros (c & HR & HP & HE). pose proof (represents_shape m c HR) as HS. exists (raw_header m ++ flat_map raw_prop (visited m)).
  split; [apply Bytes_general, HS|]. destruct HR as (R1 & R2 & R3 & R4 & R5 & R6 & R7 & R8).
  pose proof (SetTID_bytes m (c_tid c)) as (T1 & T2). rewrite R3 in T1, T2. split.
  - apply Forall_app. split.
    + unfold raw_header. rewrite R1, R2, R4, R5, R6, R8.
      repeat (apply Forall_app; split); try apply IntegerToByte_bytes.
      all: repeat apply Forall_cons; try apply Forall_nil; try assumption; unfold is_byte; try lia; apply Z.mod_pos_bound; lia.
    + apply raw_bytes. unfold visited. apply Forall_firstn. rewrite R7. apply Forall_map. exact HP.
  - exists ([fst (m_tid m); snd (m_tid m)] ++ m_seoj m), (m_opc m), (flat_map raw_prop (visited m)).
    destruct HS as (S1 & S2). split; [rewrite !app_length, S1; reflexivity|]. split; [exact S2|].
    unfold raw_header. rewrite R1, R2. rewrite <- !app_assoc. reflexivity.
Qed.

(** A search, or a notification. *)
Definition harmless (m : message) : Prop := clean m /\ In (m_esv m) [0x62; 0x63; 0x73].

(** What the nodes send to everybody. *)
Definition spoken (m : message) : Prop := harmless m /\ m_deoj m = [0x0E; 0xF0; 0x01].

(** ** A member does something *)

(** A node as the library leaves it, with values of up to 255 bytes. *)
Definition short (o : object) : Prop := Forall (fun p => (length (p_data p) <= 255)%nat) (o_props o).
Definition minv (nd : node) : Prop :=
  core_inv (core_of nd) /\ tid_ok nd /\ Forall short (n_devices nd) /\ Forall short (n_profiles nd).

(** What a node keeps. *)
Definition kept (nd nd' : node) : Prop :=
  map o_codes (n_devices nd') = map o_codes (n_devices nd) /\ map o_codes (n_profiles nd') = map o_codes (n_profiles nd) /\
  n_addr nd' = n_addr nd /\ n_self nd' = n_self nd /\ n_running nd' = n_running nd.

Definition goes (nd nd' : node) : Prop :=
  minv nd' /\ kept nd nd' /\ exists ms, n_sent nd' = n_sent nd ++ map Multicast ms /\ Forall spoken ms.

Lemma kept_refl nd : kept nd nd.
Proof. unfold kept. auto 10. Qed.
Lemma kept_trans a b c : kept a b -> kept b c -> kept a c.
Proof. intros (A1 & A2 & A3 & A4 & A5) (B1 & B2 & B3 & B4 & B5). unfold kept. rewrite B1, B2, B3, B4, B5. auto 10. Qed.

Lemma goes_refl nd : minv nd -> goes nd nd.
Proof. intros H. split; [exact H|]. split; [apply kept_refl|]. exists []. split; [symmetry; apply app_nil_r|constructor]. Qed.
Lemma goes_trans a b c : goes a b -> goes b c -> goes a c.
Proof.
  intros (_ & K1 & ms1 & E1 & F1) (I2 & K2 & ms2 & E2 & F2). split; [exact I2|]. split; [eapply kept_trans; eassumption|].
  exists (ms1 ++ ms2). rewrite E2, E1, map_app, app_assoc. split; [reflexivity|apply Forall_app; auto].
Qed.

Lemma kept_core nd nd' : core_of nd' = core_of nd -> n_addr nd' = n_addr nd -> n_self nd' = n_self nd -> kept nd nd'.
Proof.
  intros E A B. pose proof (f_equal k_devs E) as E1. pose proof (f_equal k_profs E) as E2. pose proof (f_equal k_run E) as E3.
  cbn [core_of k_devs k_profs k_run] in *. unfold kept. rewrite E1, E2, E3. auto 10.
Qed.

Lemma minv_core nd nd' : core_of nd' = core_of nd -> tid_ok nd' -> minv nd -> minv nd'.
Proof.
  intros E T (H1 & _ & H3 & H4). pose proof (f_equal k_devs E) as E1. pose proof (f_equal k_profs E) as E2.
  cbn [core_of k_devs k_profs] in *. unfold minv. rewrite E, E1, E2. auto.
Qed.

Lemma clean_header m t : clean m -> clean (SetDEOJ (SetTID m t) 0x0EF001).
Proof.
  intros (c & (R1 & R2 & R3 & R4 & R5 & R6 & R7 & R8) & HP & HE).
  exists (mkContent t (c_seoj c) 0x0EF001 (c_esv c) (c_props c)). split; [|auto].
  repeat split; try assumption. unfold SetDEOJ. cbn [with_deoj m_deoj SetTID with_tid c_deoj].
  rewrite R5, IntegerToByte_length. reflexivity.
Qed.

Lemma announce_goes nd m : minv nd -> harmless m -> goes nd (fst (AnnounceMessage nd m)).
Proof.
  intros H (HC & HN). destruct (n_running nd) eqn:HR.
  - rewrite AnnounceMessage_run by (try apply H; exact HR). cbn [fst]. split; [|split].
    + apply (minv_core nd); [reflexivity| |exact H]. unfold tid_ok. cbn [hand_over with_lastTID n_lastTID]. pose proof (mod_tid (n_lastTID nd + 1)). lia.
    + apply kept_core; reflexivity.
    + eexists [_]. split; [reflexivity|]. constructor; [|constructor].
      destruct HC as (c & HC & HP). split; [split; [apply clean_header; exists c; auto|exact HN]|].
      unfold SetDEOJ. cbn [with_deoj m_deoj SetTID with_tid]. destruct HC as (_ & _ & _ & _ & -> & _). rewrite IntegerToByte_length. reflexivity.
  - unfold AnnounceMessage. rewrite HR. cbn [negb fst]. apply goes_refl, H.
Qed.

Lemma search_goes nd esv : minv nd -> In esv [0x62; 0x63] -> goes nd (fst (SearchAllObjectsWithESV nd esv)).
Proof.
  intros H HE. apply announce_goes; [exact H|]. split.
  - exists (mkContent 0 0x0EF001 0x0EF001 esv [(0xD6, [])]). split.
    + apply (built_represents [OSetESV 0x62; OSetSEOJ 0x0EF001; OSetDEOJ 0x0EF001; OAddProperty 0xD6 []; OSetESV esv]).
    + split; [repeat constructor|]. cbn [c_esv In] in *. unfold is_byte. lia.
  - change (m_esv _) with esv. cbn [In] in *. lia.
Qed.

Lemma told_harmless code p : is_bytes (pp_data p) ->
  harmless (AddProperty (SetSEOJ (SetESV NewMessage ESVNotification) code) p).
Proof.
  intros HB. split.
  - exists (mkContent 0 code 0 0x73 [(pp_code p, pp_data p)]). split.
    + destruct p as [pc pd]. apply (built_represents [OSetESV 0x73; OSetSEOJ code; OAddProperty pc pd]).
    + split; [repeat constructor; exact HB|]. cbn [c_esv]. unfold is_byte. lia.
  - change (m_esv _) with 0x73. cbn [In]. lia.
Qed.

Lemma property_goes nd code p : minv nd -> is_bytes (pp_data p) -> goes nd (fst (AnnounceProperty nd code p)).
Proof. intros H HB. apply announce_goes; [exact H|]. apply told_harmless, HB. Qed.

Lemma bytes_of nd o c p : core_inv (core_of nd) -> In o (n_devices nd ++ n_profiles nd) -> LookupProperty (o_props o) c = Some p ->
  is_bytes (p_data p).
Proof.
  intros (H1 & H2 & _) HI HL. cbn [core_of k_devs k_profs] in *. rewrite Forall_forall in H1, H2.
  assert (HO : obj_ok o) by (apply in_app_or in HI as [HI|HI]; auto). destruct HO as (_ & HW). apply (wf_lookup _ _ _ HW HL).
Qed.

Lemma obj_in nd r o : obj_at nd r = Some o -> In o (n_devices nd ++ n_profiles nd).
Proof. destruct r as [i|i]; cbn [obj_at]; intros H; apply in_or_app; [left|right]; eapply nth_error_In, H. Qed.

Lemma Announce_goes nd : minv nd -> goes nd (fst (Announce nd)).
Proof.
  intros H. unfold Announce. destruct (NodeProfile nd) as [r|]; [|apply goes_refl, H].
  destruct (obj_at nd r) as [o|] eqn:EO; [|apply goes_refl, H]. destruct (LookupProperty _ _) as [p|] eqn:EP; [|apply goes_refl, H].
  apply property_goes; [exact H|]. eapply bytes_of; [apply H|eapply obj_in, EO|exact EP].
Qed.

Lemma announce_all_goes evs : forall nd code, minv nd -> Forall (fun p => is_bytes (pp_data p)) evs -> goes nd (announce_all nd code evs).
Proof.
  induction evs as [|p evs IH]; intros nd code H HF; [apply goes_refl, H|]. inversion HF as [|? ? H1 H2]; subst.
  unfold announce_all. cbn [fold_left]. fold (announce_all (match fst (prop_Announce (Some nd) code p) with Some nd' => nd' | None => nd end) code evs).
  assert (G : goes nd (match fst (prop_Announce (Some nd) code p) with Some nd' => nd' | None => nd end)).
  { unfold prop_Announce. destruct (negb (n_running nd)); cbn [fst]; [apply goes_refl, H|].
    pose proof (property_goes nd code p H H1) as X. destruct (AnnounceProperty nd code p). exact X. }
  eapply goes_trans; [exact G|]. apply IH; [apply G|exact H2].
Qed.

Lemma short_setd o c d : short o -> (length d <= 255)%nat -> short (setd c d o).
Proof.
  intros H HL. unfold short, setd in *. cbn [Object.with_props o_props]. induction (o_props o) as [|p ps IH]; [constructor|].
  inversion H; subst. cbn [set_data]. destruct (p_code p =? c); constructor; auto.
Qed.

Lemma written_goes nd r p : minv nd -> value (pp_data p) -> goes nd (written r nd p).
Proof.
  intros H (HL & HB). unfold written, on_object. destruct (obj_at nd r) as [o|] eqn:EO; [|apply goes_refl, H].
  pose proof (SetPropertyData_setd o (pp_code p) (pp_data p)) as ES.
  destruct (SetPropertyData o (pp_code p) (pp_data p)) as [[o' evs] e] eqn:EP. cbn [fst] in *. subst o'. unfold commit.
  set (o' := setd (pp_code p) (pp_data p) o).
  assert (EV : Forall (fun q => is_bytes (pp_data q)) evs).
  { unfold SetPropertyData, SetPropertyDataMap, lift_props in EP. destruct (LookupProperty _ _) as [q|];
      apply (f_equal (fun x => snd (fst x))) in EP; cbn [fst snd] in EP; subst evs; [|constructor].
    unfold Property.announcement. destruct (IsAnnounceable (with_data q (pp_data p))); [|constructor]. constructor; [exact HB|constructor]. }
  assert (EC : core_of (put_at nd r o') = core_step (NSetData r (pp_code p) (pp_data p)) (core_of nd)).
  { destruct r as [i|i]; cbn [obj_at] in EO; cbn [core_step put_core put_at with_objects core_of k_devs k_profs n_devices n_profiles];
      unfold put_list; cbn [core_of k_devs k_profs]; rewrite EO; reflexivity. }
  pose proof H as (HI & HT & S1 & S2).
  assert (SO : short o') by (apply short_setd; [|exact HL]; destruct r as [i|i]; cbn [obj_at] in EO;
    [rewrite Forall_forall in S1; apply S1|rewrite Forall_forall in S2; apply S2]; eapply nth_error_In, EO).
  assert (G : goes nd (put_at nd r o')).
  { split; [|split].
    - split; [rewrite EC; apply core_step_inv; [exact HI|exact HB]|].
      split; [destruct r; exact HT|]. destruct r as [i|i]; cbn [put_at with_objects n_devices n_profiles]; split; try assumption; apply Forall_set_nth; assumption.
    - unfold kept. assert (X : forall l i, nth_error l i = Some o -> map o_codes (set_nth l i o') = map o_codes l).
      { intros l i E. pose proof (put_codes l i (setd (pp_code p) (pp_data p)) (fun o => setd_grows _ _ o)) as P. unfold put_list in P. rewrite E in P. exact P. }
      destruct r as [i|i]; cbn [put_at with_objects n_devices n_profiles n_addr n_self n_running obj_at] in *; rewrite (X _ _ EO); auto 10.
    - exists []. split; [destruct r; symmetry; apply app_nil_r|constructor]. }
  eapply goes_trans; [exact G|]. apply announce_all_goes; [apply G|exact EV].
Qed.

Lemma written_all_goes r ps : forall nd, minv nd -> Forall (fun p => value (pp_data p)) ps -> goes nd (fold_left (written r) ps nd).
Proof.
  induction ps as [|p ps IH]; intros nd H HF; [apply goes_refl, H|]. inversion HF; subst. cbn [fold_left].
  pose proof (written_goes nd r p H ltac:(assumption)) as G. eapply goes_trans; [exact G|]. apply IH; [apply G|assumption].
Qed.

(** ** A member handles a message *)

Lemma impossible_harmless esv : ~ In (impossible_esv esv) spec_request.
Proof.
  unfold impossible_esv. repeat match goal with |- context [if ?c then _ else _] => destruct c end; vm_compute; intuition discriminate.
Qed.
Lemma response_harmless esv : ~ In (response_esv esv) spec_request.
Proof.
  unfold response_esv. repeat match goal with |- context [if ?c then _ else _] => destruct c end; vm_compute; intuition discriminate.
Qed.

Lemma wire_framed c : in_limits c -> framed (wire c) (be3 (c_deoj c)) (c_esv c).
Proof.
  intros HL. split; [apply wire_bytes, HL|].
  exists (be2 (c_tid c) ++ be3 (c_seoj c)), (Z.of_nat (length (c_props c))), (flat_map wire_prop (c_props c)).
  split; [reflexivity|]. split; [reflexivity|]. unfold wire, wire_frame. rewrite <- !app_assoc. reflexivity.
Qed.

Section Handling.
Context {W : Type}.

(** Callbacks of the members: they store what they are asked to write, or leave the
    node alone. *)
Definition plain (cb : callbacks W) : Prop := storing cb \/ keeps_node cb.

Lemma valid_values nd m r o : minv nd -> received m -> valid nd m r o -> writes (m_esv m) ->
  Forall (fun p => value (pp_data p)) (m_ep m).
Proof.
  intros H HR ((_ & HO) & _ & HV) HW. specialize (HV (or_intror HW)). pose proof (received_props m HR) as HB.
  rewrite Forall_forall in *. intros p Hp. destruct (HV p Hp) as (q & HL & _ & HS). destruct (HS HW) as (_ & HS').
  split; [|apply (HB p Hp)]. rewrite HS'. destruct H as (_ & _ & S1 & S2). rewrite Forall_forall in S1, S2.
  assert (SO : short o) by (apply obj_in in HO; apply in_app_or in HO as [HO|HO]; auto).
  unfold short in SO. rewrite Forall_forall in SO. apply SO. eapply Lookup_In, HL.
Qed.

Lemma handled_goes cb w nd m : plain cb -> minv nd -> received m ->
  goes nd (out_node (ProtocolMessageReceived cb w nd None m)).
Proof.
  intros [HC|HC] H HR.
  - destruct (handle_one cb HC w nd None m HR I) as [(r & o & _ & HV & EN & _)|(EN & _)]; rewrite EN; [|apply goes_refl, H].
    unfold after. destruct (ESV_IsWriteRequest (m_esv m)) eqn:EW; [|apply goes_refl, H]. apply byte_writes in EW.
    apply written_all_goes; [exact H|]. eapply valid_values; eassumption.
  - rewrite C29_no_change by exact HC. apply goes_refl, H.
Qed.

(** A message that does not ask to write leaves the node as it is. *)
Lemma handled_same cb w nd m : plain cb -> received m -> ~ writes (m_esv m) ->
  out_node (ProtocolMessageReceived cb w nd None m) = nd.
Proof.
  intros [HC|HC] HR HN; [|apply C29_no_change, HC].
  destruct (handle_one cb HC w nd None m HR I) as [(r & o & _ & HV & EN & _)|(EN & _)]; rewrite EN; [|reflexivity].
  unfold after. destruct (ESV_IsWriteRequest (m_esv m)) eqn:EW; [|reflexivity]. apply byte_writes in EW. contradiction.
Qed.

(** The answers of a node. *)
Lemma reply_cases (cb : callbacks W) w nd m resp : received m -> out_reply (ProtocolMessageReceived cb w nd None m) = Ok (Some resp) ->
  not_own nd m /\
  ((exists r o r' o', let nd' := out_node (ProtocolMessageReceived cb w nd None m) in
      valid nd m r o /\ LookupObject nd' (DEOJ m) = Some r' /\ obj_at nd' r' = Some o' /\
      In (m_esv m) (map fst spec_answer) /\ resp = response_for o' m) \/
   NewImpossibleMessageWithMessage m = Ok resp).
Proof.
  intros HR E. destruct (negb (n_self nd) && addr_eqb (m_from m) (n_addr nd)) eqn:EO.
  { exfalso. unfold ProtocolMessageReceived in E. rewrite EO in E. discriminate E. }
  pose proof (not_own_of nd m EO) as HO. split; [exact HO|].
  destruct (valid_dec nd m HR) as [(r & o & HV)|HV].
  - left. destruct (handle_valid cb w nd None m r o HR I HO HV) as (d & st & ES & _ & _ & EQ). rewrite EQ in E |- *.
    cbn [out_reply out_node] in *. destruct (r_err st); [discriminate E|].
    destruct (ESV_IsResponseRequired (m_esv m)) eqn:ER; [|discriminate E]. apply required_iff in ER. cbn [negb] in E.
    destruct (createResponseMessageForRequestMessage (r_node st) m) as [x| |] eqn:EC; cbn [bind] in E; try discriminate E.
    injection E as ->. assert (EC' := EC). unfold createResponseMessageForRequestMessage in EC'.
    destruct (LookupObject (r_node st) (DEOJ m)) as [r'|] eqn:EL; [|discriminate EC'].
    destruct (obj_at (r_node st) r') as [o'|] eqn:EO'; [|discriminate EC']. clear EC'.
    exists r, o, r', o'. split; [exact HV|]. split; [reflexivity || exact EL|]. split; [exact EO'|]. split; [exact ER|].
    rewrite (createResponse_eq _ _ r' o' EL EO') in EC. congruence.
  - right. destruct (handle_invalid cb w nd None m HR I HO HV) as (d & resp' & EQ & EI & _). rewrite EQ in E. cbn [out_reply] in E.
    congruence.
Qed.

Lemma reply_frame (cb : callbacks W) w nd m resp : received m -> minv (out_node (ProtocolMessageReceived cb w nd None m)) ->
  out_reply (ProtocolMessageReceived cb w nd None m) = Ok (Some resp) ->
  exists b deoj esv, Bytes resp = Ok b /\ framed b deoj esv /\ ~ In esv spec_request.
Proof.
  intros HR H E. destruct (reply_cases cb w nd m resp HR E) as (_ & [(r & o & r' & o' & _ & _ & HO & _ & ->)|EI]).
  - assert (HC : clean (response_for o' m)).
    { eexists. split; [apply response_represents|]. cbn [c_props c_esv]. split.
      - apply Forall_map. apply Forall_forall. intros p Hp. apply in_flat_map in Hp as (q & _ & Hp). unfold found in Hp.
        destruct (LookupProperty _ _) as [x|] eqn:EL; [|destruct Hp]. destruct Hp as [<-|[]].
        cbn [to_pair snd ToProtocol pp_data]. eapply bytes_of; [apply H|eapply obj_in, HO|exact EL].
      - unfold response_esv, is_byte. repeat match goal with |- context [if ?c then _ else _] => destruct c end; vm_compute; intuition discriminate. }
    destruct (clean_frame _ HC) as (b & EB & HF). exists b, (m_deoj (response_for o' m)), (m_esv (response_for o' m)).
    split; [exact EB|]. split; [exact HF|]. destruct (response_represents o' m) as (_ & _ & _ & _ & _ & X & _). rewrite X. cbn [c_esv].
    apply response_harmless.
  - destruct (impossible_bytes m resp HR EI) as (HL & EB). eexists _, _, _. split; [exact EB|].
    split; [apply wire_framed, HL|]. cbn [c_esv]. apply impossible_harmless.
Qed.
End Handling.

(** ** A step of the network *)

Section Steps.
Context {W : Type}.
Implicit Types s : lan W.

(** Sent to everybody. *)
Definition spoken_packet (ms : list node) (a : address) (p : packet) : Prop :=
  exists m b, spoken m /\ Bytes m = Ok b /\ pk_datagram p = mkDatagram b a /\ (pk_to p < length ms)%nat.

Lemma goes_outgoing ms nd nd' : goes nd nd' -> Forall (spoken_packet ms (n_addr nd)) (outgoing ms nd nd').
Proof.
  intros (_ & (_ & _ & EA & _) & sent & ES & HF). unfold outgoing. rewrite ES, skipn_app, skipn_all, Nat.sub_diag, EA. cbn [skipn app].
  clear ES EA. apply Forall_flat_map. rewrite Forall_map. eapply Forall_impl; [|exact HF]. intros m HM. cbn [packets_of].
  unfold UDP_SendMessage. destruct (clean_frame m (proj1 (proj1 HM))) as (b & EB & _). rewrite EB. cbn [bind].
  rewrite Forall_map. apply Forall_forall. intros i Hi. apply in_seq in Hi. exists m, b. cbn [pk_datagram pk_to]. auto with zarith.
Qed.

Lemma acts_members s i f nd : nth_error (members s) i = Some nd ->
  let s' := acts s i f in
  members s' = set_nth (members s) i (f nd) /\ map h_cb (l_hosts s') = map h_cb (l_hosts s) /\ l_ctrl s' = l_ctrl s /\
  l_packets s' = l_packets s ++ outgoing (members s) nd (f nd).
Proof.
  intros E s'. unfold s', acts. rewrite E. destruct (members_put s i nd (f nd) E) as (M1 & M2 & M3 & M4).
  change (members (add_packets (put_member s i (f nd)) ?ps)) with (members (put_member s i (f nd))).
  cbn [add_packets l_hosts l_ctrl l_packets]. rewrite M4. auto.
Qed.

Lemma acts_none s i f : nth_error (members s) i = None -> acts s i f = s.
Proof. intros E. unfold acts. rewrite E. reflexivity. Qed.

(** Member [i] handles what is in the datagram. *)
Definition member_cb (conf : ctrl_conf) s (i : nat) (plainly : forall W', callbacks W' -> Prop) : Prop :=
  match i with
  | O => True
  | Datatypes.S j => match nth_error (l_hosts s) j with Some h => plainly W (h_cb h) | None => True end
  end.

(** What member [i] makes of a message: its node afterwards, and its answer. *)
Definition handled (conf : ctrl_conf) s (i : nat) (m : message) : option (node * res (option message)) :=
  match i with
  | O => let out := ProtocolMessageReceived (ctrl_callbacks conf) (l_ctrl s) (l_node s) None m in Some (out_node out, out_reply out)
  | Datatypes.S j => match nth_error (l_hosts s) j with
           | None => None
           | Some h => let out := ProtocolMessageReceived (h_cb h) (h_app h) (h_node h) None m in Some (out_node out, out_reply out)
           end
  end.

Definition answer_packets (ms : list node) (self from : address) (r : res (option message)) : list packet :=
  match r with
  | Ok (Some resp) => match Bytes resp, owner ms from with
                      | Ok b, Some i => [mkPacket i UDPUnicastPacket (mkDatagram b self)]
                      | _, _ => []
                      end
  | _ => []
  end.

Lemma set_nth_self {A} (l : list A) i x : nth_error l i = Some x -> set_nth l i x = l.
Proof.
  revert i. induction l as [|y l IH]; intros [|i] E; cbn [nth_error set_nth] in *; try discriminate E; [congruence|].
  rewrite (IH i E). reflexivity.
Qed.

Lemma set_host_members s i h x : nth_error (l_hosts s) i = Some h ->
  map h_node (set_nth (l_hosts s) i x) = set_nth (map h_node (l_hosts s)) i (h_node x) /\
  (h_cb x = h_cb h -> map h_cb (set_nth (l_hosts s) i x) = map h_cb (l_hosts s)).
Proof.
  generalize (l_hosts s) as l. intros l. revert i. induction l as [|y l IH]; intros [|i] E; cbn [nth_error set_nth map] in *; try discriminate E.
  - injection E as ->. split; [reflexivity|intros ->; reflexivity].
  - destruct (IH i E) as (A & B). split; [rewrite A; reflexivity|intros H; rewrite (B H); reflexivity].
Qed.

Lemma receives_cases conf s p nd : nth_error (members s) (pk_to p) = Some nd ->
  let s' := receives conf s p in
  map h_cb (l_hosts s') = map h_cb (l_hosts s) /\
  match ReadMessage (pk_datagram p) with
  | Ok m => exists nd' r, handled conf s (pk_to p) (SetPacketType m (pk_type p)) = Some (nd', r) /\
      members s' = set_nth (members s) (pk_to p) nd' /\
      l_packets s' = l_packets s ++ outgoing (members s) nd nd' ++ answer_packets (members s) (n_addr nd) (m_from m) r
  | _ => members s' = members s /\ l_packets s' = l_packets s /\ l_ctrl s' = l_ctrl s
  end.
Proof.
  intros E s'. unfold s', receives, handled. destruct (pk_to p) as [|i].
  - cbn [members nth_error] in E. injection E as <-. unfold serve_datagram.
    destruct (ReadMessage (pk_datagram p)) as [m| |].
    + unfold handle_datagram_message. set (out := ProtocolMessageReceived _ _ _ _ _). clearbody out. split; [reflexivity|].
      eexists _, _. split; [reflexivity|]. split; [reflexivity|]. cbn [add_packets l_packets]. do 2 f_equal.
      unfold answer_packets, UDP_SendMessage. destruct (out_reply out) as [[resp|]| |]; try reflexivity.
      destruct (Bytes resp) as [b| |]; reflexivity.
    + unfold not_handled. cbn [out_node out_world]. unfold outgoing. rewrite skipn_all. cbn. rewrite app_nil_r. destruct s. auto.
    + unfold not_handled. cbn [out_node out_world]. unfold outgoing. rewrite skipn_all. cbn. rewrite app_nil_r. destruct s. auto.
  - cbn [members nth_error] in E. rewrite nth_error_map in E. destruct (nth_error (l_hosts s) i) as [h|] eqn:EH; [|discriminate E].
    cbn [option_map] in E. injection E as <-. unfold serve_datagram.
    destruct (ReadMessage (pk_datagram p)) as [m| |].
    + unfold handle_datagram_message. set (out := ProtocolMessageReceived _ _ _ _ _). clearbody out.
      destruct (set_host_members s i h (mkHost (out_node out) (out_world out) (h_cb h)) EH) as (A & B).
      split; [exact (B eq_refl)|]. eexists _, _. split; [reflexivity|].
      split; [unfold members; cbn [add_packets l_node l_hosts]; rewrite A; reflexivity|].
      cbn [add_packets l_packets]. do 2 f_equal.
      unfold answer_packets, UDP_SendMessage. destruct (out_reply out) as [[resp|]| |]; try reflexivity.
      destruct (Bytes resp) as [b| |]; reflexivity.
    + unfold not_handled. cbn [out_node out_world]. unfold outgoing. rewrite skipn_all. cbn.
      replace (mkHost (h_node h) (h_app h) (h_cb h)) with h by (destruct h; reflexivity).
      rewrite (set_nth_self _ _ _ EH), app_nil_r. auto.
    + unfold not_handled. cbn [out_node out_world]. unfold outgoing. rewrite skipn_all. cbn.
      replace (mkHost (h_node h) (h_app h) (h_cb h)) with h by (destruct h; reflexivity).
      rewrite (set_nth_self _ _ _ EH), app_nil_r. auto.
Qed.

Lemma receives_none conf s p : nth_error (members s) (pk_to p) = None -> receives conf s p = s.
Proof.
  intros E. unfold receives. destruct (pk_to p) as [|i]; [discriminate E|]. cbn [members nth_error] in E. rewrite nth_error_map in E.
  destruct (nth_error (l_hosts s) i); [discriminate E|reflexivity].
Qed.

Lemma handled_facts conf s i m nd nd' r : Forall (fun h => storing (h_cb h)) (l_hosts s) -> minv nd -> received m ->
  nth_error (members s) i = Some nd -> handled conf s i m = Some (nd', r) ->
  goes nd nd' /\ (~ writes (m_esv m) -> nd' = nd) /\
  (forall resp, r = Ok (Some resp) -> not_own nd m /\
     (exists b deoj esv, Bytes resp = Ok b /\ framed b deoj esv /\ ~ In esv spec_request) /\
     ((exists r o r' o', valid nd m r o /\ LookupObject nd' (DEOJ m) = Some r' /\ obj_at nd' r' = Some o' /\
         In (m_esv m) (map fst spec_answer) /\ resp = response_for o' m) \/
      NewImpossibleMessageWithMessage m = Ok resp)).
Proof.
  intros HS HM HR E EH.
  assert (G : forall W' (cb : callbacks W') w, plain cb -> let out := ProtocolMessageReceived cb w nd None m in
    nd' = out_node out -> r = out_reply out ->
    goes nd nd' /\ (~ writes (m_esv m) -> nd' = nd) /\
    (forall resp, r = Ok (Some resp) -> not_own nd m /\
     (exists b deoj esv, Bytes resp = Ok b /\ framed b deoj esv /\ ~ In esv spec_request) /\
     ((exists r o r' o', valid nd m r o /\ LookupObject nd' (DEOJ m) = Some r' /\ obj_at nd' r' = Some o' /\
         In (m_esv m) (map fst spec_answer) /\ resp = response_for o' m) \/
      NewImpossibleMessageWithMessage m = Ok resp))).
  { intros W' cb w HC out -> ->. pose proof (handled_goes cb w nd m HC HM HR) as HG. split; [exact HG|].
    split; [apply handled_same; assumption|]. intros resp ER. destruct (reply_cases cb w nd m resp HR ER) as (A & B).
    split; [exact A|]. split; [|exact B]. eapply reply_frame; [exact HR|apply HG|exact ER]. }
  unfold handled in EH. destruct i as [|i].
  - cbn [members nth_error] in E. injection E as <-. injection EH as <- <-.
    apply (G _ (ctrl_callbacks conf) (l_ctrl s)); [right; apply ctrl_keeps|reflexivity|reflexivity].
  - cbn [members nth_error] in E. rewrite nth_error_map in E. destruct (nth_error (l_hosts s) i) as [h|] eqn:EN; [|discriminate E].
    cbn [option_map] in E. injection E as <-. injection EH as <- <-.
    apply (G _ (h_cb h) (h_app h)); [left|reflexivity|reflexivity]. rewrite Forall_forall in HS. apply HS. eapply nth_error_In, EN.
Qed.


(** ** A run of the network *)

(** The networks: nodes as the library leaves them, applications that store what
    they are asked to write. *)
Definition net_ok s : Prop :=
  Forall minv (members s) /\ Forall (fun h => storing (h_cb h)) (l_hosts s) /\
  Forall (fun p => is_bytes (d_bytes (pk_datagram p))) (l_packets s).

(** The events: searches and requests as the library makes them. *)
Definition event_ok (e : ctl_event) : Prop :=
  match e with
  | CLan (LSearch _ esv) => In esv [0x62; 0x63]
  | CLan (LSet _ _ _ v) => value v
  | CLan _ => True
  | CSend _ _ obj esv qs => 0 <= obj < 2 ^ 24 /\ 0 <= esv < 256 /\ sendable qs
  | CInject p => is_bytes (d_bytes (pk_datagram p))
  end.

(** The request that a member sends. *)
Definition request_of (nd : node) (obj esv : Z) (qs : list pprop) : content :=
  mkContent ((n_lastTID nd + 1) mod 65536) 0x0EF001 obj esv (map to_pair qs).

(** Where a datagram comes from. *)
Inductive origin (conf : ctrl_conf) s (es : list ctl_event) (q : packet) : Prop :=
| OFirst : In q (l_packets s) -> origin conf s es q
| OInjected : In (CInject q) es -> origin conf s es q
| OSpoken : forall m b a, spoken m -> Bytes m = Ok b -> pk_datagram q = mkDatagram b a -> origin conf s es q
| OSent : forall es1 es2 i a obj esv qs nd, es = es1 ++ CSend i a obj esv qs :: es2 ->
    nth_error (members (ctl_run conf s es1)) i = Some nd -> n_running nd = true ->
    owner (members (ctl_run conf s es1)) a = Some (pk_to q) ->
    pk_datagram q = mkDatagram (wire (request_of nd obj esv qs)) (n_addr nd) -> origin conf s es q
| OReply : forall es1 es2 k p m nd nd' resp b, es = es1 ++ CLan (LDeliver k) :: es2 ->
    nth_error (l_packets (ctl_run conf s es1)) k = Some p ->
    nth_error (members (ctl_run conf s es1)) (pk_to p) = Some nd -> ReadMessage (pk_datagram p) = Ok m ->
    handled conf (ctl_run conf s es1) (pk_to p) (SetPacketType m (pk_type p)) = Some (nd', Ok (Some resp)) ->
    Bytes resp = Ok b -> pk_datagram q = mkDatagram b (n_addr nd) ->
    owner (members (ctl_run conf s es1)) (m_from m) = Some (pk_to q) -> origin conf s es q.

Lemma origin_more conf s es e q : origin conf s es q -> origin conf s (es ++ [e]) q.
Proof.
  intros [H|H|m b a H1 H2 H3|es1 es2 i a obj esv qs nd E H|es1 es2 k p m nd nd' resp b E H].
  - apply OFirst, H.
  - apply OInjected, in_or_app. left. exact H.
  - eapply OSpoken; eassumption.
  - eapply (OSent conf s _ q es1 (es2 ++ [e])); try eassumption. rewrite E, <- app_assoc. reflexivity.
  - eapply (OReply conf s _ q es1 (es2 ++ [e])); try eassumption. rewrite E, <- app_assoc. reflexivity.
Qed.

Lemma ctl_run_app conf s es es' : ctl_run conf s (es ++ es') = ctl_run conf (ctl_run conf s es) es'.
Proof. unfold ctl_run. apply fold_left_app. Qed.
Lemma ctl_run_snoc conf s es e : ctl_run conf s (es ++ [e]) = ctl_step conf (ctl_run conf s es) e.
Proof. rewrite ctl_run_app. reflexivity. Qed.

Lemma Forall2_refl_kept ms : Forall2 kept ms ms.
Proof. induction ms; constructor; [apply kept_refl|assumption]. Qed.
Lemma Forall2_kept_trans (a b c : list node) : Forall2 kept a b -> Forall2 kept b c -> Forall2 kept a c.
Proof.
  intros H. revert c. induction H as [|x y l l' H _ IH]; intros c H'; inversion H'; subst; constructor; [eapply kept_trans; eassumption|].
  apply IH. assumption.
Qed.
Lemma kept_set ms i nd nd' : nth_error ms i = Some nd -> kept nd nd' -> Forall2 kept ms (set_nth ms i nd').
Proof.
  revert i. induction ms as [|x ms IH]; intros [|i] E H; cbn [nth_error set_nth] in *; try discriminate E.
  - injection E as ->. constructor; [exact H|apply Forall2_refl_kept].
  - constructor; [apply kept_refl|]. apply IH; assumption.
Qed.

Lemma spoken_bytes ms a p : spoken_packet ms a p -> is_bytes (d_bytes (pk_datagram p)).
Proof.
  intros (m & b & HM & EB & -> & _). destruct (clean_frame m (proj1 (proj1 HM))) as (b' & EB' & HF). cbn [d_bytes].
  assert (b' = b) by congruence. subst b'. apply HF.
Qed.

(** What a step leaves, and the datagrams it adds. *)
Definition steps conf s (e : ctl_event) s' : Prop :=
  net_ok s' /\ Forall2 kept (members s) (members s') /\ map h_cb (l_hosts s') = map h_cb (l_hosts s) /\
  forall q, In q (l_packets s') -> In q (l_packets s) \/ origin conf s [e] q.

Lemma acts_steps conf s e i f : net_ok s -> ctl_step conf s e = acts s i f ->
  (forall nd, nth_error (members s) i = Some nd -> minv nd -> goes nd (f nd)) -> steps conf s e (ctl_step conf s e).
Proof.
  intros (N1 & N2 & N3) E G. rewrite E. clear E. destruct (nth_error (members s) i) as [nd|] eqn:EN.
  2:{ rewrite acts_none by exact EN. split; [split; [exact N1|split; assumption]|]. split; [apply Forall2_refl_kept|auto]. }
  assert (HM : minv nd) by (rewrite Forall_forall in N1; apply N1; eapply nth_error_In, EN).
  pose proof (G nd eq_refl HM) as GO. destruct (acts_members s i f nd EN) as (A1 & A2 & A3 & A4).
  pose proof (goes_outgoing (members s) nd (f nd) GO) as HS. split; [|split; [|split]].
  - split; [rewrite A1; apply Forall_set_nth; [exact N1|apply GO]|]. split; [eapply Forall_cbs; eassumption|].
    rewrite A4. apply Forall_app. split; [exact N3|]. eapply Forall_impl; [|exact HS]. intros p. apply spoken_bytes.
  - rewrite A1. eapply kept_set; [exact EN|apply GO].
  - exact A2.
  - rewrite A4. intros q Hq. apply in_app_or in Hq as [Hq|Hq]; [left; exact Hq|right]. rewrite Forall_forall in HS.
    destruct (HS q Hq) as (m & b & H1 & H2 & H3 & _). eapply OSpoken; eassumption.
Qed.

Lemma ctl_step_ok conf s e : net_ok s -> event_ok e -> steps conf s e (ctl_step conf s e).
Proof.
  intros HN HE. destruct e as [[i esv| |i|i d code v|k|k|k]|i a obj esv qs|p]; cbn [event_ok] in HE.
  - eapply acts_steps; [exact HN|reflexivity|]. intros nd _ HM. apply search_goes; assumption.
  - split; [exact HN|]. split; [apply Forall2_refl_kept|auto].
  - eapply acts_steps; [exact HN|reflexivity|]. intros nd _ HM. apply Announce_goes; assumption.
  - eapply acts_steps; [exact HN|reflexivity|]. intros nd _ HM. apply (written_goes nd (DevRef d) (mkPProp code v)); assumption.
  - cbn [ctl_step lan_step]. destruct (nth_error (l_packets s) k) as [p|] eqn:EP; [|split; [exact HN|]; split; [apply Forall2_refl_kept|auto]].
    pose proof HN as (N1 & N2 & N3). set (s1 := with_packets s (without (l_packets s) k)).
    assert (N3' : Forall (fun p => is_bytes (d_bytes (pk_datagram p))) (l_packets s1)).
    { rewrite Forall_forall in *. intros q Hq. apply N3. eapply without_incl, Hq. }
    assert (IN : forall q, In q (l_packets s1) -> In q (l_packets s)) by (intros q; apply without_incl).
    assert (HB : is_bytes (d_bytes (pk_datagram p))) by (rewrite Forall_forall in N3; apply N3; eapply nth_error_In, EP).
    destruct (nth_error (members s) (pk_to p)) as [nd|] eqn:EN.
    2:{ rewrite receives_none by exact EN. split; [split; [exact N1|split; assumption]|]. split; [apply Forall2_refl_kept|auto]. }
    destruct (receives_cases conf s1 p nd EN) as (C & D).
    destruct (ReadMessage (pk_datagram p)) as [m| |] eqn:ER.
    2,3: destruct D as (D1 & D2 & _); split; [split; [rewrite D1; exact N1|split; [eapply Forall_cbs; eassumption|rewrite D2; exact N3']]|];
      split; [rewrite D1; apply Forall2_refl_kept|]; split; [exact C|]; intros q; rewrite D2; auto.
    destruct D as (nd' & r & EH & D1 & D2). change (members s1) with (members s) in *.
    destruct (read_received _ _ (pk_type p) HB ER) as (HR & _).
    assert (HM : minv nd) by (rewrite Forall_forall in N1; apply N1; eapply nth_error_In, EN).
    destruct (handled_facts conf s1 _ _ nd nd' r N2 HM HR EN EH) as (G & _ & A).
    pose proof (goes_outgoing (members s) nd nd' G) as HS.
    assert (AP : forall q, In q (answer_packets (members s) (n_addr nd) (m_from m) r) ->
      exists resp b, r = Ok (Some resp) /\ Bytes resp = Ok b /\ is_bytes b /\ pk_datagram q = mkDatagram b (n_addr nd) /\
        owner (members s) (m_from m) = Some (pk_to q)).
    { intros q Hq. unfold answer_packets in Hq. destruct r as [[resp|]| |]; try destruct Hq.
      destruct (A resp eq_refl) as (_ & (b & deoj & esv & EB & (HFB & _) & _) & _). rewrite EB in Hq.
      destruct (owner (members s) (m_from m)) as [o|]; [|destruct Hq]. destruct Hq as [<-|[]].
      exists resp, b. cbn [pk_datagram pk_to]. auto 10. }
    split; [|split; [|split]].
    + split; [rewrite D1; apply Forall_set_nth; [exact N1|apply G]|]. split; [eapply Forall_cbs; eassumption|].
      rewrite D2. apply Forall_app; split; [exact N3'|]. apply Forall_app; split.
      * eapply Forall_impl; [|exact HS]. intros q. apply spoken_bytes.
      * apply Forall_forall. intros q Hq. destruct (AP q Hq) as (resp & b & _ & _ & HFB & -> & _). exact HFB.
    + rewrite D1. eapply kept_set; [exact EN|apply G].
    + exact C.
    + rewrite D2. intros q Hq. apply in_app_or in Hq as [Hq|Hq]; [left; apply IN, Hq|]. right. apply in_app_or in Hq as [Hq|Hq].
      * rewrite Forall_forall in HS. destruct (HS q Hq) as (m0 & b & H1 & H2 & H3 & _). eapply OSpoken; eassumption.
      * destruct (AP q Hq) as (resp & b & -> & EB & _ & ED & EO).
        eapply (OReply conf s [CLan (LDeliver k)] q [] []); try eassumption; reflexivity.
  - pose proof HN as (N1 & N2 & N3). split; [split; [exact N1|split; [exact N2|]]|].
    + cbn [ctl_step lan_step with_packets l_packets]. rewrite Forall_forall in *. intros q Hq. apply N3. eapply without_incl, Hq.
    + split; [apply Forall2_refl_kept|]. split; [reflexivity|]. intros q Hq. left. eapply without_incl, Hq.
  - pose proof HN as (N1 & N2 & N3). cbn [ctl_step lan_step]. destruct (nth_error (l_packets s) k) as [p|] eqn:EP.
    2:{ split; [exact HN|]. split; [apply Forall2_refl_kept|auto]. }
    assert (IP : In p (l_packets s)) by (eapply nth_error_In, EP).
    split; [split; [exact N1|split; [exact N2|]]|].
    + cbn [add_packets l_packets]. apply Forall_app. split; [exact N3|]. constructor; [|constructor]. rewrite Forall_forall in N3. auto.
    + split; [apply Forall2_refl_kept|]. split; [reflexivity|]. intros q Hq. left. cbn [add_packets l_packets] in Hq.
      apply in_app_or in Hq as [Hq|[<-|[]]]; assumption.
  - destruct HE as (HO & HV & HQ). pose proof HN as (N1 & N2 & N3). cbn [ctl_step]. destruct (nth_error (members s) i) as [nd|] eqn:EN.
    2:{ rewrite acts_none by exact EN. split; [exact HN|]. split; [apply Forall2_refl_kept|auto]. }
    assert (HM : minv nd) by (rewrite Forall_forall in N1; apply N1; eapply nth_error_In, EN).
    set (f := fun nd => fst (SendMessage nd a (new_request obj esv qs))).
    destruct (acts_members s i f nd EN) as (A1 & A2 & A3 & A4).
    destruct (n_running nd) eqn:ER.
    2:{ assert (EF : f nd = nd) by (unfold f, SendMessage, send_with; rewrite ER; reflexivity).
        rewrite EF in A1, A4. unfold outgoing in A4. rewrite skipn_all, app_nil_r in A4. rewrite (set_nth_self _ _ _ EN) in A1.
        split; [split; [rewrite A1; exact N1|split; [eapply Forall_cbs; eassumption|rewrite A4; exact N3]]|].
        split; [rewrite A1; apply Forall2_refl_kept|]. split; [exact A2|]. rewrite A4. auto. }
    assert (EF := SendMessage_run nd a (new_request obj esv qs) (proj1 HM) (proj1 (proj2 HM)) ER). cbv zeta in EF.
    apply (f_equal fst) in EF. fold (f nd) in EF. cbn [fst] in EF.
    set (t := (n_lastTID nd + 1) mod 65536) in *.
    pose proof (request_represents obj esv qs t 0x0EF001) as RR.
    assert (HL : in_limits (request_of nd obj esv qs)) by (apply sendable_limits; try assumption; apply tid_small).
    assert (KM : minv (f nd) /\ kept nd (f nd)).
    { rewrite EF. split; [|apply kept_core; reflexivity]. apply (minv_core nd); [reflexivity| |exact HM].
      unfold tid_ok. cbn [hand_over with_lastTID n_lastTID]. pose proof (mod_tid (n_lastTID nd + 1)). unfold t. lia. }
    assert (EO : outgoing (members s) nd (f nd) = match owner (members s) a with
      | Some j => [mkPacket j UDPUnicastPacket (mkDatagram (wire (request_of nd obj esv qs)) (n_addr nd))] | None => [] end).
    { unfold outgoing. rewrite EF. cbn [hand_over with_lastTID n_sent n_addr]. rewrite skipn_app, skipn_all, Nat.sub_diag.
      cbn [skipn app flat_map packets_of]. rewrite app_nil_r, (UDP_sent _ _ _ RR HL). reflexivity. }
    rewrite EO in A4. clear EO EF. destruct KM as (KM & KK).
    split; [|split; [|split]].
    + split; [rewrite A1; apply Forall_set_nth; assumption|]. split; [eapply Forall_cbs; eassumption|].
      rewrite A4. apply Forall_app. split; [exact N3|]. destruct (owner (members s) a); constructor; [|constructor].
      apply wire_bytes, HL.
    + rewrite A1. eapply kept_set; eassumption.
    + exact A2.
    + rewrite A4. intros q Hq. apply in_app_or in Hq as [Hq|Hq]; [left; exact Hq|right].
      destruct (owner (members s) a) as [j|] eqn:EW; [|destruct Hq]. destruct Hq as [<-|[]].
      eapply (OSent conf s [CSend i a obj esv qs] _ [] []); try eassumption; reflexivity.
  - pose proof HN as (N1 & N2 & N3). split; [split; [exact N1|split; [exact N2|]]|].
    + cbn [ctl_step add_packets l_packets]. apply Forall_app. split; [exact N3|]. constructor; [exact HE|constructor].
    + split; [apply Forall2_refl_kept|]. split; [reflexivity|]. intros q Hq. cbn [ctl_step add_packets l_packets] in Hq.
      apply in_app_or in Hq as [Hq|[<-|[]]]; [left; exact Hq|right]. apply OInjected. left. reflexivity.
Qed.

Lemma origin_after conf s es e q : origin conf (ctl_run conf s es) [e] q -> In q (l_packets (ctl_run conf s es)) \/ origin conf s (es ++ [e]) q.
Proof.
  intros [H|H|m b a H1 H2 H3|es1 es2 i a obj esv qs nd E H1 H2 H3 H4|es1 es2 k p m nd nd' resp b E H1 H2 H3 H4 H5 H6 H7].
  - left. exact H.
  - right. apply OInjected, in_or_app. right. exact H.
  - right. eapply OSpoken; eassumption.
  - right. destruct es1; [|destruct es1; discriminate E]. injection E as -> <-.
    eapply (OSent conf s _ q es []); try eassumption. reflexivity.
  - right. destruct es1; [|destruct es1; discriminate E]. injection E as -> <-.
    eapply (OReply conf s _ q es []); try eassumption. reflexivity.
Qed.

Lemma ctl_run_ok conf s es : net_ok s -> Forall event_ok es -> let s' := ctl_run conf s es in
  net_ok s' /\ Forall2 kept (members s) (members s') /\ map h_cb (l_hosts s') = map h_cb (l_hosts s) /\
  forall q, In q (l_packets s') -> origin conf s es q.
Proof.
  intros HN. induction es as [|e es IH] using rev_ind; intros HE; cbv zeta.
  - split; [exact HN|]. split; [apply Forall2_refl_kept|]. split; [reflexivity|]. intros q. apply OFirst.
  - apply Forall_app in HE as (HE & HE1). inversion HE1 as [|? ? H1 _]; subst. clear HE1. destruct (IH HE) as (I1 & I2 & I3 & I4).
    destruct (ctl_step_ok conf _ e I1 H1) as (S1 & S2 & S3 & S4). rewrite ctl_run_snoc.
    split; [exact S1|]. split; [eapply Forall2_kept_trans; eassumption|]. split; [congruence|].
    intros q Hq. destruct (S4 q Hq) as [H|H]; [apply origin_more, I4, H|].
    apply origin_after in H as [H|H]; [apply origin_more, I4, H|exact H].
Qed.

End Steps.

(** Facts about the network model. *)

From Verif Require Import Go GoFacts Encoding EncodingFacts Protocol Parser MessageFacts ParserFacts
  ProtocolFacts Reader StdDB Property PropertyFacts Object ObjectFacts Spec Node NodeFacts
  Handler HandlerFacts PropsHandler Remote RemoteFacts PropsRemote Transport TransportFacts Exchange ExchangeFacts
  PropsExchange PropsSearch Lan.
From Verif Require PropsProtocol PropsNode.
From Coq Require Import ZifyBool ZifyNat Permutation.
Local Open Scope Z_scope.

(** ** Callbacks that never report an error *)

Section Fails.
Context {W : Type}.

Definition never_fails (cb : callbacks W) : Prop :=
  (forall g w nd m, cb_node cb = Some g -> snd (g w nd m) = false) /\
  (forall r g w nd esv p, cb_listener cb r = Some g -> snd (g w nd esv p) = false) /\
  (forall r g w nd esv p, cb_handler cb r = Some g -> snd (g w nd esv p) = false).

Lemma call_back_quiet (st : run W) c f : (forall g w nd, f = Some g -> snd (g w nd) = false) ->
  Forall (fun x => snd x = false) (r_calls st) -> Forall (fun x => snd x = false) (r_calls (fst (call_back st c f))).
Proof.
  intros H HF. unfold call_back. destruct f as [g|]; [|exact HF].
  specialize (H g (r_world st) (r_node st) eq_refl).
  destruct (g (r_world st) (r_node st)) as [[w nd] e]. cbn [fst r_calls snd] in *. apply Forall_app. split; [exact HF|].
  constructor; [exact H|constructor].
Qed.

Lemma notify_quiet cb r esv (st : run W) p : never_fails cb ->
  Forall (fun x => snd x = false) (r_calls st) -> Forall (fun x => snd x = false) (r_calls (notify cb r esv st p)).
Proof.
  intros (_ & HL & HH) HF. unfold notify, notifyPropertyRequest.
  pose proof (call_back_quiet st (CallListener r esv p)
    (option_map (fun g w nd => g w nd esv p) (cb_listener cb r))) as A.
  destruct (call_back st _ _) as [s1 e1]. cbn [fst] in A.
  pose proof (call_back_quiet s1 (CallHandler r esv p)
    (option_map (fun g w nd => g w nd esv p) (cb_handler cb r))) as B.
  destruct (call_back s1 _ _) as [s2 e2]. cbn [fst] in B. cbn [set_err r_calls].
  apply B.
  - intros g w nd. destruct (cb_handler cb r) eqn:E; [|discriminate]. intros [= <-]. apply (HH _ _ w nd esv p E).
  - apply A; [|exact HF].
    intros g w nd. destruct (cb_listener cb r) eqn:E; [|discriminate]. intros [= <-]. apply (HL _ _ w nd esv p E).
Qed.

Lemma exec_quiet (cb : callbacks W) w nd m st : never_fails cb ->
  executeMessageListeners cb w nd m = Ok st -> Forall (fun x => snd x = false) (r_calls st).
Proof.
  intros HK. unfold executeMessageListeners. destruct (LookupObject nd (DEOJ m)) as [r|]; [|discriminate].
  pose proof (call_back_quiet (mkRun w nd [] false) (CallNode m)
    (option_map (fun g w nd => g w nd m) (cb_node cb))) as A.
  destruct (call_back _ _ _) as [s e]. cbn [fst r_calls] in A.
  rewrite (msg_loop m (fun p st => Ok (notify cb r (m_esv m) st p))).
  - rewrite (for_each_Ok (fun p st => notify cb r (m_esv m) st p)).
    intros [= <-]. assert (B : Forall (fun x => snd x = false) (r_calls (set_err s e))).
    { apply A; [|constructor]. intros g w' nd'. destruct (cb_node cb) eqn:E; [|discriminate]. intros [= <-].
      destruct HK as (HN & _). apply (HN _ w' nd' m E). }
    revert B. generalize (set_err s e) as s0. induction (visited m) as [|p l IH]; intros s0 B; [exact B|].
    cbn [fold_left]. apply IH. apply notify_quiet; assumption.
  - intros n st'. rewrite MsgProperty_nth. cbn [bind]. destruct (nth_error (m_ep m) n); [|reflexivity].
    unfold notify. destruct (notifyPropertyRequest _ _ _ _ _). reflexivity.
Qed.

Lemma out_quiet (cb : callbacks W) w nd pending m : never_fails cb ->
  forall k e, In (k, e) (out_calls (ProtocolMessageReceived cb w nd pending m)) -> e = false.
Proof.
  intros HK k e. unfold ProtocolMessageReceived. destruct (negb (n_self nd) && _); [intros []|].
  destruct (isResponseMessage pending m); [|intros []..].
  destruct (validateReceivedMessage nd m) as [[|]| |]; [|intros []..].
  destruct (executeMessageListeners cb w nd m) as [st| |] eqn:E; [|intros []..].
  pose proof (exec_quiet cb w nd m st HK E) as F. rewrite Forall_forall in F.
  intros I. apply (F (k, e)). destruct (r_err st); [exact I|]. destruct (negb _); exact I.
Qed.

End Fails.

Definition quiet {W} (cb : callbacks W) (w : W) (nd : node) : Prop := forall m, received m ->
  forall k e, In (k, e) (out_calls (ProtocolMessageReceived cb w nd None m)) -> e = false.

Lemma ctrl_quiet conf ct nd : quiet (ctrl_callbacks conf) ct nd.
Proof.
  intros m HR k e.
  destruct (negb (n_self nd) && addr_eqb (m_from m) (n_addr nd)) eqn:EO.
  { unfold ProtocolMessageReceived. rewrite EO. intros []. }
  pose proof (not_own_of nd m EO) as HO.
  destruct (valid_dec nd m HR) as [(r & o & HV)|HV].
  - destruct (handle_valid (ctrl_callbacks conf) ct nd None m r o HR I HO HV) as (d & st & E & RO & _ & EQ).
    rewrite EQ. cbn [out_calls]. intros HI.
    destruct (ctrl_exec conf nd ct m) as (st' & E' & _ & _ & HF).
    + destruct HV as ((A & _) & _). congruence.
    + apply received_byte_props, HR.
    + assert (st' = st) by congruence. subst st'. rewrite RO in HF. destruct e; [|reflexivity].
      rewrite <- Bool.not_true_iff_false in HF. exfalso. apply HF. apply existsb_exists. exists (k, true). auto.
  - destruct (handle_invalid (ctrl_callbacks conf) ct nd None m HR I HO HV) as (d & resp & E & _).
    rewrite E. intros [].
Qed.

Lemma never_fails_quiet {W} (cb : callbacks W) w nd : never_fails cb -> quiet cb w nd.
Proof. intros H m _. apply out_quiet, H. Qed.

Lemma ctrl_keeps conf : keeps_node (ctrl_callbacks conf).
Proof.
  split; [|split].
  - intros g w nd m [= <-]. destruct (OnMessage conf (n_self nd) w m); reflexivity.
  - intros r g w nd esv p H. discriminate H.
  - intros r g w nd esv p H. discriminate H.
Qed.

(** ** Nodes of the network *)

Definition ready (nd : node) : Prop :=
  core_inv (core_of nd) /\ lists_ok (core_of nd) /\ readable_list (core_of nd) /\ tid_ok nd /\ n_running nd = true /\
  (length (n_devices nd) <= 84)%nat /\
  Forall (fun c => known_class c /\ is_profile c = false) (map o_codes (n_devices nd)).

(** The instance list of a node. *)
Definition list_data (nd : node) : list Z :=
  PropsNode.count_byte (length (n_devices nd)) :: concat (map o_codes (n_devices nd)).

Lemma ready_codes3 nd : ready nd -> Forall (fun k => length k = 3%nat) (map o_codes (n_devices nd)).
Proof.
  intros ((HD & _) & _). apply Forall_map. eapply Forall_impl; [|exact HD]. intros o [[Ho _] _]. exact Ho.
Qed.

Lemma list_data_bytes nd : list_data nd = instance_bytes (n_devices nd).
Proof. unfold list_data, instance_bytes. rewrite PropsNode.count_list_count, flat_map_concat_map. reflexivity. Qed.

Lemma list_data_value nd : ready nd -> value (list_data nd).
Proof.
  intros H. split.
  - unfold list_data. cbn [length]. rewrite PropsNode.concat3 by (apply ready_codes3, H). rewrite map_length.
    destruct H as (_ & _ & _ & _ & _ & H & _). lia.
  - rewrite list_data_bytes. apply instance_bytes_ok. apply H.
Qed.

Lemma ready_np nd : ready nd -> exists np rest, n_profiles nd = np :: rest /\ o_codes np = np_codes /\
  LookupObject nd 0x0EF001 = Some (ProfRef 0) /\ obj_at nd (ProfRef 0) = Some np /\
  holds np 0xD5 (list_data nd) /\ holds np 0xD6 (list_data nd) /\ gat np 0xD6 = Some Required.
Proof.
  intros (HI & HL & HG & HT & HR & H84 & HC). pose proof HI as (_ & _ & (np & rest & Ep & Hcc & _)).
  destruct HL as (np1 & rest1 & E1 & HL). destruct HG as (np2 & rest2 & E2 & HG).
  cbn [core_of k_profs k_devs] in *. assert (np1 = np) by congruence. assert (np2 = np) by congruence. subst np1 np2.
  exists np, rest. split; [exact Ep|]. split; [exact Hcc|]. split.
  { unfold LookupObject. rewrite (no_profile_device nd HI).
    - unfold LookupProfile. rewrite Ep. cbn [find_code]. rewrite (np_Code np Hcc). reflexivity.
    - eapply Forall_impl; [|exact HC]. intros k [_ Hk]. exact Hk. }
  split; [cbn [obj_at]; rewrite Ep; reflexivity|].
  destruct HL as (_ & _ & L5 & L6 & _). rewrite list_data_bytes.
  split; [|split; [|exact HG]]; unfold holds, dat in *.
  - destruct (LookupProperty (o_props np) 0xD5) as [q|]; [|discriminate L5]. exists q. cbn [option_map] in L5. injection L5 as ->. auto.
  - destruct (LookupProperty (o_props np) 0xD6) as [q|]; [|discriminate L6]. exists q. cbn [option_map] in L6. injection L6 as ->. auto.
Qed.

(** ** Contents of the messages on the network *)

Definition asks (t esv : Z) : content := mkContent t 0x0EF001 0x0EF001 esv [(0xD6, [])].
Definition lists (t esv code : Z) (nd : node) : content := mkContent t 0x0EF001 0x0EF001 esv [(code, list_data nd)].
Definition tells (t seoj code : Z) (v : list Z) : content := mkContent t seoj 0x0EF001 0x73 [(code, v)].

Definition tid16 (t : Z) : Prop := 0 <= t < 65536.

Lemma asks_ok t esv : tid16 t -> In esv [0x62; 0x63] -> in_limits (asks t esv) /\ (length (wire (asks t esv)) <= 1024)%nat.
Proof.
  intros Ht HE. split; [|cbn; lia]. unfold in_limits, frame_in_limits, asks. cbn [c_tid c_seoj c_deoj c_esv c_props].
  split; [exact Ht|]. split; [lia|]. split; [lia|]. split; [cbn [In] in HE; lia|]. split; [cbn; lia|].
  constructor; [|constructor]. split; [cbn; lia|]. split; [cbn; lia|constructor].
Qed.

Lemma single_ok t seoj esv code v : tid16 t -> 0 <= seoj < 2 ^ 24 -> 0 <= esv < 256 -> 0 <= code < 256 -> value v ->
  in_limits (mkContent t seoj 0x0EF001 esv [(code, v)]) /\
  (length (wire (mkContent t seoj 0x0EF001 esv [(code, v)])) <= 1024)%nat.
Proof.
  intros Ht Hs HE Hc (V1 & V2). split.
  - unfold in_limits, frame_in_limits. cbn [c_tid c_seoj c_deoj c_esv c_props].
    split; [exact Ht|]. split; [lia|]. split; [lia|]. split; [lia|]. split; [cbn; lia|].
    constructor; [|constructor]. split; [cbn; lia|]. split; [exact V1|exact V2].
  - rewrite wire_length. cbn [c_props map snd message_size fold_right]. lia.
Qed.

(** ** A member receives a message *)

Section Member.
Context {W : Type}.

(** A message of the member itself that it does not want to see. *)
Lemma deaf (cb : callbacks W) w nd pt sa c ca : in_limits c -> (length (wire c) <= 1024)%nat -> ~ hears nd ca ->
  out_node (fst (serve_datagram cb w nd None pt sa (mkDatagram (wire c) ca))) = nd /\
  out_world (fst (serve_datagram cb w nd None pt sa (mkDatagram (wire c) ca))) = w /\
  snd (serve_datagram cb w nd None pt sa (mkDatagram (wire c) ca)) = Ok None.
Proof.
  intros HL Hlen HN. destruct (wire_arrives c ca HL Hlen) as (x & EX & FX & RX & VX).
  unfold serve_datagram. rewrite EX. unfold handle_datagram_message, ProtocolMessageReceived.
  assert (n_self nd = false /\ ca = n_addr nd) as (-> & ->).
  { unfold hears in HN. destruct (n_self nd); [exfalso; tauto|]. split; [reflexivity|].
    destruct (address_dec ca (n_addr nd)); [assumption|exfalso; tauto]. }
  cbn [SetPacketType m_from negb andb]. rewrite FX. rewrite (proj2 (addr_eqb_iff _ _) eq_refl).
  cbn [fst snd out_node out_world out_reply]. auto.
Qed.

(** A search is answered. *)
Lemma answers_search (cb : callbacks W) w nd pt sa t esv aesv ca :
  ready nd -> keeps_node cb -> quiet cb w nd -> tid16 t -> In (esv, aesv) [(0x62, 0x72); (0x63, 0x73)] -> hears nd ca ->
  out_node (fst (serve_datagram cb w nd None pt sa (mkDatagram (wire (asks t esv)) ca))) = nd /\
  snd (serve_datagram cb w nd None pt sa (mkDatagram (wire (asks t esv)) ca)) =
    Ok (Some (ca, mkDatagram (wire (lists t aesv 0xD6 nd)) sa)).
Proof.
  intros HRd HK HNF Ht HE HO.
  destruct (ready_np nd HRd) as (np & rest & Ep & Hcc & LK & OA & _ & HD & HG).
  assert (HE' : In (esv, aesv) spec_answer) by (cbn [spec_answer In] in *; tauto).
  destruct (asks_ok t esv Ht) as (HLc & Hlen).
  { cbn [In] in *. repeat destruct HE as [HE|HE]; try contradiction; injection HE as <- _; tauto. }
  destruct (serves cb w nd None pt ca sa (asks t esv) aesv (ProfRef 0) np HLc Hlen I HO HE' LK OA)
    as (req & HR & RR & NO & EF & E1 & E2 & E3).
  { intros [HX|HX]; cbn [asks c_esv] in HX.
    - cbn [asks c_esv c_props map of_pair fst snd]. constructor; [|constructor]. cbn [pp_code pp_data].
      destruct HD as (q & Hq & _). exists q. cbn [pp_code]. split; [exact Hq|]. split.
      + intros _. unfold gat in HG. rewrite Hq in HG. cbn [option_map] in HG. injection HG as ->. discriminate.
      + unfold writes. cbn [In] in *. intros HW. exfalso.
        repeat destruct HE as [HE|HE]; try contradiction; injection HE as <- _; lia.
    - exfalso. unfold writes in HX. cbn [In] in *.
      repeat destruct HE as [HE|HE]; try contradiction; injection HE as <- _; lia. }
  assert (EN : out_node (ProtocolMessageReceived cb w nd None req) = nd) by (apply C29_no_change; exact HK).
  rewrite E1, EN. split; [reflexivity|].
  destruct (E3 (HNF req HR) (ProfRef 0) np [list_data nd]) as (_ & Es).
  { rewrite EN. exact LK. } { rewrite EN. exact OA. }
  { cbn [asks c_props map fst]. constructor; [exact HD|constructor]. }
  { constructor; [apply list_data_value, HRd|constructor]. }
  exact Es.
Qed.

(** Answers and notifications are not answered. *)
Lemma answers_none (cb : callbacks W) w nd pt sa c ca :
  ready nd -> keeps_node cb -> in_limits c -> (length (wire c) <= 1024)%nat ->
  c_deoj c = 0x0EF001 -> In (c_esv c) [0x72; 0x73] ->
  out_node (fst (serve_datagram cb w nd None pt sa (mkDatagram (wire c) ca))) = nd /\
  snd (serve_datagram cb w nd None pt sa (mkDatagram (wire c) ca)) = Ok None.
Proof.
  intros HRd HK HL Hlen HD HE.
  destruct (ready_np nd HRd) as (np & rest & _ & _ & LK & OA & _).
  destruct (wire_arrives c ca HL Hlen) as (x & EX & FX & RX & VX).
  destruct (represents_getters x c RX HL) as (_ & _ & G3 & G4 & _).
  unfold serve_datagram. rewrite EX. unfold handle_datagram_message. cbn [fst snd].
  rewrite C29_no_change by exact HK. split; [reflexivity|].
  destruct (negb (n_self nd) && addr_eqb (m_from (SetPacketType x pt)) (n_addr nd)) eqn:EO.
  { unfold ProtocolMessageReceived. rewrite EO. reflexivity. }
  pose proof (not_own_of nd _ EO) as NO.
  assert (HV : valid nd (SetPacketType x pt) (ProfRef 0) np).
  { split; [split; [|exact OA]|].
    - change (DEOJ (SetPacketType x pt)) with (DEOJ x). rewrite G3, HD. exact LK.
    - change (m_esv (SetPacketType x pt)) with (m_esv x). rewrite G4.
      unfold known_esv, reads, writes, spec_request, spec_response, spec_notification, spec_error.
      cbn [In app] in *. split; [lia|intros HX; exfalso; lia]. }
  destruct (handle_valid cb w nd None _ _ np (VX pt) I NO HV) as (k & st & _ & _ & _ & EQ).
  rewrite EQ. cbn [out_reply]. destruct (r_err st); [reflexivity|].
  destruct (ESV_IsResponseRequired (m_esv (SetPacketType x pt))) eqn:X; [|reflexivity].
  exfalso. apply required_iff in X. change (m_esv (SetPacketType x pt)) with (m_esv x) in X. rewrite G4 in X.
  cbn [spec_answer In map fst app] in *. lia.
Qed.

End Member.

(** ** What the members do *)

Definition devs_of (nd : node) : list (list Z) := map o_codes (n_devices nd).

(** The object code under which a change of the property is announced. *)
Definition announces_as (nd : node) (d : nat) (code : Z) : option Z :=
  match nth_error (n_devices nd) d with
  | None => None
  | Some o => match LookupProperty (o_props o) code with
              | None => None
              | Some p => match p_anno p with Prohibited => None | _ => Some (Code o) end
              end
  end.

Definition same (nd nd' : node) : Prop :=
  n_addr nd' = n_addr nd /\ n_self nd' = n_self nd /\ devs_of nd' = devs_of nd /\
  (forall d code, announces_as nd' d code = announces_as nd d code).

Lemma same_refl nd : same nd nd.
Proof. repeat split. Qed.

Lemma same_trans a b c : same a b -> same b c -> same a c.
Proof.
  intros (A1 & A2 & A3 & A4) (B1 & B2 & B3 & B4). repeat split; try congruence.
Qed.

Lemma same_list nd nd' : same nd nd' -> list_data nd' = list_data nd.
Proof.
  intros (_ & _ & H & _). unfold list_data. unfold devs_of in H. rewrite H. do 2 f_equal.
  apply (f_equal (@length _)) in H. rewrite !map_length in H. exact H.
Qed.

Lemma both (P Q : Prop) : (Q -> P) -> Q -> P /\ Q.
Proof. auto. Qed.

(** What is said by a node when it does something. *)
Definition does (nd nd' : node) (cs : list content) : Prop :=
  ready nd' /\ same nd nd' /\ exists ms, n_sent nd' = n_sent nd ++ map Multicast ms /\
    Forall2 (fun m c => Bytes m = Ok (wire c) /\ in_limits c) ms cs.

Lemma announced_ready nd m t : ready nd -> tid16 t -> ready (hand_over (with_lastTID nd t) m).
Proof.
  intros (H1 & H2 & H3 & _ & H5 & H6 & H7) Ht. unfold tid16 in Ht.
  split; [exact H1|]. split; [exact H2|]. split; [exact H3|]. split; [unfold tid_ok; cbn; lia|].
  split; [exact H5|]. split; [exact H6|exact H7].
Qed.

Lemma next_tid16 nd : tid16 ((n_lastTID nd + 1) mod 65536).
Proof. unfold tid16. pose proof (mod_tid (n_lastTID nd + 1)). lia. Qed.

Lemma does_search nd esv : ready nd -> In esv [0x62; 0x63] ->
  exists t, tid16 t /\ does nd (fst (SearchAllObjectsWithESV nd esv)) [asks t esv].
Proof.
  intros H HE. pose proof H as (_ & _ & _ & HT & HR & _). exists ((n_lastTID nd + 1) mod 65536).
  split; [apply next_tid16|]. unfold SearchAllObjectsWithESV. rewrite AnnounceMessage_run by assumption. cbn [fst].
  split; [apply announced_ready; [exact H|apply next_tid16]|]. split; [repeat split|].
  eexists [_]. split; [reflexivity|]. constructor; [|constructor].
  apply both.
  - apply represents_Bytes. apply (built_represents [OSetESV 0x62; OSetSEOJ 0x0EF001; OSetDEOJ 0x0EF001; OAddProperty 0xD6 [];
        OSetESV esv; OSetTID ((n_lastTID nd + 1) mod 65536); OSetDEOJ 0x0EF001]).
  - apply asks_ok; [apply next_tid16|exact HE].
Qed.

Lemma does_announce nd : ready nd -> exists t, tid16 t /\ does nd (fst (Announce nd)) [lists t 0x73 0xD5 nd].
Proof.
  intros H. pose proof H as (_ & _ & _ & HT & HR & _). exists ((n_lastTID nd + 1) mod 65536).
  split; [apply next_tid16|].
  destruct (ready_np nd H) as (np & rest & Ep & Hcc & LK & OA & (q & Hq & Hd) & _).
  unfold Announce. rewrite (NodeProfile_first nd np rest Ep Hcc), OA. unfold NodeProfileInstanceListNotification.
  rewrite Hq. unfold AnnounceProperty. rewrite AnnounceMessage_run by assumption. cbn [fst].
  split; [apply announced_ready; [exact H|apply next_tid16]|]. split; [repeat split|].
  unfold ToProtocol. rewrite (Lookup_code _ _ _ Hq), Hd, (np_Code np Hcc).
  eexists [_]. split; [reflexivity|]. constructor; [|constructor].
  apply both.
  - apply represents_Bytes. apply (built_represents [OSetESV 0x73; OSetSEOJ 0x0EF001; OAddProperty 0xD5 (list_data nd);
      OSetTID ((n_lastTID nd + 1) mod 65536); OSetDEOJ 0x0EF001]).
  - apply single_ok; try lia; [apply next_tid16|apply list_data_value, H].
Qed.

Lemma ready_core nd nd' : core_of nd' = core_of nd -> tid_ok nd' -> ready nd -> ready nd'.
Proof.
  intros E HT (H1 & H2 & H3 & _ & H5 & H6 & H7). unfold ready. rewrite E.
  assert (E1 : n_devices nd' = n_devices nd) by exact (f_equal k_devs E).
  assert (E2 : n_running nd' = n_running nd) by exact (f_equal k_run E).
  rewrite E1, E2. auto 10.
Qed.

Lemma set_nth_at {A} (l : list A) i v k : (i < length l)%nat ->
  nth_error (set_nth l i v) k = if Nat.eqb i k then Some v else nth_error l k.
Proof.
  revert i k. induction l as [|a l IH]; intros [|i] [|k] H; cbn [length] in H; try lia; try reflexivity.
  cbn [set_nth nth_error]. rewrite IH by lia. reflexivity.
Qed.

Lemma put_attrs nd i o c v : nth_error (n_devices nd) i = Some o ->
  (forall d code, announces_as (with_objects nd (set_nth (n_devices nd) i (setd c v o)) (n_profiles nd)) d code =
    announces_as nd d code).
Proof.
  intros E d code. unfold announces_as. cbn [with_objects n_devices].
  rewrite set_nth_at by (apply nth_error_Some; congruence).
  destruct (Nat.eqb_spec i d) as [->|N]; [|reflexivity]. rewrite E. unfold setd. cbn [Object.with_props o_props].
  rewrite Lookup_set. destruct (c =? code); [|reflexivity]. destruct (LookupProperty (o_props o) code); reflexivity.
Qed.

Lemma does_set nd d code v : ready nd -> value v ->
  let nd' := fst (on_object nd (DevRef d) (fun o => SetPropertyData o code v)) in
  match announces_as nd d code with
  | None => does nd nd' []
  | Some seoj => 0 <= seoj < 2 ^ 24 /\ is_byte code /\ exists t, tid16 t /\ does nd nd' [tells t seoj code v]
  end.
Proof.
  intros H HV nd'. pose proof H as (HI & HL & HG & HT & HR & H84 & HC).
  assert (HB : is_bytes v) by apply HV.
  assert (EC : core_of nd' = put_core (core_of nd) (DevRef d) (setd code v)).
  { unfold nd'. rewrite on_object_core. unfold put_core, put_list. destruct (nth_error (k_devs (core_of nd)) d) as [o|]; [|reflexivity].
    rewrite SetPropertyData_setd. reflexivity. }
  assert (CS : core_step (NSetData (DevRef d) code v) (core_of nd) = core_of nd') by (rewrite EC; reflexivity).
  assert (Hready : ready nd').
  { split; [rewrite <- CS; apply core_step_inv; assumption|].
    split; [rewrite <- CS; apply core_step_lists; [exact HI|exact I|exact HL]|].
    split; [rewrite <- CS; apply step_readable; [exact HI|exact HB|exact I|exact HG]|].
    split; [eapply tid_rel_ok, on_object_tid; exact HT|].
    assert (ED : devs_of nd' = devs_of nd).
    { unfold devs_of. change (n_devices nd') with (k_devs (core_of nd')). rewrite EC. cbn [put_core k_devs].
      apply put_codes. intros o. apply setd_grows. }
    split; [change (n_running nd') with (k_run (core_of nd')); rewrite EC; exact HR|].
    unfold devs_of in ED. split; [|rewrite ED; exact HC].
    apply (f_equal (@length _)) in ED. rewrite !map_length in ED. lia. }
  assert (Hself : forall r o evs, n_addr (commit nd r o evs) = n_addr nd /\ n_self (commit nd r o evs) = n_self nd).
  { intros r o evs. unfold commit, announce_all. generalize (Code o) as cc.
    assert (X : n_addr (put_at nd r o) = n_addr nd /\ n_self (put_at nd r o) = n_self nd) by (destruct r; auto).
    revert X. generalize (put_at nd r o) as x. induction evs as [|p evs IH]; intros x X cc; [exact X|].
    cbn [fold_left]. apply IH. unfold prop_Announce. destruct (negb (n_running x)); cbn [fst]; [exact X|].
    unfold AnnounceProperty, AnnounceMessage. destruct (negb (n_running x)); cbn [fst]; [exact X|].
    unfold NextTID. exact X. }
  assert (Hsame : same nd nd').
  { unfold nd', on_object. cbn [obj_at]. destruct (nth_error (n_devices nd) d) as [o|] eqn:EO; [|apply same_refl].
    assert (ED : n_devices nd' = set_nth (n_devices nd) d (setd code v o)).
    { change (n_devices nd') with (k_devs (core_of nd')). rewrite EC. cbn [put_core k_devs]. unfold put_list.
      cbn [core_of k_devs]. rewrite EO. reflexivity. }
    unfold nd', on_object in ED. cbn [obj_at] in ED. rewrite EO in ED.
    destruct (SetPropertyData o code v) as [[o' evs] e] eqn:ES. cbn [fst] in *.
    destruct (Hself (DevRef d) o' evs) as (S1 & S2). split; [exact S1|]. split; [exact S2|]. split.
    - unfold devs_of. rewrite ED. pose proof (put_codes (n_devices nd) d (setd code v)) as P. unfold put_list in P.
      rewrite EO in P. apply P. intros x. apply setd_grows.
    - intros k c. unfold announces_as. rewrite ED. exact (put_attrs nd d o code v EO k c). }
  unfold announces_as. destruct (nth_error (n_devices nd) d) as [o|] eqn:EO.
  2:{ split; [exact Hready|]. split; [exact Hsame|]. exists []. split; [|constructor].
      unfold nd', on_object. cbn [obj_at]. rewrite EO. cbn [fst map]. rewrite app_nil_r. reflexivity. }
  assert (HO : obj_ok o).
  { destruct HI as (HD & _). cbn [core_of k_devs] in HD. rewrite Forall_forall in HD. apply HD. eapply nth_error_In, EO. }
  destruct (LookupProperty (o_props o) code) as [p|] eqn:EP.
  2:{ split; [exact Hready|]. split; [exact Hsame|]. exists []. split; [|constructor].
      unfold nd'. rewrite (proj1 (PropsNode.C27_not_announced nd (DevRef d) o code v EO ltac:(left; intros q Hq; congruence))).
      cbn [map]. rewrite app_nil_r. reflexivity. }
  destruct (p_anno p) eqn:EA.
  all: swap 1 3.
  all: try (split; [exact Hready|]; split; [exact Hsame|]; exists []; split; [|constructor];
      unfold nd'; rewrite (proj1 (PropsNode.C27_not_announced nd (DevRef d) o code v EO ltac:(left; intros q Hq; congruence)));
      cbn [map]; rewrite app_nil_r; reflexivity).
  all: destruct HO as [HO3 HOw];
    (split; [apply PropsNode.Code_range; exact HO3|]);
    (split; [rewrite <- (Lookup_code _ _ _ EP); apply (wf_lookup _ _ _ HOw EP)|]);
    exists ((n_lastTID nd + 1) mod 65536); (split; [apply next_tid16|]);
    (split; [exact Hready|]); (split; [exact Hsame|]).
  all: destruct (PropsNode.C27_announced nd (DevRef d) o code p v HR HT EO (conj HO3 HOw) EP HB ltac:(congruence)) as (m & X);
    destruct (on_object nd (DevRef d) _) as [x e]; destruct X as (_ & X1 & X2); cbn [fst] in nd'; subst nd';
    exists [m]; (split; [exact X1|]); constructor; [|constructor];
    (split; [apply X2; apply HV|]); apply single_ok; try lia; try exact HV;
    [apply next_tid16|apply PropsNode.Code_range; exact HO3|
     rewrite <- (Lookup_code _ _ _ EP); apply (wf_lookup _ _ _ HOw EP)].
Qed.

(** ** The network *)

(** What a node may say. *)
Inductive speech (nd : node) : content -> Prop :=
| SpAsks t esv : tid16 t -> In esv [0x62; 0x63] -> speech nd (asks t esv)
| SpLists t esv code : tid16 t -> In esv [0x72; 0x73] -> In code [0xD5; 0xD6] -> speech nd (lists t esv code nd)
| SpTells t seoj code v : tid16 t -> 0 <= seoj < 2 ^ 24 -> is_byte code -> ~ In code [0xD5; 0xD6] -> value v ->
    speech nd (tells t seoj code v).

Lemma speech_ok nd c : ready nd -> speech nd c ->
  in_limits c /\ (length (wire c) <= 1024)%nat /\ c_deoj c = 0x0EF001.
Proof.
  intros H [t esv Ht HE|t esv code Ht HE Hc|t seoj code v Ht Hs Hc _ Hv].
  - destruct (asks_ok t esv Ht HE). auto.
  - destruct (single_ok t 0x0EF001 esv code (list_data nd) Ht) as (A & B); try (cbn [In] in *; lia).
    + apply list_data_value, H.
    + auto.
  - destruct (single_ok t seoj 0x73 code v Ht) as (A & B); try (cbn [In] in *; lia); try assumption. auto.
Qed.

Lemma speech_same nd nd' c : same nd nd' -> speech nd c -> speech nd' c.
Proof.
  intros H S. destruct S; [constructor; assumption| |constructor; assumption].
  unfold lists. rewrite <- (same_list _ _ H). apply SpLists; assumption.
Qed.

Section Net.
Context {W : Type}.
Implicit Types (s : lan W) (h : host W).

(** [p] was sent by the [j]-th member. *)
Definition from_member (ms : list node) (p : packet) (j : nat) (nd : node) (c : content) : Prop :=
  nth_error ms j = Some nd /\ pk_datagram p = mkDatagram (wire c) (n_addr nd) /\ speech nd c /\ (pk_to p < length ms)%nat.

Definition packet_ok (ms : list node) (p : packet) : Prop := exists j nd c, from_member ms p j nd c.

Definition lan_inv (s : lan W) : Prop :=
  Forall ready (members s) /\ Forall (fun h => keeps_node (h_cb h) /\ never_fails (h_cb h)) (l_hosts s) /\
  NoDup (map n_addr (members s)) /\ Forall (packet_ok (members s)) (l_packets s).

Lemma owner_of ms : NoDup (map n_addr ms) -> forall j nd, nth_error ms j = Some nd -> owner ms (n_addr nd) = Some j.
Proof.
  induction ms as [|x ms IH]; intros H [|j] nd E; cbn [nth_error] in E; try discriminate E; cbn [owner].
  - injection E as ->. rewrite (proj2 (addr_eqb_iff _ _) eq_refl). reflexivity.
  - cbn [map] in H. inversion H as [|? ? N D]; subst. destruct (addr_eqb (n_addr x) (n_addr nd)) eqn:X.
    + apply addr_eqb_iff in X. exfalso. apply N. rewrite X. apply in_map. eapply nth_error_In, E.
    + rewrite (IH D j nd E). reflexivity.
Qed.

Lemma packets_same ms ms' p : Forall2 same ms ms' -> packet_ok ms p -> packet_ok ms' p.
Proof.
  intros HS (j & nd & c & E & D & S & T).
  assert (X : exists nd', nth_error ms' j = Some nd' /\ same nd nd').
  { clear -HS E. revert j E. induction HS as [|a b l l' H _ IH]; intros [|j] E; cbn [nth_error] in *; try discriminate E.
    - injection E as <-. eauto.
    - apply IH, E. }
  destruct X as (nd' & E' & H). exists j, nd', c. split; [exact E'|]. split.
  - rewrite D. f_equal. symmetry. apply H.
  - split; [eapply speech_same; eassumption|]. rewrite <- (Forall2_len _ _ _ HS). exact T.
Qed.

(** *** A member does something *)

Definition broadcast (n : nat) (a : address) (c : content) : list packet :=
  map (fun i => mkPacket i MulticastPacket (mkDatagram (wire c) a)) (seq 0 n).

Lemma outgoing_does ms nd nd' cs : does nd nd' cs ->
  outgoing ms nd nd' = flat_map (broadcast (length ms) (n_addr nd)) cs.
Proof.
  intros (_ & (HA & _) & ms' & E & F). unfold outgoing. rewrite E, skipn_len_app, HA. clear E.
  induction F as [|m c ms' cs (B & _) _ IH]; [reflexivity|]. cbn [map flat_map packets_of].
  unfold UDP_SendMessage at 1. rewrite B. cbn [bind]. rewrite IH. reflexivity.
Qed.

Lemma members_put s i nd nd' : nth_error (members s) i = Some nd ->
  members (put_member s i nd') = set_nth (members s) i nd' /\
  map h_cb (l_hosts (put_member s i nd')) = map h_cb (l_hosts s) /\
  l_ctrl (put_member s i nd') = l_ctrl s /\ l_packets (put_member s i nd') = l_packets s.
Proof.
  intros E. destruct i as [|i]; [repeat split|]. cbn [members nth_error] in E.
  cbn [put_member]. rewrite nth_error_map in E. destruct (nth_error (l_hosts s) i) as [h|] eqn:EH; [|discriminate E].
  unfold members. cbn [l_node l_hosts l_ctrl l_packets set_nth]. split.
  - f_equal. clear E. revert i EH. induction (l_hosts s) as [|x l IH]; intros [|i] EH; cbn [nth_error set_nth map] in *;
      try discriminate EH; [reflexivity|]. rewrite (IH i EH). reflexivity.
  - split; [|auto]. clear E. revert i EH. induction (l_hosts s) as [|x l IH]; intros [|i] EH; cbn [nth_error set_nth map] in *;
      try discriminate EH.
    + injection EH as ->. reflexivity.
    + rewrite (IH i EH). reflexivity.
Qed.

Lemma set_nth_same ms i nd nd' : nth_error ms i = Some nd -> same nd nd' -> Forall2 same ms (set_nth ms i nd').
Proof.
  revert i. induction ms as [|x ms IH]; intros [|i] E H; cbn [nth_error set_nth] in *; try discriminate E.
  - injection E as ->. constructor; [exact H|]. clear. induction ms; constructor; [apply same_refl|assumption].
  - constructor; [apply same_refl|]. apply IH; assumption.
Qed.

Lemma same_addrs ms ms' : Forall2 same ms ms' -> map n_addr ms' = map n_addr ms.
Proof. induction 1 as [|a b l l' (H & _) _ IH]; [reflexivity|]. cbn [map]. congruence. Qed.

Lemma Forall_cbs (P : callbacks W -> Prop) (l l' : list (host W)) : map h_cb l' = map h_cb l ->
  Forall (fun h => P (h_cb h)) l -> Forall (fun h => P (h_cb h)) l'.
Proof.
  intros E H. rewrite <- Forall_map in *. rewrite E. exact H.
Qed.

Lemma broadcast_ok ms j nd nd' c : nth_error ms j = Some nd' -> n_addr nd = n_addr nd' -> speech nd' c ->
  Forall (packet_ok ms) (broadcast (length ms) (n_addr nd) c).
Proof.
  intros E HA HS. unfold broadcast. apply Forall_map, Forall_forall. intros i Hi. apply in_seq in Hi.
  exists j, nd', c. rewrite HA. split; [exact E|]. split; [reflexivity|]. split; [exact HS|]. cbn [pk_to]. lia.
Qed.

Lemma acts_spec s i f cs nd : lan_inv s -> nth_error (members s) i = Some nd -> does nd (f nd) cs ->
  Forall (speech nd) cs ->
  let s' := acts s i f in
  lan_inv s' /\ Forall2 same (members s) (members s') /\ l_ctrl s' = l_ctrl s /\
  l_packets s' = l_packets s ++ flat_map (broadcast (length (members s)) (n_addr nd)) cs.
Proof.
  intros (I1 & I2 & I3 & I4) E HD HS s'. unfold s', acts. rewrite E.
  destruct (members_put s i nd (f nd) E) as (M1 & M2 & M3 & M4).
  rewrite (outgoing_does _ _ _ _ HD). pose proof HD as (Hr & Hsame & _).
  assert (HSm : Forall2 same (members s) (set_nth (members s) i (f nd))) by (eapply set_nth_same; eassumption).
  set (ps := flat_map _ cs). change (members (add_packets (put_member s i (f nd)) ps)) with (members (put_member s i (f nd))).
  change (l_ctrl (add_packets (put_member s i (f nd)) ps)) with (l_ctrl (put_member s i (f nd))).
  change (l_packets (add_packets (put_member s i (f nd)) ps)) with (l_packets (put_member s i (f nd)) ++ ps).
  rewrite M1, M3, M4. split; [|auto].
  split; [|split; [|split]].
  - change (members (add_packets (put_member s i (f nd)) ps)) with (members (put_member s i (f nd))). rewrite M1.
    apply Forall_set_nth; assumption.
  - eapply (Forall_cbs (fun cb => keeps_node cb /\ never_fails cb)); [|exact I2]. exact M2.
  - change (members (add_packets (put_member s i (f nd)) ps)) with (members (put_member s i (f nd))). rewrite M1.
    rewrite (same_addrs _ _ HSm). exact I3.
  - change (members (add_packets (put_member s i (f nd)) ps)) with (members (put_member s i (f nd))).
    change (l_packets (add_packets (put_member s i (f nd)) ps)) with (l_packets (put_member s i (f nd)) ++ ps).
    rewrite M1, M4. apply Forall_app. split.
    + eapply Forall_impl; [|exact I4]. intros p. apply packets_same. exact HSm.
    + unfold ps. clear -HS E HSm Hsame. apply Forall_flat_map. eapply Forall_impl; [|exact HS]. intros c Hc.
      rewrite (Forall2_len _ _ _ HSm). eapply (broadcast_ok _ i nd (f nd)).
      * rewrite set_nth_at, Nat.eqb_refl; [reflexivity|]. apply nth_error_Some. congruence.
      * symmetry. apply Hsame.
      * eapply speech_same; eassumption.
Qed.

(** *** A member receives a datagram *)

(** What a member answers. *)
Definition answered (j : nat) (ndi ndj : node) (c : content) (rs : list packet) : Prop :=
  (exists t esv aesv, c = asks t esv /\ tid16 t /\ In (esv, aesv) [(0x62, 0x72); (0x63, 0x73)] /\ hears ndi (n_addr ndj) /\
     rs = [mkPacket j UDPUnicastPacket (mkDatagram (wire (lists t aesv 0xD6 ndi)) (n_addr ndi))]) \/
  (rs = [] /\ ((forall t esv, c <> asks t esv) \/ ~ hears ndi (n_addr ndj))).

Lemma hears_dec nd a : hears nd a \/ ~ hears nd a.
Proof.
  unfold hears. destruct (n_self nd); [tauto|]. destruct (address_dec a (n_addr nd)); [right|tauto].
  intros [H|H]; [discriminate H|contradiction].
Qed.

Lemma member_serves {W'} (cb : callbacks W') w ms j ndi ndj c pt :
  ready ndi -> ready ndj -> NoDup (map n_addr ms) -> nth_error ms j = Some ndj -> speech ndj c -> keeps_node cb -> quiet cb w ndi ->
  let r := serve_datagram cb w ndi None pt (n_addr ndi) (mkDatagram (wire c) (n_addr ndj)) in
  out_node (fst r) = ndi /\ answered j ndi ndj c (outgoing ms ndi (out_node (fst r)) ++ reply_packets ms (snd r)).
Proof.
  intros HRi HRj HD E HS HK HQ r.
  assert (EO : forall nd, outgoing ms nd nd = []).
  { intros nd. unfold outgoing. rewrite skipn_all. reflexivity. }
  destruct (speech_ok ndj c HRj HS) as (HL & Hlen & Hdeoj).
  destruct (hears_dec ndi (n_addr ndj)) as [HH|HH].
  2:{ destruct (deaf cb w ndi pt (n_addr ndi) c (n_addr ndj) HL Hlen HH) as (A & _ & B).
      unfold r. rewrite A, B, EO. split; [reflexivity|]. right. split; [reflexivity|]. right. exact HH. }
  assert (Hsilent : In (c_esv c) [0x72; 0x73] -> (forall t esv, c <> asks t esv) ->
    out_node (fst r) = ndi /\ answered j ndi ndj c (outgoing ms ndi (out_node (fst r)) ++ reply_packets ms (snd r))).
  { intros HE HN. destruct (answers_none cb w ndi pt (n_addr ndi) c (n_addr ndj) HRi HK HL Hlen Hdeoj HE) as (A & B).
    unfold r. rewrite A, B, EO. split; [reflexivity|]. right. split; [reflexivity|]. left. exact HN. }
  destruct HS as [t esv Ht HE|t esv code Ht HE Hc|t seoj code v Ht Hs Hc Hn Hv].
  - assert (HE' : exists aesv, In (esv, aesv) [(0x62, 0x72); (0x63, 0x73)]).
    { cbn [In] in HE. destruct HE as [<-|[<-|[]]]; eexists; [left|right; left]; reflexivity. }
    destruct HE' as (aesv & HE').
    destruct (answers_search cb w ndi pt (n_addr ndi) t esv aesv (n_addr ndj) HRi HK HQ Ht HE' HH) as (A & B).
    unfold r. rewrite A, B, EO. split; [reflexivity|]. left. exists t, esv, aesv. split; [reflexivity|].
    split; [exact Ht|]. split; [exact HE'|]. split; [exact HH|]. cbn [reply_packets app].
    rewrite (owner_of ms HD j ndj E). reflexivity.
  - apply Hsilent; [exact HE|]. intros t' esv' X. apply (f_equal c_props) in X. discriminate X.
  - apply Hsilent; [right; left; reflexivity|]. intros t' esv' X. apply (f_equal c_props) in X.
    cbn [tells asks c_props] in X. injection X as X _. apply Hn. right. left. symmetry. exact X.
Qed.

Lemma skipn_S {A} (l : list A) k : skipn (S k) l = tl (skipn k l).
Proof. revert l. induction k as [|k IH]; intros [|a l]; try reflexivity. cbn [skipn]. rewrite <- IH. reflexivity. Qed.

(** Taking one datagram out. *)
Lemma take_out (ps : list packet) k p : nth_error ps k = Some p ->
  ps = firstn k ps ++ p :: skipn (S k) ps.
Proof.
  intros E. rewrite <- (firstn_skipn k ps) at 1. f_equal. revert ps E.
  induction k as [|k IH]; intros [|a ps] E; cbn [nth_error] in E; try discriminate E.
  - injection E as ->. reflexivity.
  - cbn [skipn] in *. apply IH, E.
Qed.

Lemma without_none (ps : list packet) k : nth_error ps k = None -> without ps k = ps.
Proof.
  intros E. apply nth_error_None in E. unfold without. rewrite firstn_all2 by lia. rewrite skipn_all2 by lia. apply app_nil_r.
Qed.

Lemma without_incl ps k x : In x (without ps k) -> In x ps.
Proof.
  destruct (nth_error ps k) as [p|] eqn:E; [|rewrite without_none by exact E; auto].
  intros H. rewrite (take_out ps k p E). apply in_app_or in H. apply in_or_app. cbn [In]. tauto.
Qed.

(** What the controller makes of a datagram. *)
Definition ctrl_hears (conf : ctrl_conf) (s : lan W) (p : packet) : ctrl :=
  match pk_to p, ReadMessage (pk_datagram p) with
  | O, Ok m => ctrl_receive conf (l_node s) (l_ctrl s) (SetPacketType m (pk_type p))
  | _, _ => l_ctrl s
  end.

Lemma receives_spec conf s p j ndi ndj c : lan_inv s -> nth_error (members s) (pk_to p) = Some ndi ->
  from_member (members s) p j ndj c ->
  let s' := receives conf s p in
  lan_inv s' /\ members s' = members s /\ l_ctrl s' = ctrl_hears conf s p /\
  exists rs, l_packets s' = l_packets s ++ rs /\ answered j ndi ndj c rs.
Proof.
  intros HI Ei (Ej & ED & HS & HT) s'. pose proof HI as (I1 & I2 & I3 & I4).
  assert (Ri : ready ndi) by (rewrite Forall_forall in I1; apply I1; eapply nth_error_In, Ei).
  assert (Rj : ready ndj) by (rewrite Forall_forall in I1; apply I1; eapply nth_error_In, Ej).
  assert (Hfin : forall s' : lan W, members s' = members s -> map h_cb (l_hosts s') = map h_cb (l_hosts s) ->
    (exists rs, l_packets s' = l_packets s ++ rs /\ answered j ndi ndj c rs) -> lan_inv s').
  { intros x M1 M2 (rs & M3 & M4). split; [rewrite M1; exact I1|].
    split; [eapply (Forall_cbs (fun cb => keeps_node cb /\ never_fails cb)); [exact M2|exact I2]|].
    split; [rewrite M1; exact I3|]. rewrite M1, M3. apply Forall_app. split; [exact I4|].
    destruct M4 as [(t & esv & aesv & _ & Ht & HE & _ & ->)|(-> & _)]; [|constructor].
    constructor; [|constructor]. exists (pk_to p), ndi, (lists t aesv 0xD6 ndi). split; [exact Ei|]. split; [reflexivity|].
    split.
    - apply SpLists; [exact Ht| |right; left; reflexivity].
      cbn [In] in *. destruct HE as [HE|[HE|[]]]; injection HE as _ <-; tauto.
    - cbn [pk_to]. apply nth_error_Some. congruence. }
  destruct (speech_ok ndj c Rj HS) as (HL & Hlen & _).
  destruct (wire_arrives c (n_addr ndj) HL Hlen) as (m & EM & _).
  unfold s', receives, ctrl_hears. destruct (pk_to p) as [|i] eqn:ET.
  - cbn [members nth_error] in Ei. injection Ei as <-.
    destruct (member_serves (ctrl_callbacks conf) (l_ctrl s) (members s) j (l_node s) ndj c (pk_type p)
      Ri Rj I3 Ej HS (ctrl_keeps conf) (ctrl_quiet conf (l_ctrl s) (l_node s))) as (A & B).
    rewrite ED in *. rewrite EM.
    assert (EW : out_world (fst (serve_datagram (ctrl_callbacks conf) (l_ctrl s) (l_node s) None (pk_type p) (n_addr (l_node s))
       (mkDatagram (wire c) (n_addr ndj)))) = ctrl_receive conf (l_node s) (l_ctrl s) (SetPacketType m (pk_type p))).
    { unfold serve_datagram. rewrite EM. reflexivity. }
    destruct (serve_datagram _ _ _ _ _ _ _) as [out r]. cbn [fst snd] in A, B, EW.
    match goal with |- lan_inv ?x /\ _ => set (s1 := x) end.
    assert (M1 : members s1 = members s) by (unfold members, s1; cbn [add_packets l_node l_hosts]; rewrite A; reflexivity).
    assert (M3 : exists rs, l_packets s1 = l_packets s ++ rs /\ answered j (l_node s) ndj c rs) by (eexists; split; [reflexivity|exact B]).
    split; [apply Hfin; [exact M1|reflexivity|exact M3]|]. split; [exact M1|]. split; [exact EW|exact M3].
  - cbn [members nth_error] in Ei. rewrite nth_error_map in Ei.
    destruct (nth_error (l_hosts s) i) as [h|] eqn:EH; [|discriminate Ei]. cbn [option_map] in Ei. injection Ei as Ei.
    assert (HC : keeps_node (h_cb h) /\ never_fails (h_cb h)).
    { rewrite Forall_forall in I2. apply I2. eapply nth_error_In, EH. }
    destruct (member_serves (h_cb h) (h_app h) (members s) j ndi ndj c (pk_type p)
      Ri Rj I3 Ej HS (proj1 HC) (never_fails_quiet _ _ _ (proj2 HC))) as (A & B).
    rewrite Ei. rewrite ED in *. destruct (serve_datagram _ _ _ _ _ _ _) as [out r]. cbn [fst snd] in A, B.
    match goal with |- lan_inv ?x /\ _ => set (s1 := x) end.
    assert (M : members s1 = members s /\ map h_cb (l_hosts s1) = map h_cb (l_hosts s)).
    { unfold members, s1. cbn [add_packets l_node l_hosts]. rewrite A. clear -EH Ei. revert i EH.
      induction (l_hosts s) as [|x l IH]; intros [|i] EH; cbn [nth_error set_nth map] in *; try discriminate EH.
      - injection EH as ->. cbn [h_node h_cb]. rewrite Ei. auto.
      - destruct (IH i EH) as (M1 & M2). injection M1 as M1. rewrite M1, M2. auto. }
    destruct M as (M1 & M2).
    assert (M3 : exists rs, l_packets s1 = l_packets s ++ rs /\ answered j ndi ndj c rs) by (eexists; split; [reflexivity|exact B]).
    split; [apply Hfin; [exact M1|exact M2|exact M3]|]. split; [exact M1|]. split; [reflexivity|exact M3].
Qed.

End Net.

(** ** What the controller makes of the messages *)

Lemma speech_valid cn nd c m pt : ready cn -> ready nd -> speech nd c -> represents m c ->
  exists r o, valid cn (SetPacketType m pt) r o.
Proof.
  intros Hc Hn HS HR. destruct (speech_ok nd c Hn HS) as (HL & _ & HD).
  destruct (represents_getters m c HR HL) as (_ & _ & G3 & G4 & _ & _).
  assert (EP : m_ep m = map of_pair (c_props c)) by apply HR.
  destruct (ready_np cn Hc) as (np & rest & _ & _ & LK & OA & _ & HH & HG).
  exists (ProfRef 0), np. split; [split; [|exact OA]|].
  { change (DEOJ (SetPacketType m pt)) with (DEOJ m). rewrite G3, HD. exact LK. }
  change (m_esv (SetPacketType m pt)) with (m_esv m). change (m_ep (SetPacketType m pt)) with (m_ep m).
  rewrite G4, EP. destruct HS as [t esv Ht HE|t esv code Ht HE Hcd|t seoj code v Ht Hs Hcd Hx Hv].
  - cbn [asks c_esv c_props map of_pair fst snd]. split.
    + unfold known_esv, spec_request. cbn [app In] in *. tauto.
    + intros HW. constructor; [|constructor]. destruct HH as (q & Hq & _). exists q. cbn [pp_code pp_data].
      split; [exact Hq|]. split.
      * intros _. unfold gat in HG. rewrite Hq in HG. cbn [option_map] in HG. injection HG as ->. discriminate.
      * unfold writes. cbn [In] in *. intros X. exfalso. lia.
  - cbn [lists c_esv c_props]. split.
    + unfold known_esv, spec_request, spec_response, spec_notification. cbn [app In] in *. lia.
    + unfold reads, writes. cbn [In] in *. intros X. exfalso. lia.
  - cbn [tells c_esv c_props]. split.
    + unfold known_esv, spec_request, spec_response, spec_notification. cbn [app In] in *. tauto.
    + unfold reads, writes. cbn [In] in *. intros X. exfalso. lia.
Qed.

Definition seen (conf : ctrl_conf) (a : address) : address := mkAddress (a_ip a) (if cc_auto conf then a_port a else 3610).

(** Whether the controller listens to a member. *)
Definition heeds (conf : ctrl_conf) (cn : node) (a : address) : Prop :=
  n_self cn = true \/ (a <> n_addr cn /\ ~ In (Some (a_port a), Some (a_ip a)) (cc_servers conf)).

Lemma heeds_foreign conf cn m a : m_from m = a -> heeds conf cn a <-> foreign conf cn m.
Proof.
  intros <-. unfold heeds, foreign, from_server. split; (intros [H|(H1 & H2)]; [left; exact H|right; split; [exact H1|]]).
  - intros (p & i & I & F). apply H2. rewrite F. exact I.
  - intros I. apply H2. exists (a_port (m_from m)), (a_ip (m_from m)). split; [exact I|]. destruct (m_from m). reflexivity.
Qed.

Lemma heeds_dec conf cn a : heeds conf cn a \/ ~ heeds conf cn a.
Proof.
  unfold heeds. destruct (n_self cn) eqn:E; [tauto|]. destruct (address_dec a (n_addr cn)) as [->|N].
  - right. intros [H|(H & _)]; [discriminate H|apply H; reflexivity].
  - destruct (in_dec (fun x y : option Z * option Z => ltac:(repeat decide equality) : {x = y} + {x <> y})
      (Some (a_port a), Some (a_ip a)) (cc_servers conf)).
    + right. intros [H|(_ & H)]; [discriminate H|contradiction].
    + tauto.
Qed.

Lemma not_foreign conf cn ct m : received m -> ~ foreign conf cn m -> ctrl_receive conf cn ct m = ct.
Proof.
  intros HR HF. destruct (negb (n_self cn) && addr_eqb (m_from m) (n_addr cn)) eqn:EO.
  { unfold ctrl_receive, ProtocolMessageReceived. rewrite EO. reflexivity. }
  pose proof (not_own_of cn m EO) as HO.
  destruct (valid_dec cn m HR) as [(r & o & HV)|HV]; [|apply receive_invalid; tauto].
  pose proof (receive_valid conf cn ct m r o HR HO HV) as HM. unfold OnMessage in HM.
  destruct (negb (n_self cn) && isSelfMessage conf m) eqn:ES; [congruence|]. exfalso. apply HF.
  destruct (n_self cn) eqn:EX; [left; exact EX|]. right. destruct HO as [HO|HO]; [congruence|]. split; [exact HO|].
  intros (p & i & I & F). cbn [negb andb] in ES. rewrite <- Bool.not_true_iff_false in ES. apply ES.
  unfold isSelfMessage. apply existsb_exists. exists (Some p, Some i). split; [exact I|]. cbn [fst snd]. rewrite F.
  cbn [a_port a_ip]. rewrite !Z.eqb_refl. reflexivity.
Qed.

Lemma foreign_messages conf cn ct m r o : received m -> foreign conf cn m -> valid cn m r o ->
  ct_messages (ctrl_receive conf cn ct m) = ct_messages ct ++ (if cc_listener conf then [m] else []).
Proof.
  intros HR HF HV. assert (HO : not_own cn m) by (destruct HF as [HF|(HF & _)]; [left|right]; assumption).
  pose proof (receive_valid conf cn ct m r o HR HO HV) as HM. unfold OnMessage in HM.
  rewrite (self_false conf cn m HF) in HM.
  assert (X : forall ct1, (if isNodeProfileMessage m then parseNodeProfileMessage conf (n_self cn) ct m else Ok ct) = Ok ct1 ->
    ct_messages ct1 = ct_messages ct).
  { intros ct1. destruct (isNodeProfileMessage m); [|congruence]. unfold parseNodeProfileMessage.
    rewrite (self_false conf cn m HF). destruct (newRemoteNodeWithInstanceListMessageAndConfig m (cc_auto conf)); [|congruence|discriminate].
    intros [= <-]. unfold addNode. destruct (existsb _ _); reflexivity. }
  destruct (if isNodeProfileMessage m then parseNodeProfileMessage conf (n_self cn) ct m else Ok ct) as [ct1| |]; try discriminate HM.
  specialize (X ct1 eq_refl). cbn [bind] in HM. injection HM as HM. rewrite <- HM.
  destruct (cc_listener conf); cbn [ct_messages]; rewrite X; [reflexivity|]. rewrite app_nil_r. reflexivity.
Qed.

(** The node in the table is the member. *)
Definition shows (conf : ctrl_conf) (nd : node) (n : rnode) : Prop :=
  rn_addr n = seen conf (n_addr nd) /\ map o_codes (rn_devices n) = devs_of nd /\
  describes (seen conf (n_addr nd)) (devs_of nd) n.

Lemma ctrl_list conf cn ct nd t esv code m pt : ready cn -> ready nd -> tid16 t -> In esv [0x72; 0x73] -> In code [0xD5; 0xD6] ->
  represents m (lists t esv code nd) -> m_from m = n_addr nd -> received (SetPacketType m pt) ->
  heeds conf cn (n_addr nd) ->
  let ct' := ctrl_receive conf cn ct (SetPacketType m pt) in
  (known ct (seen conf (n_addr nd)) /\ ct_found ct' = ct_found ct) \/
  (~ known ct (seen conf (n_addr nd)) /\ exists n, ct_found ct' = ct_found ct ++ [n] /\ shows conf nd n).
Proof.
  intros Hc Hn Ht HE Hcd HR HF HV HH ct'. set (r := SetPacketType m pt) in *.
  assert (HS : speech nd (lists t esv code nd)) by (constructor; assumption).
  destruct (speech_ok nd _ Hn HS) as (HL & _ & _).
  destruct (represents_getters m _ HR HL) as (_ & _ & G3 & G4 & G5 & G6).
  destruct (ready_np cn Hc) as (np & rest & _ & _ & LK & _).
  assert (HFo : foreign conf cn r) by (apply (heeds_foreign conf cn r (n_addr nd)); assumption).
  assert (HA : announcement conf cn r).
  { split; [exact HV|]. split; [exact HFo|]. change (m_esv r) with (m_esv m). change (DEOJ r) with (DEOJ m).
    rewrite G3, G4. cbn [lists c_esv c_deoj In] in *. split; [tauto|]. split; [tauto|]. rewrite LK. discriminate. }
  assert (HIL : instance_list r (devs_of nd)).
  { exists (mkPProp code (list_data nd)), [], []. change (OPC r) with (OPC m). change (m_ep r) with (m_ep m).
    rewrite G5, G6. cbn [lists c_props length map of_pair]. split; [lia|]. split; [reflexivity|]. split; [exact Hcd|].
    cbn [pp_data]. rewrite app_nil_r. split; [|apply ready_codes3, Hn].
    unfold list_data, devs_of. rewrite map_length. f_equal. unfold PropsNode.count_byte.
    destruct (Nat.leb (length (n_devices nd)) 254) eqn:EL; [reflexivity|]. apply Nat.leb_gt in EL.
    destruct Hn as (_ & _ & _ & _ & _ & Hn & _). lia. }
  assert (ES : sender conf r = seen conf (n_addr nd)).
  { unfold sender, seen, r. cbn [SetPacketType m_from]. rewrite HF. reflexivity. }
  assert (HC : Forall (fun c => known_class c /\ is_profile c = false) (devs_of nd)) by apply Hn.
  destruct (C38_step conf cn ct r HV) as [(n & (_ & U & codes & _) & _)|(N & F & _)].
  - right. rewrite ES in U. split; [exact U|]. rewrite <- ES in U.
    destruct (C37_discovered_partial conf cn ct r (devs_of nd) HA U HIL) as (n' & N1 & N2 & N3 & _).
    { eapply Forall_impl; [|exact HC]. intros k [Hk _]. right. exact Hk. }
    rewrite ES in N2. exists n'. split; [exact N1|]. split; [apply N2|]. split; [|exact N2]. rewrite N3.
    clear -HC. induction HC as [|k l [_ Hk] _ IH]; [reflexivity|]. cbn [filter]. rewrite Hk. cbn [negb]. rewrite IH. reflexivity.
  - left. split; [|exact F].
    destruct (in_dec address_dec (sender conf r) (map rn_addr (ct_found ct))) as [K|K]; [rewrite <- ES; exact K|].
    exfalso. destruct (C37_discovered_partial conf cn ct r (devs_of nd) HA K HIL) as (n' & N1 & _).
    { eapply Forall_impl; [|exact HC]. intros k [Hk _]. right. exact Hk. }
    fold ct' in F. unfold ct' in F. rewrite N1 in F. apply (f_equal (@length _)) in F. rewrite app_length in F. cbn [length] in F. lia.
Qed.

Lemma ctrl_other conf cn ct nd c m pt : ready nd -> speech nd c ->
  (forall t esv code, In code [0xD5; 0xD6] -> c <> lists t esv code nd) -> represents m c -> received (SetPacketType m pt) ->
  ct_found (ctrl_receive conf cn ct (SetPacketType m pt)) = ct_found ct.
Proof.
  intros Hn HS HN HR HV. destruct (speech_ok nd c Hn HS) as (HL & _ & _).
  destruct (represents_getters m c HR HL) as (_ & _ & _ & G4 & G5 & _).
  destruct (C38_step conf cn ct (SetPacketType m pt) HV) as [(n & J & _)|(_ & F & _)]; [|exact F]. exfalso.
  destruct J as ((_ & _ & JE & _) & _ & codes & (p & rest & tr & _ & JP & JC & _) & _).
  change (m_esv (SetPacketType m pt)) with (m_esv m) in JE. change (m_ep (SetPacketType m pt)) with (m_ep m) in JP.
  rewrite G4 in JE. assert (EP : m_ep m = map of_pair (c_props c)) by apply HR. rewrite EP in JP. clear EP.
  destruct HS as [t esv Ht HE|t esv code Ht HE Hcd|t seoj code v Ht Hs Hcd Hx Hv].
  - cbn [asks c_esv In] in *. lia.
  - exact (HN t esv code Hcd eq_refl).
  - cbn [tells c_props map of_pair fst snd] in JP. injection JP as <- _.
    cbn [pp_code] in JC. contradiction.
Qed.

(** ** Steps *)

(** Searches are reads or notification requests; a device has no instance list of
    its own (C78). *)
Definition allowed (e : lan_event) : Prop :=
  match e with
  | LSearch _ esv => In esv [0x62; 0x63]
  | LSet _ _ code v => ~ In code [0xD5; 0xD6] /\ value v
  | _ => True
  end.

Section Steps.
Context {W : Type}.
Implicit Types (s : lan W).

(** The contents said in a step, and by whom. *)
Definition said (s : lan W) (e : lan_event) (i : nat) (nd : node) (cs : list content) : Prop :=
  nth_error (members s) i = Some nd /\
  match e with
  | LSearch j esv => j = i /\ exists t, tid16 t /\ cs = [asks t esv]
  | LAnnounce j => j = i /\ exists t, tid16 t /\ cs = [lists t 0x73 0xD5 nd]
  | LSet j d code v => j = i /\
      match announces_as nd d code with
      | None => cs = []
      | Some seoj => 0 <= seoj < 2 ^ 24 /\ is_byte code /\ exists t, tid16 t /\ cs = [tells t seoj code v]
      end
  | _ => False
  end.

(** A step is one of: a member that exists says something; a datagram arrives; the
    packets are lost or repeated; the table is cleared; nothing. *)
Lemma step_cases conf s e : lan_inv s -> allowed e ->
  let s' := lan_step conf s e in
  lan_inv s' /\ Forall2 same (members s) (members s') /\
  ((exists i nd cs, said s e i nd cs /\ Forall (speech nd) cs /\ l_ctrl s' = l_ctrl s /\
      l_packets s' = l_packets s ++ flat_map (broadcast (length (members s)) (n_addr nd)) cs) \/
   (exists k p j ndi ndj c rs, e = LDeliver k /\ nth_error (l_packets s) k = Some p /\
      from_member (members s) p j ndj c /\ nth_error (members s) (pk_to p) = Some ndi /\
      l_ctrl s' = ctrl_hears conf s p /\
      l_packets s' = without (l_packets s) k ++ rs /\ answered j ndi ndj c rs) \/
   (exists k, e = LLose k /\ l_ctrl s' = l_ctrl s /\ l_packets s' = without (l_packets s) k) \/
   (exists k p, e = LRepeat k /\ nth_error (l_packets s) k = Some p /\ l_ctrl s' = l_ctrl s /\ l_packets s' = l_packets s ++ [p]) \/
   (e = LClear /\ l_ctrl s' = Clear (l_ctrl s) /\ l_packets s' = l_packets s) \/
   (s' = s /\ match e with
              | LSearch i _ | LAnnounce i | LSet i _ _ _ => nth_error (members s) i = None
              | LDeliver k | LRepeat k => nth_error (l_packets s) k = None
              | _ => False
              end)).
Proof.
  intros HI HA s'. pose proof HI as (I1 & I2 & I3 & I4).
  assert (Hsame : forall ms, Forall2 same ms ms) by (induction ms; constructor; [apply same_refl|assumption]).
  assert (Hact : forall i f nd cs, nth_error (members s) i = Some nd -> does nd (f nd) cs -> Forall (speech nd) cs ->
    s' = acts s i f -> said s e i nd cs ->
    lan_inv s' /\ Forall2 same (members s) (members s') /\
    exists i nd cs, said s e i nd cs /\ Forall (speech nd) cs /\ l_ctrl s' = l_ctrl s /\
      l_packets s' = l_packets s ++ flat_map (broadcast (length (members s)) (n_addr nd)) cs).
  { intros i f nd cs E HD HS ES Hsaid. rewrite ES. destruct (acts_spec s i f cs nd HI E HD HS) as (A1 & A2 & A3 & A4).
    split; [exact A1|]. split; [exact A2|]. exists i, nd, cs. auto. }
  assert (Hnone : forall i f, nth_error (members s) i = None -> s' = acts s i f -> s' = s).
  { intros i f E ->. unfold acts. rewrite E. reflexivity. }
  assert (Hr : forall i nd, nth_error (members s) i = Some nd -> ready nd).
  { intros i nd E. rewrite Forall_forall in I1. apply I1. eapply nth_error_In, E. }
  destruct e as [i esv| |i|i d code v|k|k|k]; cbn [allowed] in HA.
  - destruct (nth_error (members s) i) as [nd|] eqn:E.
    + destruct (does_search nd esv (Hr i nd E) HA) as (t & Ht & HD).
      destruct (Hact i (fun nd => fst (SearchAllObjectsWithESV nd esv)) nd [asks t esv] E HD) as (A & B & C); [|reflexivity| |auto].
      * constructor; [|constructor]. constructor; assumption.
      * split; [exact E|]. split; [reflexivity|]. eauto.
    + rewrite (Hnone i _ E eq_refl). split; [exact HI|]. split; [apply Hsame|]. do 5 right. auto.
  - split; [exact HI|]. split; [apply Hsame|]. do 4 right. left. auto.
  - destruct (nth_error (members s) i) as [nd|] eqn:E.
    + destruct (does_announce nd (Hr i nd E)) as (t & Ht & HD).
      destruct (Hact i (fun nd => fst (Announce nd)) nd [lists t 0x73 0xD5 nd] E HD) as (A & B & C); [|reflexivity| |auto].
      * constructor; [|constructor]. constructor; [exact Ht|right; left; reflexivity|left; reflexivity].
      * split; [exact E|]. split; [reflexivity|]. eauto.
    + rewrite (Hnone i _ E eq_refl). split; [exact HI|]. split; [apply Hsame|]. do 5 right. auto.
  - destruct (nth_error (members s) i) as [nd|] eqn:E.
    + pose proof (does_set nd d code v (Hr i nd E) (proj2 HA)) as HD. cbv zeta in HD.
      destruct (announces_as nd d code) as [seoj|] eqn:EA.
      * destruct HD as (R1 & R2 & t & Ht & HD).
        destruct (Hact i (fun nd => fst (on_object nd (DevRef d) (fun o => SetPropertyData o code v))) nd
          [tells t seoj code v] E HD) as (A & B & C); [|reflexivity| |auto].
        -- constructor; [|constructor]. constructor; [exact Ht|exact R1|exact R2|apply HA..].
        -- split; [exact E|]. split; [reflexivity|]. rewrite EA. split; [exact R1|]. split; [exact R2|]. eauto.
      * destruct (Hact i (fun nd => fst (on_object nd (DevRef d) (fun o => SetPropertyData o code v))) nd [] E HD)
          as (A & B & C); [constructor|reflexivity| |auto].
        split; [exact E|]. split; [reflexivity|]. rewrite EA. reflexivity.
    + rewrite (Hnone i _ E eq_refl). split; [exact HI|]. split; [apply Hsame|]. do 5 right. auto.
  - unfold s'. cbn [lan_step]. destruct (nth_error (l_packets s) k) as [p|] eqn:E.
    2:{ split; [exact HI|]. split; [apply Hsame|]. do 5 right. auto. }
    assert (HP : packet_ok (members s) p) by (rewrite Forall_forall in I4; apply I4; eapply nth_error_In, E).
    destruct HP as (j & ndj & c & HF).
    assert (HT : exists ndi, nth_error (members s) (pk_to p) = Some ndi).
    { destruct HF as (_ & _ & _ & HT). apply nth_error_Some in HT. destruct (nth_error (members s) (pk_to p)); [eauto|congruence]. }
    destruct HT as (ndi & HT). set (s1 := with_packets s (without (l_packets s) k)).
    assert (HI1 : lan_inv s1).
    { split; [exact I1|]. split; [exact I2|]. split; [exact I3|]. unfold s1. cbn [with_packets l_packets].
      rewrite Forall_forall in *. intros x Hx. apply I4. eapply without_incl, Hx. }
    destruct (receives_spec conf s1 p j ndi ndj c HI1 HT HF) as (A1 & A2 & A3 & rs & A4 & A5).
    split; [exact A1|]. split; [rewrite A2; apply Hsame|]. right. left.
    exists k, p, j, ndi, ndj, c, rs. split; [reflexivity|]. split; [exact E|]. split; [exact HF|]. split; [exact HT|].
    split; [exact A3|]. split; [exact A4|exact A5].
  - split; [|split; [apply Hsame|]].
    + split; [exact I1|]. split; [exact I2|]. split; [exact I3|]. unfold s'. cbn [lan_step with_packets l_packets].
      rewrite Forall_forall in *. intros x Hx. apply I4. eapply without_incl, Hx.
    + right. right. left. exists k. auto.
  - unfold s'. cbn [lan_step]. destruct (nth_error (l_packets s) k) as [p|] eqn:E.
    2:{ split; [exact HI|]. split; [apply Hsame|]. do 5 right. auto. }
    split; [|split; [apply Hsame|]].
    + split; [exact I1|]. split; [exact I2|]. split; [exact I3|]. cbn [add_packets l_packets].
      apply Forall_app. split; [exact I4|]. constructor; [|constructor]. rewrite Forall_forall in I4. apply I4. eapply nth_error_In, E.
    + right. right. right. left. exists k, p. auto.
Qed.

Lemma same_members_trans (a b c : list node) : Forall2 same a b -> Forall2 same b c -> Forall2 same a c.
Proof.
  intros H. revert c. induction H as [|x y l l' H _ IH]; intros c H'; inversion H'; subst; constructor.
  - eapply same_trans; eassumption.
  - auto.
Qed.

Lemma run_inv conf es : forall s, lan_inv s -> Forall allowed es ->
  lan_inv (lan_run conf s es) /\ Forall2 same (members s) (members (lan_run conf s es)).
Proof.
  induction es as [|e es IH]; intros s HI HA.
  - split; [exact HI|]. cbn [lan_run fold_left]. clear. induction (members s); constructor; [apply same_refl|assumption].
  - inversion HA as [|? ? H1 H2]; subst. destruct (step_cases conf s e HI H1) as (A & B & _).
    destruct (IH (lan_step conf s e) A H2) as (C & D). split; [exact C|]. eapply same_members_trans; [exact B|exact D].
Qed.

End Steps.

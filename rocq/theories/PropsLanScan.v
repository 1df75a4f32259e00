(** C82: a detailed scan of a network shows what the devices hold. *)

From Coq Require Import String ZifyBool ZifyNat Permutation.
From Verif Require Import Go GoFacts Encoding EncodingFacts Protocol Parser MessageFacts ParserFacts
  ProtocolFacts Reader StdDB Property PropertyFacts Object ObjectFacts Spec Node NodeFacts
  Handler HandlerFacts PropsHandler Remote RemoteFacts PropsRemote Transport TransportFacts Exchange ExchangeFacts
  PropsExchange PropsSearch Lan LanFacts PropsLan Cmd LanScan.
From Verif Require PropsProtocol PropsNode PropsDetails.
Local Open Scope Z_scope.
Local Open Scope list_scope.

(** ** Vocabulary *)

(** Object [obj] of the node has property [code], which may be read and has data
    [v] that fits into a message. *)
Definition readable_value (nd : node) (obj code : Z) (v : list Z) : Prop :=
  exists r o q, LookupObject nd obj = Some r /\ obj_at nd r = Some o /\
    LookupProperty (o_props o) code = Some q /\ p_get q <> Prohibited /\ p_data q = v /\ value v.

(** The object does not have the property or it may not be read. *)
Definition unreadable (nd : node) (obj code : Z) : Prop :=
  exists r o, LookupObject nd obj = Some r /\ obj_at nd r = Some o /\
    forall q, LookupProperty (o_props o) code = Some q -> p_get q = Prohibited.

(** A row of the table for a property of an object of node [nd]. *)
Definition scanned (env : scan_env) (nds : list node) (t : rnode * object * property) (row : list string) : Prop :=
  let '(rn, o, p) := t in
  exists nd man on pn ru data, In nd nds /\ n_addr nd = rn_addr rn /\
    row = [se_address env (a_ip (n_addr nd)); fmt_d (a_port (n_addr nd)); man; fmt_X 6 (Code o); on;
           fmt_X 2 (p_code p); pn; ru; data] /\
    PropsDetails.rule p ru /\
    (forall v, readable_value nd 0x0EF001 0x8A v ->
       man = match se_manufacture env (ByteToInteger v) with Some name => name | None => "unknown"%string end) /\
    (unreadable nd 0x0EF001 0x8A -> man = "unknown"%string) /\
    (p_get p <> Required -> data = ""%string) /\
    (p_get p = Required -> forall v, readable_value nd (Code o) (p_code p) v -> data = PropsDetails.hex_text v) /\
    (unreadable nd (Code o) (p_code p) -> data = ""%string).

(** ** The network during the scan *)

Section Scan.
Context {W : Type}.
Variable conf : ctrl_conf.
Implicit Types (s : lan W).

Definition unchanged (s s' : lan W) : Prop :=
  map h_node (l_hosts s') = map h_node (l_hosts s) /\
  Forall (fun h => keeps_node (h_cb h) /\ never_fails (h_cb h)) (l_hosts s') /\
  core_inv (core_of (l_node s')) /\ tid_ok (l_node s') /\ n_running (l_node s') = true /\
  n_addr (l_node s') = n_addr (l_node s) /\ n_self (l_node s') = n_self (l_node s).

Lemma served_same (cb : callbacks W) w nd pending pt sa d : keeps_node cb ->
  out_node (fst (serve_datagram cb w nd pending pt sa d)) = nd.
Proof.
  intros HK. unfold serve_datagram. destruct (ReadMessage d); try reflexivity.
  unfold handle_datagram_message. cbn [fst]. apply C29_no_change, HK.
Qed.

Lemma ctrl_served_same w nd pending pt sa d :
  out_node (fst (serve_datagram (ctrl_callbacks conf) w nd pending pt sa d)) = nd.
Proof.
  unfold serve_datagram. destruct (ReadMessage d); try reflexivity.
  unfold handle_datagram_message. cbn [fst]. apply C29_no_change, LanFacts.ctrl_keeps.
Qed.

Lemma map_set_nth {A B} (f : A -> B) l : forall i x y, nth_error l i = Some x -> f y = f x -> map f (set_nth l i y) = map f l.
Proof.
  induction l as [|a l IH]; intros [|i] x y E H; cbn [nth_error] in E; try discriminate E; cbn [set_nth map].
  - injection E as <-. rewrite H. reflexivity.
  - rewrite (IH i x y E H). reflexivity.
Qed.

Lemma Forall_set_nth {A} (P : A -> Prop) l : forall i y, Forall P l -> P y -> Forall P (set_nth l i y).
Proof.
  induction l as [|a l IH]; intros [|i] y H Hy; cbn [set_nth]; try assumption; inversion H; subst; constructor; auto.
Qed.

Lemma post_unchanged s s' a m : unchanged s s' -> unchanged s (fst (net_post conf s' a m)).
Proof.
  intros (H1 & H2 & H3 & H4 & H5 & H6 & H7). unfold net_post.
  unfold Node_PostMessage. cbn [pn_node_tcp pn_server_tcp pn_send pn_post bind]. rewrite H5. cbn [negb].
  rewrite header_run by assumption. cbn [UManager_Send UServer_SendMessage bind].
  set (t := (n_lastTID (l_node s') + 1) mod 65536). set (m' := SetSEOJ (SetTID m t) 0x0EF001).
  assert (U0 : unchanged s s') by (unfold unchanged; auto 10).
  assert (T : tid_ok (with_lastTID (l_node s') t)).
  { unfold tid_ok. cbn [with_lastTID n_lastTID]. subst t. pose proof (Z.mod_pos_bound (n_lastTID (l_node s') + 1) 65536). lia. }
  destruct (Bytes m') as [b| |]; cbn [bind]; try exact U0. cbn [fst snd app].
  set (cl := hand_over (with_lastTID (l_node s') t) (Unicast a m')).
  assert (UC : forall ct hosts ps, map h_node hosts = map h_node (l_hosts s) ->
    Forall (fun h => keeps_node (h_cb h) /\ never_fails (h_cb h)) hosts -> unchanged s (mkLan cl ct hosts ps)).
  { intros ct hosts ps E F. unfold unchanged. cbn [l_node l_hosts]. auto 10. }
  destruct (owner (members s') a) as [[|i]|]; cbn [fst]; try (apply UC; assumption).
  destruct (nth_error (l_hosts s') i) as [h|] eqn:EH; cbn [fst]; [|apply UC; assumption].
  assert (HH : keeps_node (h_cb h) /\ never_fails (h_cb h)) by (rewrite Forall_forall in H2; apply H2; eapply nth_error_In, EH).
  pose proof (served_same (h_cb h) (h_app h) (h_node h) None UDPUnicastPacket (n_addr (h_node h))
                (mkDatagram b (n_addr cl)) (proj1 HH)) as EN.
  destruct (serve_datagram (h_cb h) (h_app h) (h_node h) None UDPUnicastPacket (n_addr (h_node h)) (mkDatagram b (n_addr cl))) as [out r].
  cbn [fst] in EN. rewrite EN.
  assert (E1 : map h_node (set_nth (l_hosts s') i (mkHost (h_node h) (out_world out) (h_cb h))) = map h_node (l_hosts s)).
  { rewrite <- H1. apply (map_set_nth h_node _ _ h); [exact EH|reflexivity]. }
  assert (E2 : Forall (fun h => keeps_node (h_cb h) /\ never_fails (h_cb h)) (set_nth (l_hosts s') i (mkHost (h_node h) (out_world out) (h_cb h)))).
  { apply Forall_set_nth; [exact H2|exact HH]. }
  destruct r as [[[dst d]|]| |]; cbn [fst]; try (apply UC; assumption).
  destruct (negb (addr_eqb dst (n_addr cl))); cbn [fst]; [apply UC; assumption|].
  pose proof (ctrl_served_same (l_ctrl s') cl (Some m') UDPUnicastPacket (n_addr cl) d) as EC.
  destruct (serve_datagram (ctrl_callbacks conf) (l_ctrl s') cl (Some m') UDPUnicastPacket (n_addr cl) d) as [out' r'].
  cbn [fst] in EC |- *. rewrite EC. apply UC; assumption.
Qed.

Lemma posts_unchanged s s' : posts conf s s' -> unchanged s s -> unchanged s s'.
Proof. intros H U. induction H as [|s s' a m H IH]; [exact U|]. apply post_unchanged, IH, U. Qed.

(** ** One request *)

Lemma read_is_request obj code : 0 <= obj < 2 ^ 24 -> read_message obj code = new_request obj 0x62 [mkPProp code []].
Proof. intros H. unfold read_message, new_request. reflexivity. Qed.

Lemma post_answered s' i h obj code a : core_inv (core_of (l_node s')) -> tid_ok (l_node s') -> n_running (l_node s') = true ->
  nth_error (l_hosts s') i = Some h -> owner (members s') a = Some (S i) -> n_addr (h_node h) = a ->
  hears (l_node s') a -> 0 <= obj < 2 ^ 24 -> 0 <= code < 256 ->
  let t := (n_lastTID (l_node s') + 1) mod 65536 in
  let c := mkContent t 0x0EF001 obj 0x62 [(code, [])] in
  forall aesv props, let ca := mkContent t obj 0x0EF001 aesv props in
  In aesv [0x72; 0x52] -> in_limits ca -> (length (wire ca) <= 1024)%nat ->
  snd (serve_datagram (h_cb h) (h_app h) (h_node h) None UDPUnicastPacket a (mkDatagram (wire c) (n_addr (l_node s')))) =
    Ok (Some (n_addr (l_node s'), mkDatagram (wire ca) a)) ->
  exists resp, snd (net_post conf s' a (read_message obj code)) = inl resp /\ m_ep resp = map of_pair props /\
    represents resp ca /\ received resp.
Proof.
  intros HI HT HR EH EO EA HH Hobj Hcode t c aesv props ca HE HL Hlen ES.
  assert (HLc : in_limits c).
  { unfold c, in_limits, frame_in_limits. cbn [c_tid c_seoj c_deoj c_esv c_props].
    split; [apply tid_small|]. split; [lia|]. split; [lia|]. split; [lia|]. split; [cbn; lia|].
    constructor; [|constructor]. split; [cbn; lia|]. split; [cbn; lia|constructor]. }
  rewrite read_is_request by exact Hobj. unfold net_post.
  pose proof (post_udp (l_node s') a obj 0x62 [mkPProp code []] [] ADialFails [] HI HT HR HLc) as EP.
  unfold udp_net in EP. rewrite EP. clear EP. fold t. change (map to_pair [mkPProp code []]) with [(code, @nil Z)]. fold c.
  set (m := SetSEOJ (SetTID (new_request obj 0x62 [mkPProp code []]) t) 0x0EF001).
  set (cl := hand_over (with_lastTID (l_node s') t) (Unicast a m)).
  rewrite EO, EH. change (n_addr cl) with (n_addr (l_node s')). rewrite EA.
  destruct (serve_datagram (h_cb h) (h_app h) (h_node h) None UDPUnicastPacket a (mkDatagram (wire c) (n_addr (l_node s')))) as [out r].
  cbn [snd] in ES. subst r. rewrite (proj2 (addr_eqb_iff _ _) eq_refl). cbn [negb].
  assert (RM : represents m c) by exact (request_represents obj 0x62 [mkPProp code []] t 0x0EF001).
  destruct (wire_arrives ca a HL Hlen) as (x & EX & FX & RX & VX).
  destruct (represents_getters x ca RX HL) as (G1 & G2 & G3 & G4 & G5 & G6).
  destruct (represents_getters m c RM HLc) as (M1 & _ & _ & M4 & _).
  cbn [c ca c_tid c_seoj c_deoj c_esv c_props] in *.
  destruct (client_hears (ctrl_callbacks conf) (l_ctrl s') cl m UDPUnicastPacket (n_addr (l_node s')) (mkDatagram (wire ca) a) x)
    as (_ & D & _); try assumption.
  - exact (pending_shape m c RM).
  - apply VX.
  - rewrite FX. exact HH.
  - congruence.
  - rewrite M4, G4. cbn [In] in HE. lia.
  - rewrite G4. unfold spec_response, spec_error. cbn [In app] in *. tauto.
  - destruct (serve_datagram (ctrl_callbacks conf) (l_ctrl s') cl (Some m) UDPUnicastPacket (n_addr (l_node s')) (mkDatagram (wire ca) a)) as [out' r'].
    cbn [fst] in D. cbn [snd]. rewrite D, EX. eexists. split; [reflexivity|]. split; [exact G6|].
    split; [exact RX|apply VX].
Qed.

(** A read of a property that can be read. *)
Lemma post_read_full s' i h obj code a v : core_inv (core_of (l_node s')) -> tid_ok (l_node s') -> n_running (l_node s') = true ->
  nth_error (l_hosts s') i = Some h -> owner (members s') a = Some (S i) -> n_addr (h_node h) = a ->
  keeps_node (h_cb h) -> never_fails (h_cb h) -> n_addr (l_node s') <> a ->
  0 <= obj < 2 ^ 24 -> 0 <= code < 256 -> readable_value (h_node h) obj code v ->
  exists resp, snd (net_post conf s' a (read_message obj code)) = inl resp /\ m_ep resp = [mkPProp code v] /\
    represents resp (mkContent ((n_lastTID (l_node s') + 1) mod 65536) obj 0x0EF001 0x72 [(code, v)]) /\ received resp.
Proof.
  intros HI HT HR EH EO EA HK HF HN Hobj Hcode (r & o & q & L1 & L2 & L3 & L4 & L5 & L6).
  set (t := (n_lastTID (l_node s') + 1) mod 65536).
  set (c := mkContent t 0x0EF001 obj 0x62 [(code, [])]).
  assert (Ht : tid16 t) by apply tid_small.
  assert (HLc : in_limits c).
  { unfold c, in_limits, frame_in_limits. cbn [c_tid c_seoj c_deoj c_esv c_props].
    split; [apply tid_small|]. split; [lia|]. split; [lia|]. split; [lia|]. split; [cbn; lia|].
    constructor; [|constructor]. split; [cbn; lia|]. split; [cbn; lia|constructor]. }
  assert (HO : hears (h_node h) (n_addr (l_node s'))) by (right; congruence).
  assert (HE : In (c_esv c, 0x72) spec_answer) by (cbn; tauto).
  assert (HA : reads (c_esv c) \/ writes (c_esv c) -> Forall (accepts o (c_esv c)) (map of_pair (c_props c))).
  { intros _. cbn [c c_esv c_props map of_pair fst snd]. constructor; [|constructor]. exists q. cbn [pp_code].
    split; [exact L3|]. split; [intros _; exact L4|]. unfold writes. cbn [In]. lia. }
  destruct (serves (h_cb h) (h_app h) (h_node h) None UDPUnicastPacket (n_addr (l_node s')) a c 0x72 r o
              HLc ltac:(cbn; lia) I HO HE L1 L2 HA) as (req & HRq & _ & _ & _ & _ & _ & E3).
  assert (EN : out_node (ProtocolMessageReceived (h_cb h) (h_app h) (h_node h) None req) = h_node h) by (apply C29_no_change; exact HK).
  destruct (E3 (out_quiet _ _ _ _ _ HF) r o [v]) as (HLa & ES).
  { rewrite EN. exact L1. } { rewrite EN. exact L2. }
  { cbn [c c_props map fst]. constructor; [exists q; auto|constructor]. }
  { constructor; [exact L6|constructor]. }
  destruct (post_answered s' i h obj code a HI HT HR EH EO EA ltac:(right; congruence) Hobj Hcode 0x72 [(code, v)])
    as (resp & E1 & E2 & E4 & E5).
  { cbn; tauto. } { exact HLa. }
  { rewrite wire_length. cbn [c_props map snd message_size fold_right]. destruct L6. lia. }
  { exact ES. }
  exists resp. auto.
Qed.
Lemma post_read s' i h obj code a v : core_inv (core_of (l_node s')) -> tid_ok (l_node s') -> n_running (l_node s') = true ->
  nth_error (l_hosts s') i = Some h -> owner (members s') a = Some (S i) -> n_addr (h_node h) = a ->
  keeps_node (h_cb h) -> never_fails (h_cb h) -> n_addr (l_node s') <> a ->
  0 <= obj < 2 ^ 24 -> 0 <= code < 256 -> readable_value (h_node h) obj code v ->
  exists resp, snd (net_post conf s' a (read_message obj code)) = inl resp /\ m_ep resp = [mkPProp code v].
Proof.
  intros H1 H2 H3 H4 H5 H6 H7 H8 H9 H10 H11 H12.
  destruct (post_read_full s' i h obj code a v H1 H2 H3 H4 H5 H6 H7 H8 H9 H10 H11 H12) as (resp & A & B & _). exists resp. auto.
Qed.

(** A read of a property that cannot be read. *)
Lemma post_refused_full s' i h obj code a : core_inv (core_of (l_node s')) -> tid_ok (l_node s') -> n_running (l_node s') = true ->
  nth_error (l_hosts s') i = Some h -> owner (members s') a = Some (S i) -> n_addr (h_node h) = a ->
  n_addr (l_node s') <> a -> 0 <= obj < 2 ^ 24 -> 0 <= code < 256 -> unreadable (h_node h) obj code ->
  exists resp, snd (net_post conf s' a (read_message obj code)) = inl resp /\ m_ep resp = [mkPProp 0 []; mkPProp 0 []] /\
    represents resp (mkContent ((n_lastTID (l_node s') + 1) mod 65536) obj 0x0EF001 0x52 [(0, []); (0, [])]) /\ received resp.
Proof.
  intros HI HT HR EH EO EA HN Hobj Hcode (r & o & L1 & L2 & L3).
  set (t := (n_lastTID (l_node s') + 1) mod 65536).
  set (c := mkContent t 0x0EF001 obj 0x62 [(code, [])]).
  assert (HLc : in_limits c).
  { unfold c, in_limits, frame_in_limits. cbn [c_tid c_seoj c_deoj c_esv c_props].
    split; [apply tid_small|]. split; [lia|]. split; [lia|]. split; [lia|]. split; [cbn; lia|].
    constructor; [|constructor]. split; [cbn; lia|]. split; [cbn; lia|constructor]. }
  destruct (wire_arrives c (n_addr (l_node s')) HLc ltac:(cbn; lia)) as (x & EX & FX & RX & VX).
  destruct (represents_getters x c RX HLc) as (G1 & G2 & G3 & G4 & G5 & G6).
  cbn [c c_tid c_seoj c_deoj c_esv c_props] in G1, G2, G3, G4, G5, G6.
  assert (HO : not_own (h_node h) (SetPacketType x UDPUnicastPacket)).
  { unfold not_own. cbn [SetPacketType m_from]. rewrite FX. right. congruence. }
  assert (NV : ~ (exists r o, valid (h_node h) (SetPacketType x UDPUnicastPacket) r o)).
  { intros (r' & o' & (A1 & A2) & _ & HA).
    change (DEOJ (SetPacketType x UDPUnicastPacket)) with (DEOJ x) in A1.
    change (m_esv (SetPacketType x UDPUnicastPacket)) with (m_esv x) in HA.
    change (m_ep (SetPacketType x UDPUnicastPacket)) with (m_ep x) in HA. rewrite G3 in A1. rewrite G4, G6 in HA.
    assert (r' = r) by congruence. subst r'. assert (o' = o) by congruence. subst o'.
    specialize (HA ltac:(left; cbn; tauto)). cbn [map of_pair fst snd] in HA. inversion HA as [|? ? (q & Q1 & Q2 & _) _]; subst.
    cbn [pp_code] in Q1. apply (Q2 ltac:(cbn; tauto)). apply L3, Q1. }
  destruct (handle_invalid (h_cb h) (h_app h) (h_node h) None _ (VX UDPUnicastPacket) I HO NV) as (d & resp & EQ & EI & _).
  destruct (impossible_bytes _ resp (VX UDPUnicastPacket) EI) as (HLr & EB).
  change (TID (SetPacketType x UDPUnicastPacket)) with (TID x) in *. change (DEOJ (SetPacketType x UDPUnicastPacket)) with (DEOJ x) in *.
  change (SEOJ (SetPacketType x UDPUnicastPacket)) with (SEOJ x) in *. change (m_esv (SetPacketType x UDPUnicastPacket)) with (m_esv x) in *.
  change (OPC (SetPacketType x UDPUnicastPacket)) with (OPC x) in *.
  rewrite G1, G2, G3, G4, G5 in HLr, EB. cbn [length] in HLr, EB.
  change (Z.to_nat (2 * Z.of_nat 1 mod 256)) with 2%nat in HLr, EB. cbn [repeat] in HLr, EB.
  change (impossible_esv 0x62) with 0x52 in HLr, EB.
  destruct (post_answered s' i h obj code a HI HT HR EH EO EA ltac:(right; congruence) Hobj Hcode 0x52 [(0, []); (0, [])])
    as (resp' & E1 & E2 & E3).
  { cbn; tauto. } { exact HLr. } { cbn; lia. }
  { fold t. fold c. unfold serve_datagram. rewrite EX. unfold handle_datagram_message. cbn [snd]. rewrite EQ. cbn [out_reply].
    unfold UDP_SendMessage. rewrite EB. cbn [bind SetPacketType m_from]. rewrite FX. reflexivity. }
  exists resp'. split; [exact E1|]. split; [exact E2|exact E3].
Qed.
Lemma post_refused s' i h obj code a : core_inv (core_of (l_node s')) -> tid_ok (l_node s') -> n_running (l_node s') = true ->
  nth_error (l_hosts s') i = Some h -> owner (members s') a = Some (S i) -> n_addr (h_node h) = a ->
  n_addr (l_node s') <> a -> 0 <= obj < 2 ^ 24 -> 0 <= code < 256 -> unreadable (h_node h) obj code ->
  exists resp, snd (net_post conf s' a (read_message obj code)) = inl resp /\ m_ep resp = [mkPProp 0 []; mkPProp 0 []].
Proof.
  intros H1 H2 H3 H4 H5 H6 H7 H8 H9 H10.
  destruct (post_refused_full s' i h obj code a H1 H2 H3 H4 H5 H6 H7 H8 H9 H10) as (resp & A & B & _). exists resp. auto.
Qed.


(** ** The rows *)

Definition row_of (env : scan_env) (t : rnode * object * property) (row : list string) : Prop :=
  let '(rn, o, p) := t in
  exists n n', row = object_cells env (manufacture_name env n rn) rn o ++
    [fmt_X 2 (p_code p); property_name env o p; rule_text p; snd (property_data env n' rn o p)].

Lemma rows_of_object env n0 rn o : forall ps n, Forall2 (row_of env) (map (fun p => (rn, o, p)) ps)
  (snd (property_rows env n (manufacture_name env n0 rn) rn o ps)).
Proof.
  induction ps as [|p ps IH]; intros n; cbn [property_rows map]; [constructor|].
  destruct (property_data env n rn o p) as [n1 data] eqn:ED. specialize (IH n1).
  destruct (property_rows env n1 (manufacture_name env n0 rn) rn o ps) as [n2 rows]. cbn [snd] in *. constructor; [|exact IH].
  exists n0, n. rewrite ED. reflexivity.
Qed.

Lemma rows_of_objects env n0 rn os : forall n,
  Forall2 (row_of env) (flat_map (fun o => map (fun p => (rn, o, p)) (Properties (o_props o))) os)
    (snd (object_rows env true n (manufacture_name env n0 rn) rn os)).
Proof.
  induction os as [|o os IH]; intros n; [constructor|]. cbn [object_rows flat_map].
  pose proof (rows_of_object env n0 rn o (Properties (o_props o)) n) as HP.
  destruct (property_rows env n (manufacture_name env n0 rn) rn o (Properties (o_props o))) as [n1 mine]. cbn [snd] in HP.
  specialize (IH n1). destruct (object_rows env true n1 (manufacture_name env n0 rn) rn os) as [n2 rows]. cbn [snd] in *.
  apply Forall2_app; assumption.
Qed.

Lemma rows_of_table env ct : Forall2 (row_of env) (PropsDetails.all_properties (ct_found ct)) (t_rows (DiscoveredNodeTable env ct true "")).
Proof.
  unfold DiscoveredNodeTable. cbn [t_rows]. generalize 0%nat as n.
  induction (ct_found ct) as [|rn rns IH]; intros n; [constructor|]. cbn [node_rows is_blank negb andb]. cbv zeta.
  pose proof (rows_of_objects env n rn (rn_devices rn ++ rn_profiles rn) (S n)) as HO.
  destruct (object_rows env true (S n) (manufacture_name env n rn) rn (rn_devices rn ++ rn_profiles rn)) as [n' mine]. cbn [snd] in HO.
  unfold PropsDetails.all_properties in *. cbn [flat_map]. apply Forall2_app; [exact HO|apply IH].
Qed.

Lemma Forall2_weaken {A B} (R R' : A -> B -> Prop) l l' : (forall a b, In a l -> R a b -> R' a b) -> Forall2 R l l' -> Forall2 R' l l'.
Proof.
  intros H F. induction F as [|a b l l' HR F IH]; constructor.
  - apply H; [left; reflexivity|exact HR].
  - apply IH. intros x y I. apply H. right. exact I.
Qed.

(** The objects of a node in the table are made by the constructors. *)
Lemma np_object_ok : obj_ok np_object /\ Code np_object = 0x0EF001.
Proof. split; [split; [apply code3_np|apply node_profile_props_wf]|reflexivity]. Qed.

Lemma described_objects nd n a o : ready nd -> describes a (devs_of nd) n -> In o (rn_devices n ++ rn_profiles n) -> obj_ok o.
Proof.
  intros HR (_ & D & ps & E & P) I.
  assert (HC : Forall (fun c => known_class c /\ is_profile c = false) (devs_of nd)) by apply HR.
  assert (HI : Forall obj_ok (n_devices nd)) by apply HR.
  assert (F1 : filter (fun c => negb (is_profile c)) (devs_of nd) = devs_of nd).
  { clear -HC. induction HC as [|k l [_ Hk] _ IH]; [reflexivity|]. cbn [filter]. rewrite Hk. cbn [negb]. rewrite IH. reflexivity. }
  assert (F2 : filter is_profile (devs_of nd) = []).
  { clear -HC. induction HC as [|k l [_ Hk] _ IH]; [reflexivity|]. cbn [filter]. rewrite Hk. exact IH. }
  rewrite F1 in D. rewrite F2 in P. inversion P; subst ps. clear P F1 F2.
  apply in_app_or in I. destruct I as [I|I].
  - assert (G : Forall (fun c => known_class c /\ length c = 3%nat /\ is_bytes c) (devs_of nd)).
    { unfold devs_of in *. apply Forall_map in HC. apply Forall_map. rewrite Forall_forall in *. intros x Hx.
      destruct (HC x Hx) as (K & _). destruct (HI x Hx) as ((A & B) & _). auto. }
    clear -D G I. revert I. induction D as [|c o' cs os (Hc & Ho) D IH]; intros I; [destruct I|]. inversion G as [|? ? ((k & K) & L & B) G']; subst.
    destruct I as [<-|I]; [|exact (IH G' I)]. split; [split; assumption|].
    destruct (len3 _ L) as (x & y & z & EC). rewrite EC in *.
    destruct (be3_bytes_inv x y z B) as (R & _ & _). rewrite <- be_value3 in R.
    rewrite (NewDevice_known (be_value [x; y; z]) k) in Ho; [|change (2 ^ 24) with 16777216 in R; lia|exact K].
    injection Ho as <-. cbn [o_props]. apply with_std_wf; [apply new_super_wf|]. apply class_props_wf, K.
  - rewrite E in I. cbn [app In] in I. destruct I as [<-|[<-|[]]]; apply np_object_ok.
Qed.

Lemma described_code nd n a o : ready nd -> describes a (devs_of nd) n -> In o (rn_devices n ++ rn_profiles n) ->
  exists r o', LookupObject nd (Code o) = Some r /\ obj_at nd r = Some o'.
Proof.
  intros HR (_ & D & ps & E & P) I.
  assert (HC : Forall (fun c => known_class c /\ is_profile c = false) (devs_of nd)) by apply HR.
  assert (F1 : filter (fun c => negb (is_profile c)) (devs_of nd) = devs_of nd).
  { clear -HC. induction HC as [|k l [_ Hk] _ IH]; [reflexivity|]. cbn [filter]. rewrite Hk. cbn [negb]. rewrite IH. reflexivity. }
  assert (F2 : filter is_profile (devs_of nd) = []).
  { clear -HC. induction HC as [|k l [_ Hk] _ IH]; [reflexivity|]. cbn [filter]. rewrite Hk. exact IH. }
  rewrite F1 in D. rewrite F2 in P. inversion P; subst ps. clear P F1 F2.
  apply in_app_or in I. destruct I as [I|I].
  - assert (IC : In (o_codes o) (devs_of nd)).
    { clear -D I. revert I. induction D as [|c o' cs os (Hc & Ho) D IH]; intros I; [destruct I|].
      destruct I as [<-|I]; [left; symmetry; exact Hc|right; exact (IH I)]. }
    unfold devs_of in IC. apply in_map_iff in IC. destruct IC as (o' & EC & IO).
    assert (EQ : Code o' = Code o) by (unfold Code; rewrite EC; reflexivity).
    unfold LookupObject, LookupDevice. pose proof (find_code_spec (n_devices nd) (Code o)) as H.
    destruct (find_code (n_devices nd) (Code o)) as [k|].
    + destruct H as (o2 & H & _). exists (DevRef k), o2. split; [reflexivity|exact H].
    + exfalso. exact (H o' IO EQ).
  - rewrite E in I. cbn [app In] in I. destruct (ready_np nd HR) as (np & rest & _ & _ & L & O & _).
    destruct I as [<-|[<-|[]]]; rewrite (proj2 np_object_ok); eauto.
Qed.

(** ** The scan *)

Lemma Properties_in m p : In p (Properties m) -> exists c, LookupProperty m c = Some p.
Proof.
  unfold Properties, Properties_order. intros H. apply in_flat_map in H. destruct H as (c & _ & H).
  destruct (LookupProperty m c) as [q|] eqn:E; [|destruct H]. destruct H as [<-|[]]. eauto.
Qed.

Lemma all_properties_in rns rn o p : In (rn, o, p) (PropsDetails.all_properties rns) ->
  In rn rns /\ In o (rn_devices rn ++ rn_profiles rn) /\ In p (Properties (o_props o)).
Proof.
  unfold PropsDetails.all_properties. intros H. apply in_flat_map in H. destruct H as (rn' & H1 & H).
  apply in_flat_map in H. destruct H as (o' & H2 & H). apply in_map_iff in H. destruct H as (p' & H & H3).
  injection H as -> -> ->. auto.
Qed.

(** Every request of the scan goes to the node shown and is answered. *)
Lemma scan_post s0 s env n rn nd : settled conf s0 s -> scans conf s env ->
  In nd (map h_node (l_hosts s)) -> n_addr nd = rn_addr rn ->
  (forall obj code v, 0 <= obj < 2 ^ 24 -> 0 <= code < 256 -> readable_value nd obj code v ->
     exists resp, se_post env n rn (read_message obj code) = inl resp /\ m_ep resp = [mkPProp code v]) /\
  (forall obj code, 0 <= obj < 2 ^ 24 -> 0 <= code < 256 -> unreadable nd obj code ->
     exists resp, se_post env n rn (read_message obj code) = inl resp /\ m_ep resp = [mkPProp 0 []; mkPProp 0 []]).
Proof.
  intros ((I1 & I2 & I3 & _) & _) HS Hnd EA. destruct (HS n) as (s' & HP & HE).
  assert (Rc : ready (l_node s)) by (unfold members in I1; inversion I1; assumption).
  assert (U0 : unchanged s s).
  { unfold unchanged. split; [reflexivity|]. split; [exact I2|]. destruct Rc as (A & _ & _ & B & C & _). auto. }
  pose proof (posts_unchanged s s' HP U0) as (U1 & U2 & U3 & U4 & U5 & U6 & U7).
  rewrite <- U1 in Hnd. apply in_map_iff in Hnd. destruct Hnd as (h & EN & Ih). apply In_nth_error in Ih. destruct Ih as (i & EH).
  assert (EM : map n_addr (members s') = map n_addr (members s)).
  { unfold members. cbn [map]. rewrite U1, U6. reflexivity. }
  assert (ND : NoDup (map n_addr (members s'))) by (rewrite EM; exact I3).
  assert (EI : nth_error (members s') (S i) = Some nd).
  { unfold members. cbn [nth_error]. rewrite nth_error_map, EH. cbn [option_map]. rewrite EN. reflexivity. }
  assert (EO : owner (members s') (rn_addr rn) = Some (S i)) by (rewrite <- EA; apply owner_of; assumption).
  assert (NE : n_addr (l_node s') <> rn_addr rn).
  { unfold members in ND. cbn [map] in ND. inversion ND as [|? ? N _]; subst. intros X. apply N. rewrite X, <- EA.
    apply in_map. unfold members in EI. cbn [nth_error] in EI. eapply nth_error_In, EI. }
  rewrite Forall_forall in U2. destruct (U2 h (nth_error_In _ _ EH)) as (K1 & K2).
  split.
  - intros obj code v Ho Hc HV. rewrite HE. rewrite <- EN in HV.
    apply (post_read s' i h obj code (rn_addr rn) v); try assumption. congruence.
  - intros obj code Ho Hc HV. rewrite HE. rewrite <- EN in HV.
    apply (post_refused s' i h obj code (rn_addr rn)); try assumption. congruence.
Qed.

Lemma scan_rows s0 s env : settled conf s0 s -> table_shows conf s0 s -> n_self (l_node s0) = false ->
  Forall (fun h => recorded conf (h_node h) = n_addr (h_node h)) (l_hosts s0) -> scans conf s env ->
  Forall2 (scanned env (map h_node (l_hosts s))) (PropsDetails.all_properties (ct_found (l_ctrl s)))
    (t_rows (DiscoveredNodeTable env (l_ctrl s) true "")).
Proof.
  intros HS (_ & HT) Hself HR HE. eapply Forall2_weaken; [|apply rows_of_table].
  intros [[rn o] p] row I (n & n' & ->). apply all_properties_in in I. destruct I as (J1 & J2 & J3).
  destruct (HT rn J1) as (j & nd0 & E0 & Hj & (S1 & S2 & S3)).
  destruct Hj as [Hj|Hj]; [congruence|]. destruct j as [|i]; [exfalso; apply Hj; reflexivity|]. clear Hj.
  pose proof HS as ((I1 & _) & HM & _). destruct (same_at' _ _ _ _ HM E0) as (nd & E & (A1 & _ & A3 & _)).
  assert (Rn : ready nd) by (rewrite Forall_forall in I1; apply I1; eapply nth_error_In, E).
  rewrite <- A1, <- A3 in S3. rewrite <- A1 in S1.
  assert (Hnd : In nd (map h_node (l_hosts s))) by (unfold members in E; cbn [nth_error] in E; eapply nth_error_In, E).
  assert (EA : n_addr nd = rn_addr rn).
  { rewrite S1. unfold members in E0. cbn [nth_error] in E0. rewrite nth_error_map in E0.
    destruct (nth_error (l_hosts s0) i) as [h|] eqn:EH; [|discriminate E0]. injection E0 as E0.
    rewrite Forall_forall in HR. specialize (HR h (nth_error_In _ _ EH)). rewrite E0, recorded_seen, <- A1 in HR. symmetry. exact HR. }
  pose proof (described_objects nd rn _ o Rn S3 J2) as (OC & OW).
  pose proof (PropsNode.Code_range o OC) as HC.
  destruct (Properties_in _ _ J3) as (c & LP).
  destruct (wf_lookup _ _ _ OW LP) as (PB & _). unfold is_byte in PB.
  exists nd, (manufacture_name env n rn), (object_name env o), (property_name env o p), (rule_text p), (snd (property_data env n' rn o p)).
  split; [exact Hnd|]. split; [exact EA|]. split; [rewrite EA; reflexivity|]. split; [apply PropsDetails.rule_spec|].
  destruct (scan_post s0 s env n rn nd HS HE Hnd EA) as (P1 & P2).
  destruct (scan_post s0 s env n' rn nd HS HE Hnd EA) as (Q1 & Q2).
  split; [|split; [|split; [|split]]].
  - intros v HV. destruct (P1 0x0EF001 0x8A v ltac:(lia) ltac:(lia) HV) as (resp & E1 & E2).
    unfold manufacture_name. rewrite E1, E2. reflexivity.
  - intros HV. destruct (P2 0x0EF001 0x8A ltac:(lia) ltac:(lia) HV) as (resp & E1 & E2).
    unfold manufacture_name. rewrite E1, E2. reflexivity.
  - intros HN. unfold property_data, IsReadRequired. destruct (p_get p); try reflexivity. congruence.
  - intros HRq v HV. unfold property_data, IsReadRequired. rewrite HRq. cbn [attr_IsRequired snd].
    destruct (Q1 (Code o) (p_code p) v HC PB HV) as (resp & E1 & E2). rewrite E1, E2. cbn [pp_data].
    apply PropsDetails.hex_encode. destruct HV as (_ & _ & _ & _ & _ & _ & _ & _ & (_ & HV)). exact HV.
  - intros HV. unfold property_data, IsReadRequired. destruct (attr_IsRequired (p_get p)); [|reflexivity]. cbn [snd].
    destruct (Q2 (Code o) (p_code p) HC PB HV) as (resp & E1 & E2). rewrite E1, E2. reflexivity.
Qed.

End Scan.

(** ** The nodes found before *)

Section Kept.
Variable conf : ctrl_conf.

Definition grows (ct ct' : ctrl) : Prop :=
  (exists more, ct_found ct' = ct_found ct ++ more) /\ exists more, ct_told ct' = ct_told ct ++ more.

Lemma grows_refl ct : grows ct ct.
Proof. split; exists []; rewrite app_nil_r; reflexivity. Qed.
Lemma grows_trans a b c : grows a b -> grows b c -> grows a c.
Proof. intros ((x & A1) & y & A2) ((z & B1) & t & B2). split; [exists (x ++ z); rewrite B1, A1|exists (y ++ t); rewrite B2, A2]; rewrite app_assoc; reflexivity. Qed.

Lemma OnMessage_grows self ct m ct' : OnMessage conf self ct m = Ok ct' -> grows ct ct'.
Proof.
  unfold OnMessage. destruct (negb self && isSelfMessage conf m) eqn:ES; [intros [= <-]; apply grows_refl|].
  assert (G : forall ct1, (if isNodeProfileMessage m then parseNodeProfileMessage conf self ct m else Ok ct) = Ok ct1 -> grows ct ct1).
  { intros ct1. destruct (isNodeProfileMessage m); [|intros [= <-]; apply grows_refl].
    unfold parseNodeProfileMessage. rewrite ES.
    destruct (newRemoteNodeWithInstanceListMessageAndConfig m (cc_auto conf)) as [n|e|]; intros [= <-]; [|apply grows_refl].
    unfold addNode. destruct (existsb _ _); [apply grows_refl|].
    split; cbn [ct_found ct_told]; [eexists; reflexivity|]. destruct (cc_listener conf); [eexists; reflexivity|].
    exists []. rewrite app_nil_r. reflexivity. }
  destruct (if isNodeProfileMessage m then _ else _) as [ct1|e|]; cbn [bind]; intros [= <-].
  specialize (G ct1 eq_refl). destruct (cc_listener conf); exact G.
Qed.

Lemma range_world {S A : Type} (f : S -> A) (body : Z -> S -> res S) : (forall i st st', body i st = Ok st' -> f st' = f st) ->
  forall k i st st', for_range k i body st = Ok st' -> f st' = f st.
Proof.
  intros H. induction k as [|k IH]; intros i st st' E; cbn [for_range] in E; [congruence|].
  destruct (body i st) as [st1| |] eqn:EB; cbn [bind] in E; try discriminate E.
  rewrite (IH _ _ _ E). apply (H _ _ _ EB).
Qed.

Lemma served_grows ct nd pending pt sa d : grows ct (out_world (fst (serve_datagram (ctrl_callbacks conf) ct nd pending pt sa d))).
Proof.
  unfold serve_datagram. destruct (ReadMessage d) as [m|e|]; try apply grows_refl.
  unfold handle_datagram_message. cbn [fst]. generalize (SetPacketType m pt). clear m. intros m. unfold ProtocolMessageReceived.
  destruct (negb (n_self nd) && _); [apply grows_refl|]. destruct (isResponseMessage pending m); try apply grows_refl.
  destruct (validateReceivedMessage nd m) as [[]| |]; try apply grows_refl.
  destruct (executeMessageListeners (ctrl_callbacks conf) ct nd m) as [st| |] eqn:E; try apply grows_refl.
  assert (G : grows ct (r_world st)); [|destruct (r_err st); [exact G|destruct (negb _); exact G]].
  unfold executeMessageListeners in E. destruct (LookupObject nd (DEOJ m)) as [r|]; [|discriminate E].
  cbn [call_back option_map ctrl_callbacks cb_node r_world r_node r_calls r_err] in E.
  destruct (match OnMessage conf (n_self nd) ct m with Ok ct0 => (ct0, nd, false) | _ => (ct, nd, true) end) as [[ct1 nd1] e1] eqn:E1.
  cbn [app set_err r_world r_node r_calls r_err] in E. apply (range_world r_world) in E.
  - rewrite E. cbn [r_world]. destruct (OnMessage conf (n_self nd) ct m) as [x|x|] eqn:EM; injection E1 as <- _ _; try apply grows_refl.
    apply (OnMessage_grows _ _ _ _ EM).
  - intros i st1 st2 E2. destruct (MsgProperty m i) as [[p|]| |]; cbn [bind] in E2; try discriminate E2; [|congruence].
    unfold notifyPropertyRequest in E2. cbn [ctrl_callbacks cb_listener cb_handler option_map call_back] in E2. injection E2 as <-. reflexivity.
Qed.

Context {W : Type}.
Implicit Types (s : lan W).

Lemma post_grows s a m : grows (l_ctrl s) (l_ctrl (fst (net_post conf s a m))).
Proof.
  unfold net_post.
  destruct (Node_PostMessage (l_node s) a m _) as [[[cl evs] x]|e|]; try apply grows_refl.
  destruct evs as [|[| | |k b] [|? ?]]; try apply grows_refl; destruct x as [| |req]; try apply grows_refl.
  destruct (owner (members s) a) as [[|i]|]; try apply grows_refl.
  destruct (nth_error (l_hosts s) i) as [h|]; [|apply grows_refl].
  destruct (serve_datagram (h_cb h) _ _ _ _ _ _) as [out r].
  destruct r as [[[dst d]|]| |]; try apply grows_refl. destruct (negb (addr_eqb dst (n_addr cl))); [apply grows_refl|].
  pose proof (served_grows (l_ctrl s) cl (Some req) UDPUnicastPacket (n_addr cl) d) as G.
  destruct (serve_datagram (ctrl_callbacks conf) _ _ _ _ _ _) as [out' r']. exact G.
Qed.

Lemma posts_grow s s' : posts conf s s' -> grows (l_ctrl s) (l_ctrl s').
Proof. induction 1 as [s|s s' a m _ IH]; [apply grows_refl|]. eapply grows_trans; [exact IH|apply post_grows]. Qed.

End Kept.

Section Statements.
Context {W : Type}.
Implicit Types (s : lan W).

(** After a search in which nothing is lost, once the network is quiet, a detailed
    scan lists every property of every device of every member and of its node
    profile.  Each row has the address of a member, the object and the property;
    the data are those the member holds when reading the property is mandatory
    for the class, and none when the member refuses the read; the manufacturer is
    the one of the code in the node profile. *)
Theorem C82_scan : forall conf s0 es1 esv es2 env, network conf s0 -> l_packets s0 = [] -> l_ctrl s0 = newCtrl ->
  n_self (l_node s0) = false -> Forall (fun h => recorded conf (h_node h) = n_addr (h_node h)) (l_hosts s0) ->
  Forall allowed es1 -> In esv [0x62; 0x63] -> Forall allowed es2 -> Forall lossless es2 ->
  let s := lan_run conf s0 (es1 ++ LSearch 0 esv :: es2) in
  l_packets s = [] -> scans conf s env ->
  Permutation (map view (ct_found (l_ctrl s))) (map (expected conf) (map h_node (l_hosts s0))) /\
  Forall2 (scanned env (map h_node (l_hosts s))) (PropsDetails.all_properties (ct_found (l_ctrl s)))
    (t_rows (DiscoveredNodeTable env (l_ctrl s) true "")).
Proof.
  intros conf s0 es1 esv es2 env HN HP HC Hself HR HA1 HE HA2 HL s Hq HS.
  assert (HA : Forall allowed (es1 ++ LSearch 0 esv :: es2)) by (apply Forall_app; split; [exact HA1|constructor; assumption]).
  destruct (run_table_shows conf s0 (es1 ++ LSearch 0 esv :: es2) s0 (settled_start conf s0 HN HP) HA) as (HSs & HT).
  { unfold table_shows. rewrite HC. split; [constructor|intros n []]. }
  split.
  - replace (map h_node (l_hosts s0)) with (audible s0) by (unfold audible; rewrite Hself; reflexivity).
    apply C79_found; assumption.
  - apply (scan_rows conf s0); assumption.
Qed.

(** The requests of a scan, whatever they are, make the controller forget no node. *)
Theorem C82_keeps : forall conf s s', posts conf s s' ->
  (exists more, ct_found (l_ctrl s') = ct_found (l_ctrl s) ++ more) /\ exists more, ct_told (l_ctrl s') = ct_told (l_ctrl s) ++ more.
Proof. intros conf. exact (posts_grow conf). Qed.

(** So a value a device holds is seen: if the class of the device makes reading the
    property mandatory and the device allows it, there is a row with the address
    of the node, the codes of the device and the property, and the value. *)
Theorem C82_shown : forall conf s0 es1 esv es2 env, network conf s0 -> l_packets s0 = [] -> l_ctrl s0 = newCtrl ->
  n_self (l_node s0) = false -> Forall (fun h => recorded conf (h_node h) = n_addr (h_node h)) (l_hosts s0) ->
  Forall allowed es1 -> In esv [0x62; 0x63] -> Forall allowed es2 -> Forall lossless es2 ->
  let s := lan_run conf s0 (es1 ++ LSearch 0 esv :: es2) in
  l_packets s = [] -> scans conf s env ->
  forall nd o std c p v, In nd (map h_node (l_hosts s)) -> In o (n_devices nd) ->
  NewDeviceWithCode (Code o) = Ok std -> LookupProperty (o_props std) c = Some p -> p_get p = Required ->
  readable_value nd (Code o) c v ->
  exists man on pn ru,
    In [se_address env (a_ip (n_addr nd)); fmt_d (a_port (n_addr nd)); man; fmt_X 6 (Code o); on;
        fmt_X 2 c; pn; ru; PropsDetails.hex_text v] (t_rows (DiscoveredNodeTable env (l_ctrl s) true "")).
Proof.
  intros conf s0 es1 esv es2 env HN HP HC Hself HR HA1 HE HA2 HL s Hq HS nd o std c p v Hnd Ho Estd Lp Hreq HV.
  assert (HA : Forall allowed (es1 ++ LSearch 0 esv :: es2)) by (apply Forall_app; split; [exact HA1|constructor; assumption]).
  destruct (run_table_shows conf s0 (es1 ++ LSearch 0 esv :: es2) s0 (settled_start conf s0 HN HP) HA) as (HSs & HT).
  { unfold table_shows. rewrite HC. split; [constructor|intros n []]. }
  fold s in HSs, HT.
  destruct (C82_scan conf s0 es1 esv es2 env HN HP HC Hself HR HA1 HE HA2 HL Hq HS) as (PM & ROWS). fold s in PM, ROWS.
  (* the node in the table *)
  apply In_nth_error in Hnd. destruct Hnd as (i & Ei).
  pose proof HSs as ((I1 & _ & I3 & _) & HM & _).
  assert (Em : nth_error (members s) (S i) = Some nd) by exact Ei.
  destruct (same_at _ _ _ _ HM Em) as (nd0 & E0 & (A1 & _ & A3 & _)).
  assert (X : In (expected conf nd0) (map view (ct_found (l_ctrl s)))).
  { apply (Permutation_in _ (Permutation_sym PM)). apply in_map. cbn [members nth_error] in E0. eapply nth_error_In, E0. }
  apply in_map_iff in X. destruct X as (rn & EV & Irn).
  destruct (proj2 HT rn Irn) as (j & nd1 & E1 & _ & (S1 & S2 & S3)).
  assert (EN : nd1 = nd0).
  { assert (j = S i); [|congruence]. destruct HN as (_ & _ & HD & _). rewrite NoDup_nth_error in HD. apply HD.
    - rewrite map_length. apply nth_error_Some. congruence.
    - rewrite !nth_error_map, E1, E0. cbn [option_map]. f_equal. unfold view, expected in EV. injection EV as EV1 _.
      rewrite recorded_seen, <- S1. exact EV1. }
  subst nd1. rewrite <- A1, <- A3 in S3.
  assert (Rn : ready nd) by (rewrite Forall_forall in I1; apply I1; eapply nth_error_In, Em).
  (* its device *)
  assert (DV : exists o', In o' (rn_devices rn) /\ Code o' = Code o /\ o' = std).
  { destruct S3 as (_ & D & _).
    assert (HCl : Forall (fun k => known_class k /\ is_profile k = false) (devs_of nd)) by apply Rn.
    assert (F1 : filter (fun k => negb (is_profile k)) (devs_of nd) = devs_of nd).
    { clear -HCl. induction HCl as [|k l [_ Hk] _ IH]; [reflexivity|]. cbn [filter]. rewrite Hk. cbn [negb]. rewrite IH. reflexivity. }
    rewrite F1 in D. assert (Ic : In (o_codes o) (devs_of nd)) by (unfold devs_of; apply in_map, Ho).
    assert (K3 : length (o_codes o) = 3%nat /\ is_bytes (o_codes o)).
    { assert (Hd : Forall obj_ok (n_devices nd)) by apply Rn. rewrite Forall_forall in Hd. apply (Hd o Ho). }
    assert (EB : be_value (o_codes o) = Code o).
    { unfold Code. destruct K3 as (L & B). symmetry. apply ByteToInteger_small; [exact B|lia]. }
    clear -D Ic EB Estd. revert Ic. induction D as [|k o' ks os (Hk & Hm) D IH]; intros Ic; [destruct Ic|].
    destruct Ic as [Ic|Ic].
    - exists o'. split; [left; reflexivity|]. subst k. split; [unfold Code; rewrite Ic; reflexivity|].
      rewrite Ic in Hm. rewrite EB in Hm. congruence.
    - destruct (IH Ic) as (o2 & Y1 & Y2). exists o2. split; [right; exact Y1|exact Y2]. }
  destruct DV as (o' & Io' & ECo & Estd').
  assert (It : In (rn, o', p) (PropsDetails.all_properties (ct_found (l_ctrl s)))).
  { unfold PropsDetails.all_properties. apply in_flat_map. exists rn. split; [exact Irn|]. apply in_flat_map. exists o'.
    split; [apply in_or_app; left; exact Io'|]. apply in_map. subst o'.
    unfold Properties, Properties_order. apply in_flat_map. exists c.
    pose proof (described_objects nd rn _ std Rn S3 ltac:(apply in_or_app; left; exact Io')) as (_ & OW).
    split; [|rewrite Lp; left; reflexivity].
    apply sort_z_In. apply Lookup_Some_In. eauto. }
  assert (FX : exists row, In row (t_rows (DiscoveredNodeTable env (l_ctrl s) true "")) /\ scanned env (map h_node (l_hosts s)) (rn, o', p) row).
  { clear -ROWS It. induction ROWS as [|a b l l' HRow ROWS IH]; [destruct It|]. destruct It as [->|It].
    - exists b. split; [left; reflexivity|exact HRow].
    - destruct (IH It) as (row & Y1 & Y2). exists row. split; [right; exact Y1|exact Y2]. }
  destruct FX as (row & Irow & (nd2 & man & on & pn & ru & data & K1 & K2 & -> & _ & _ & _ & _ & K3 & _)).
  assert (ND2 : nd2 = nd).
  { apply In_nth_error in K1. destruct K1 as (i2 & E2).
    assert (i2 = i); [|congruence]. assert (S i2 = S i); [|congruence].
    rewrite NoDup_nth_error in I3. apply I3.
    - rewrite map_length. apply nth_error_Some. change (nth_error (members s) (S i2)) with (nth_error (map h_node (l_hosts s)) i2). congruence.
    - rewrite !nth_error_map, Em. change (nth_error (members s) (S i2)) with (nth_error (map h_node (l_hosts s)) i2). rewrite E2.
      cbn [option_map]. f_equal. rewrite K2. rewrite S1, <- A1.
      cbn [members nth_error] in E0. rewrite nth_error_map in E0.
      destruct (nth_error (l_hosts s0) i) as [h|] eqn:EH; [|discriminate E0]. injection E0 as E0.
      rewrite Forall_forall in HR. specialize (HR h (nth_error_In _ _ EH)). rewrite E0, recorded_seen, <- A1 in HR. exact HR. }
  subst nd2. exists man, on, pn, ru. rewrite <- ECo, <- (Lookup_code _ _ _ Lp).
  assert (Lc := Lookup_code _ _ _ Lp). rewrite <- ECo, <- Lc in HV.
  rewrite <- (K3 Hreq v HV). exact Irow.
Qed.

End Statements.

(** ** A network *)

Definition ex_deliveries : list lan_event := [LDeliver 0; LDeliver 1; LDeliver 0; LDeliver 0; LDeliver 0; LDeliver 0].
Definition ex_scan (s : lan unit) : scan_env :=
  mkEnv (fun ip => if ip =? 7 then "192.168.0.7"%string else "192.168.0.9"%string) (fun _ => "c"%string) (fun _ _ => "p"%string) (fun _ => None)
    (fun n rn m => snd (net_post ex_conf
       (match n with O => s | S _ => fst (net_post ex_conf s (mkAddress 7 3610) (read_message 0x0EF001 0x8A)) end)
       (rn_addr rn) m)).

Lemma ex_scans s : scans ex_conf s (ex_scan s).
Proof.
  unfold scans, ex_scan. cbn [se_post]. intros [|n].
  - exists s. split; [apply posts_none|]. intros rn m. reflexivity.
  - exists (fst (net_post ex_conf s (mkAddress 7 3610) (read_message 0x0EF001 0x8A))).
    split; [apply posts_more, posts_none|]. intros rn m. reflexivity.
Qed.

(** The rows with data of the device of the node at address 9. *)
Example C82_example :
  let s := lan_run ex_conf ex_net ([] ++ LSearch 0 0x62 :: ex_deliveries) in
  filter (fun r => String.eqb (nth 0 r ""%string) "192.168.0.9" && String.eqb (nth 3 r ""%string) "029001" &&
                   negb (String.eqb (last r ""%string) "")) (t_rows (DiscoveredNodeTable (ex_scan s) (l_ctrl s) true "")) =
  [["192.168.0.9"; "3610"; "unknown"; "029001"; "c"; "80"; "p"; "RWA"; "30"];
   ["192.168.0.9"; "3610"; "unknown"; "029001"; "c"; "8A"; "p"; "R-a"; "ffffff"]]%string.
Proof. vm_compute. reflexivity. Qed.

(** The hypotheses hold for this network. *)
Example C82_applies :
  let s := lan_run ex_conf ex_net ([] ++ LSearch 0 0x62 :: ex_deliveries) in
  Forall2 (scanned (ex_scan s) (map h_node (l_hosts s))) (PropsDetails.all_properties (ct_found (l_ctrl s)))
    (t_rows (DiscoveredNodeTable (ex_scan s) (l_ctrl s) true "")).
Proof.
  assert (H1 : l_packets (lan_run ex_conf ex_net ([] ++ LSearch 0 0x62 :: ex_deliveries)) = []) by (vm_compute; reflexivity).
  assert (H2 : n_self (l_node ex_net) = false) by (vm_compute; reflexivity).
  assert (H3 : Forall (fun h => recorded ex_conf (h_node h) = n_addr (h_node h)) (l_hosts ex_net)).
  { apply Forall_cons; [vm_compute; reflexivity|]. apply Forall_cons; [vm_compute; reflexivity|]. apply Forall_nil. }
  assert (H4 : Forall allowed ex_deliveries) by (unfold ex_deliveries; repeat (apply Forall_cons; [exact I|]); apply Forall_nil).
  assert (H5 : Forall lossless ex_deliveries) by (unfold ex_deliveries; repeat (apply Forall_cons; [exact I|]); apply Forall_nil).
  apply (C82_scan ex_conf ex_net [] 0x62 ex_deliveries _ ex_network eq_refl eq_refl H2 H3 (Forall_nil _) (or_introl eq_refl) H4 H5 H1 (ex_scans _)).
Qed.

Print Assumptions C82_scan.
Print Assumptions C82_keeps.
Print Assumptions C82_shown.

(** * C99: how a message came

    For every network, every run of it and whatever the applications do. *)

From Verif Require Import Go Encoding Protocol Parser Reader StdDB Property Object Node Handler Remote Transport Exchange Lan Cmd LanScan Packet.
From Verif Require Import PropsRemote LanFacts PropsLan.
From Verif Require PropsExchange PropsNode.
Local Open Scope Z_scope.
Local Open Scope list_scope.

(** The four answers of a message. *)
Definition by_multicast (m : message) : Prop :=
  IsMulticastPacket m = true /\ IsUnicastPacket m = false /\ IsUDPUnicastPacket m = false /\ IsTCPUnicastPacket m = false.
Definition by_udp (m : message) : Prop :=
  IsMulticastPacket m = false /\ IsUnicastPacket m = true /\ IsUDPUnicastPacket m = true /\ IsTCPUnicastPacket m = false.
Definition by_tcp (m : message) : Prop :=
  IsMulticastPacket m = false /\ IsUnicastPacket m = true /\ IsUDPUnicastPacket m = false /\ IsTCPUnicastPacket m = true.
Definition by_nothing (m : message) : Prop :=
  IsMulticastPacket m = false /\ IsUnicastPacket m = false /\ IsUDPUnicastPacket m = false /\ IsTCPUnicastPacket m = false.

Lemma type_multicast m : by_multicast (SetPacketType m MulticastPacket).
Proof. repeat split. Qed.
Lemma type_udp m : by_udp (SetPacketType m UDPUnicastPacket).
Proof. repeat split. Qed.
Lemma type_tcp m : by_tcp (SetPacketType m TCPUnicastPacket).
Proof. repeat split. Qed.

Section Calls.
Context {W : Type}.

(** The calls of the node's listener are made with the message itself. *)
Lemma calls_message cb (w : W) nd pending msg m e :
  In (CallNode m, e) (out_calls (ProtocolMessageReceived cb w nd pending msg)) -> m = msg.
Proof.
  unfold ProtocolMessageReceived. destruct (negb (n_self nd) && _); [intros []|]. destruct (isResponseMessage pending msg) as [d| |]; try (intros []; fail).
  destruct (validateReceivedMessage nd msg) as [[]| |]; try (intros []; fail).
  destruct (executeMessageListeners cb w nd msg) as [st| |] eqn:E; try (intros []; fail).
  assert (H : forall x e, In (CallNode x, e) (r_calls st) -> x = msg).
  { unfold executeMessageListeners in E. destruct (LookupObject nd (DEOJ msg)) as [r|]; [|discriminate E].
    set (P := fun s : run W => forall x e, In (CallNode x, e) (r_calls s) -> x = msg).
    assert (C : forall s c f, P s -> (forall x, c = CallNode x -> x = msg) -> P (fst (call_back s c f))).
    { intros s c f HP Hc. unfold call_back. destruct f as [g|]; [|exact HP]. destruct (g (r_world s) (r_node s)) as [[w' nd'] e'].
      intros x e0 I. cbn [fst r_calls] in I. apply in_app_or in I. destruct I as [I|[I|[]]]; [exact (HP x e0 I)|]. injection I as -> _. apply Hc. reflexivity. }
    assert (P0 : P (mkRun w nd [] false)) by (intros x e0 []).
    match type of E with context [call_back ?s ?c ?f] => pose proof (C s c f P0 ltac:(intros x [= ->]; reflexivity)) as P1; destruct (call_back s c f) as [s1 e1] eqn:E1 end.
    cbn [fst] in P1. assert (P2 : P (set_err s1 e1)) by exact P1. clear E1 P1. revert P2 E.
    generalize (set_err s1 e1). intros s0 P2 E.
    assert (L : forall k i s st, P s ->
      for_range k i (fun n s => p <- MsgProperty msg n ;; match p with None => Ok s | Some p => let '(s, e) := notifyPropertyRequest cb r (m_esv msg) p s in Ok (set_err s e) end) s = Ok st -> P st).
    { clear -C. intros k. induction k as [|k IH]; intros i s st HP H; cbn [for_range] in H; [injection H as <-; exact HP|].
      destruct (MsgProperty msg i) as [[p|]| |]; cbn [bind] in H; try discriminate H.
      - unfold notifyPropertyRequest in H.
        match type of H with context [call_back s ?c ?f] => pose proof (C s c f HP ltac:(intros x X; discriminate X)) as P1; destruct (call_back s c f) as [s1 e1] end.
        match type of H with context [call_back s1 ?c ?f] => pose proof (C s1 c f P1 ltac:(intros x X; discriminate X)) as P3; destruct (call_back s1 c f) as [s2 e2] end.
        cbn [bind] in H. eapply IH; [|exact H]. exact P3.
      - eapply IH; [exact HP|exact H]. }
    exact (L _ _ _ _ P2 E). }
  destruct (r_err st); [apply H|]. destruct (negb (ESV_IsResponseRequired (m_esv msg))); apply H.
Qed.

(** What a listener is called with says how it came: by multicast, in a datagram of
    its own, or over a connection. *)
Theorem C99_multicast : forall cb (w : W) nd pending self d m e,
  In (CallNode m, e) (out_calls (fst (serve_datagram cb w nd pending MulticastPacket self d))) -> by_multicast m /\ m_from m = d_from d.
Proof.
  intros cb w nd pending self d m e. unfold serve_datagram. destruct (ReadMessage d) as [x| |] eqn:E; try (intros []; fail). intros I. apply calls_message in I. subst m.
  split; [apply type_multicast|]. unfold ReadMessage in E. destruct (NewMessageWithBytes _); cbn [bind] in E; try discriminate E. injection E as <-. reflexivity.
Qed.
Theorem C99_udp : forall cb (w : W) nd pending self d m e,
  In (CallNode m, e) (out_calls (fst (serve_datagram cb w nd pending UDPUnicastPacket self d))) -> by_udp m /\ m_from m = d_from d.
Proof.
  intros cb w nd pending self d m e. unfold serve_datagram. destruct (ReadMessage d) as [x| |] eqn:E; try (intros []; fail). intros I. apply calls_message in I. subst m.
  split; [apply type_udp|]. unfold ReadMessage in E. destruct (NewMessageWithBytes _); cbn [bind] in E; try discriminate E. injection E as <-. reflexivity.
Qed.
Theorem C99_tcp : forall cb (w : W) nd pending from segs m e,
  In (CallNode m, e) (out_calls (fst (serve_connection cb w nd pending from segs))) -> by_tcp m /\ m_from m = from.
Proof.
  intros cb w nd pending from segs m e. unfold serve_connection. destruct (NewMessageWithReader _ _) as [x| |]; try (intros []; fail). intros I. apply calls_message in I. subst m.
  split; [apply type_tcp|reflexivity].
Qed.

(** ** On a network *)

(** In the step [e] the member [i] hands [x] to its transport, and [d] is the
    datagram: the bytes of the message, from the address of the member. *)
Definition sends (conf : ctrl_conf) (s : lan W) (e : lan_event) (i : nat) (x : sent) (d : datagram) : Prop :=
  exists nd nd', nth_error (members s) i = Some nd /\ nth_error (members (lan_step conf s e)) i = Some nd' /\
    In x (skipn (List.length (n_sent nd)) (n_sent nd')) /\ Bytes (sent_message x) = Ok (d_bytes d) /\ d_from d = n_addr nd'.
(** In the step [e] the member [i] gets a datagram, and [d] from the address of the
    member goes back to [a], where the datagram is from. *)
Definition answers (s : lan W) (e : lan_event) (i : nat) (a : address) (d : datagram) : Prop :=
  exists k p nd, e = LDeliver k /\ nth_error (l_packets s) k = Some p /\ pk_to p = i /\ d_from (pk_datagram p) = a /\
    nth_error (members s) i = Some nd /\ d_from d = n_addr nd.
(** The member [j] is bound to [a]. *)
Definition bound_to (s : lan W) (j : nat) (a : address) : Prop := exists nd, nth_error (members s) j = Some nd /\ n_addr nd = a.

(** Where a datagram to the member [j] comes from: a multicast of a member, or a message to the address of
    [j], sent by a member or as the answer to a datagram from there. *)
Definition multicast_before (conf : ctrl_conf) (s : lan W) (es : list lan_event) (d : datagram) : Prop :=
  exists es1 e es2 i m, es = es1 ++ e :: es2 /\ sends conf (lan_run conf s es1) e i (Multicast m) d.
Definition addressed_before (conf : ctrl_conf) (s : lan W) (es : list lan_event) (j : nat) (d : datagram) : Prop :=
  exists es1 e es2 i a, es = es1 ++ e :: es2 /\ bound_to (lan_run conf s es1) j a /\
    ((exists m, sends conf (lan_run conf s es1) e i (Unicast a m) d) \/ answers (lan_run conf s es1) e i a d).
Definition from_somewhere (conf : ctrl_conf) (s : lan W) (es : list lan_event) (p : packet) : Prop :=
  (pk_type p = MulticastPacket /\ multicast_before conf s es (pk_datagram p)) \/
  (pk_type p = UDPUnicastPacket /\ addressed_before conf s es (pk_to p) (pk_datagram p)).

Lemma run_snoc conf (s : lan W) es e : lan_run conf s (es ++ [e]) = lan_step conf (lan_run conf s es) e.
Proof. unfold lan_run. rewrite fold_left_app. reflexivity. Qed.

Lemma before_more conf (s : lan W) es e p : from_somewhere conf s es p -> from_somewhere conf s (es ++ [e]) p.
Proof.
  intros [(T & es1 & f & es2 & i & m & -> & H)|(T & es1 & f & es2 & i & a & -> & H)]; [left|right]; (split; [exact T|]).
  - exists es1, f, (es2 ++ [e]), i, m. split; [rewrite <- app_assoc; reflexivity|exact H].
  - exists es1, f, (es2 ++ [e]), i, a. split; [rewrite <- app_assoc; reflexivity|exact H].
Qed.

Lemma owner_bound (ms : list node) a j : owner ms a = Some j -> exists nd, nth_error ms j = Some nd /\ n_addr nd = a.
Proof.
  revert j. induction ms as [|nd ms IH]; intros j H; cbn [owner] in H; [discriminate H|].
  destruct (addr_eqb (n_addr nd) a) eqn:E.
  - injection H as <-. exists nd. split; [reflexivity|]. apply addr_eqb_iff, E.
  - destruct (owner ms a) as [i|] eqn:F; [|discriminate H]. injection H as <-. exact (IH i eq_refl).
Qed.

(** What a member hands to its transport in a step. *)
Lemma packets_from (s : lan W) conf es e i nd nd' p : nth_error (members (lan_run conf s es)) i = Some nd ->
  nth_error (members (lan_step conf (lan_run conf s es) e)) i = Some nd' ->
  In p (outgoing (members (lan_run conf s es)) nd nd') -> from_somewhere conf s (es ++ [e]) p.
Proof.
  intros E E' I. unfold outgoing in I. apply in_flat_map in I. destruct I as (x & Ix & I).
  assert (SD : forall d, UDP_SendMessage (n_addr nd') (sent_message x) = Ok d -> sends conf (lan_run conf s es) e i x d).
  { intros d H. exists nd, nd'. split; [exact E|]. split; [exact E'|]. split; [exact Ix|]. unfold UDP_SendMessage in H.
    destruct (Bytes (sent_message x)) as [b| |]; cbn [bind] in H; try discriminate H. injection H as <-. split; reflexivity. }
  destruct x as [m|a m|a m]; cbn [packets_of sent_message] in I, SD.
  - destruct (UDP_SendMessage (n_addr nd') m) as [d| |] eqn:ED; try (destruct I; fail). apply in_map_iff in I. destruct I as (j & <- & _).
    left. split; [reflexivity|]. exists es, e, [], i, m. split; [reflexivity|]. apply SD. reflexivity.
  - destruct (UDP_SendMessage (n_addr nd') m) as [d| |] eqn:ED; try (destruct I; fail). destruct (owner _ a) as [j|] eqn:EO; [|destruct I].
    destruct I as [<-|[]]. right. split; [reflexivity|]. exists es, e, [], i, a. split; [reflexivity|]. split; [apply owner_bound; exact EO|]. left. exists m. apply SD. reflexivity.
  - destruct I.
Qed.

Lemma set_nth_at {A} (l : list A) i x y : nth_error l i = Some y -> nth_error (set_nth l i x) i = Some x.
Proof. revert i. induction l as [|z l IH]; intros [|i] H; cbn in *; try discriminate H; [reflexivity|]. apply IH, H. Qed.

Lemma acts_from conf (s : lan W) es e i f : lan_step conf (lan_run conf s es) e = acts (lan_run conf s es) i f ->
  (forall p, In p (l_packets (lan_run conf s es)) -> from_somewhere conf s es p) ->
  forall p, In p (l_packets (lan_step conf (lan_run conf s es) e)) -> from_somewhere conf s (es ++ [e]) p.
Proof.
  intros E H p I. pose proof E as E0. rewrite E0 in I. unfold acts in I. destruct (nth_error (members (lan_run conf s es)) i) as [nd|] eqn:En; [|apply before_more, H, I].
  destruct (members_put (lan_run conf s es) i nd (f nd) En) as (M1 & _ & M3). cbn [add_packets l_packets] in I. apply in_app_or in I. destruct I as [I|I].
  - apply before_more, H. destruct i as [|i]; [exact I|]. cbn [put_member] in I. destruct (nth_error (l_hosts _) i); exact I.
  - eapply packets_from; [exact En| |exact I]. rewrite E. unfold acts. rewrite En.
    change (members (add_packets (put_member (lan_run conf s es) i (f nd)) (outgoing (members (lan_run conf s es)) nd (f nd)))) with (members (put_member (lan_run conf s es) i (f nd))).
    rewrite M1. eapply set_nth_at, En.
Qed.

Lemma reply_back {V} (cb : callbacks V) w nd pending pt self x out a d : serve_datagram cb w nd pending pt self x = (out, Ok (Some (a, d))) ->
  a = d_from x /\ d_from d = self.
Proof.
  unfold serve_datagram. destruct (ReadMessage x) as [m| |] eqn:E; try discriminate. unfold handle_datagram_message. intros [= _ H].
  assert (F : m_from m = d_from x) by (unfold ReadMessage in E; destruct (NewMessageWithBytes _); cbn [bind] in E; try discriminate E; injection E as <-; reflexivity).
  destruct (out_reply _) as [[r|]| |]; try discriminate H. unfold UDP_SendMessage in H. destruct (Bytes r); cbn [bind] in H; try discriminate H. injection H as <- <-.
  split; [exact F|reflexivity].
Qed.

Lemma receives_from conf (s : lan W) es k p0 : nth_error (l_packets (lan_run conf s es)) k = Some p0 ->
  (forall p, In p (l_packets (lan_run conf s es)) -> from_somewhere conf s es p) ->
  forall p, In p (l_packets (lan_step conf (lan_run conf s es) (LDeliver k))) -> from_somewhere conf s (es ++ [LDeliver k]) p.
Proof.
  intros Ek H p I. set (s1 := lan_run conf s es) in *.
  assert (ST : lan_step conf s1 (LDeliver k) = receives conf (with_packets s1 (without (l_packets s1) k)) p0) by (cbn [lan_step]; rewrite Ek; reflexivity).
  assert (OLD : forall q, In q (without (l_packets s1) k) -> from_somewhere conf s (es ++ [LDeliver k]) q) by (intros q Iq; apply before_more, H; eapply without_incl, Iq).
  assert (BACK : forall nd r, nth_error (members s1) (pk_to p0) = Some nd ->
    (forall a d, r = Ok (Some (a, d)) -> a = d_from (pk_datagram p0) /\ d_from d = n_addr nd) -> In p (reply_packets (members s1) r) -> from_somewhere conf s (es ++ [LDeliver k]) p).
  { intros nd r En Hr Ir. destruct r as [[[a d]|]| |]; try (destruct Ir; fail). destruct (Hr a d eq_refl) as (A & D). cbn [reply_packets] in Ir.
    destruct (owner (members s1) a) as [j|] eqn:EO; [|destruct Ir]. destruct Ir as [<-|[]]. right. split; [reflexivity|].
    exists es, (LDeliver k), [], (pk_to p0), a. split; [reflexivity|]. split; [apply owner_bound; exact EO|]. right. exists k, p0, nd.
    split; [reflexivity|]. split; [exact Ek|]. split; [reflexivity|]. split; [symmetry; exact A|]. split; [exact En|exact D]. }
  rewrite ST in I. unfold receives in I. destruct (pk_to p0) as [|i] eqn:ET.
  - destruct (serve_datagram _ _ _ _ _ _ _) as [out r] eqn:ES. cbn [add_packets l_packets with_packets l_node] in I. apply in_app_or in I. destruct I as [I|I]; [apply OLD, I|].
    apply in_app_or in I. destruct I as [I|I].
    + eapply (packets_from s conf es (LDeliver k) 0 (l_node s1) (out_node out)); [reflexivity| |exact I]. fold s1. rewrite ST. unfold receives. rewrite ET, ES. reflexivity.
    + eapply BACK; [reflexivity| |exact I]. intros a d ->. eapply reply_back, ES.
  - cbn [with_packets l_hosts] in I. destruct (nth_error (l_hosts s1) i) as [h|] eqn:EH; [|apply OLD, I].
    assert (EM : nth_error (members s1) (S i) = Some (h_node h)) by (unfold members; cbn [nth_error]; rewrite nth_error_map, EH; reflexivity).
    destruct (serve_datagram _ _ _ _ _ _ _) as [out r] eqn:ES. cbn [add_packets l_packets with_packets l_node] in I. apply in_app_or in I. destruct I as [I|I]; [apply OLD, I|].
    apply in_app_or in I. destruct I as [I|I].
    + eapply (packets_from s conf es (LDeliver k) (S i) (h_node h) (out_node out)); [exact EM| |exact I]. fold s1. rewrite ST. unfold receives. rewrite ET. cbn [with_packets l_hosts]. rewrite EH, ES.
      unfold members. cbn [add_packets l_hosts nth_error]. rewrite nth_error_map. erewrite set_nth_at by exact EH. reflexivity.
    + eapply BACK; [exact EM| |exact I]. intros a d ->. eapply reply_back, ES.
Qed.

(** Every datagram on its way is typed by the way it was sent. *)
Theorem C99_packets : forall conf (s : lan W) es, l_packets s = [] ->
  forall p, In p (l_packets (lan_run conf s es)) -> from_somewhere conf s es p.
Proof.
  intros conf s es H0. induction es as [|e es IH] using rev_ind; [cbn [lan_run fold_left]; rewrite H0; intros p []|]. rewrite run_snoc. destruct e as [i esv| |i|i d code v|k|k|k].
  - eapply acts_from; [reflexivity|exact IH].
  - intros p I. apply before_more, IH, I.
  - eapply acts_from; [reflexivity|exact IH].
  - eapply acts_from; [reflexivity|exact IH].
  - destruct (nth_error (l_packets (lan_run conf s es)) k) as [p0|] eqn:Ek; [eapply receives_from; eassumption|].
    cbn [lan_step]. rewrite Ek. intros p I. apply before_more, IH, I.
  - intros p I. apply before_more, IH. eapply without_incl. exact I.
  - intros p I. apply before_more, IH. cbn [lan_step] in I. destruct (nth_error _ k) as [q|] eqn:Ek; [|exact I].
    cbn [add_packets l_packets] in I. apply in_app_or in I. destruct I as [I|[<-|[]]]; [exact I|]. eapply nth_error_In, Ek.
Qed.

(** What the controller keeps of a datagram. *)
Lemma heard_messages conf cn ct pt self d m :
  In m (ct_messages (out_world (fst (serve_datagram (ctrl_callbacks conf) ct cn None pt self d)))) ->
  In m (ct_messages ct) \/ exists x, ReadMessage d = Ok x /\ m = SetPacketType x pt.
Proof.
  unfold serve_datagram. destruct (ReadMessage d) as [x| |]; try (intros I; left; exact I). cbn [handle_datagram_message fst].
  intros I. assert (H : In m (ct_messages ct) \/ m = SetPacketType x pt); [|destruct H as [H|H]; [left; exact H|right; exists x; auto]].
  revert I. generalize (SetPacketType x pt). clear. intros msg.
  assert (OM : forall c, OnMessage conf (n_self cn) ct msg = Ok c -> In m (ct_messages c) -> In m (ct_messages ct) \/ m = msg).
  { unfold OnMessage. intros c. destruct (negb (n_self cn) && isSelfMessage conf msg); [intros [= <-]; auto|].
    assert (X : forall c1, (if isNodeProfileMessage msg then parseNodeProfileMessage conf (n_self cn) ct msg else Ok ct) = Ok c1 -> ct_messages c1 = ct_messages ct).
    { intros c1. destruct (isNodeProfileMessage msg); [|intros [= <-]; reflexivity]. unfold parseNodeProfileMessage. destruct (negb (n_self cn) && isSelfMessage conf msg); [intros [= <-]; reflexivity|].
      destruct (newRemoteNodeWithInstanceListMessageAndConfig msg (cc_auto conf)); [|intros [= <-]; reflexivity|discriminate]. intros [= <-]. unfold addNode. destruct (existsb _ _); reflexivity. }
    destruct (if isNodeProfileMessage msg then _ else _) as [c1| |]; try discriminate. specialize (X c1 eq_refl). cbn [bind]. intros [= <-].
    destruct (cc_listener conf); cbn [ct_messages]; rewrite X; [|auto]. intros I. apply in_app_or in I. destruct I as [I|[I|[]]]; auto. }
  unfold ProtocolMessageReceived. destruct (negb (n_self cn) && _); [intros I; left; exact I|].
  destruct (isResponseMessage None msg) as [dl| |]; try (intros I; left; exact I).
  destruct (validateReceivedMessage cn msg) as [[]| |]; try (intros I; left; exact I).
  destruct (executeMessageListeners (ctrl_callbacks conf) ct cn msg) as [st| |] eqn:E; try (intros I; left; exact I).
  assert (ES : In m (ct_messages (r_world st)) -> In m (ct_messages ct) \/ m = msg).
  { unfold executeMessageListeners in E. destruct (LookupObject cn (DEOJ msg)) as [r|]; [|discriminate E]. cbn [ctrl_callbacks cb_node option_map call_back r_world r_node r_calls r_err] in E.
    assert (L : forall k i s0 st, for_range k i (fun n s => p <- MsgProperty msg n ;; match p with None => Ok s | Some p => let '(s, e) := notifyPropertyRequest (ctrl_callbacks conf) r (m_esv msg) p s in Ok (set_err s e) end) s0 = Ok st -> r_world st = r_world s0).
    { clear. intros k. induction k as [|k IH]; intros i s0 st H; cbn [for_range] in H; [injection H as <-; reflexivity|].
      destruct (MsgProperty msg i) as [[p|]| |]; cbn [bind] in H; try discriminate H; apply IH in H; exact H. }
    destruct (OnMessage conf (n_self cn) ct msg) as [c| |] eqn:EO; cbn [ctrl_callbacks] in E; apply L in E; rewrite E; cbn [set_err r_world]; [apply OM; reflexivity|auto|auto]. }
  destruct (r_err st); [exact ES|]. destruct (negb (ESV_IsResponseRequired (m_esv msg))); exact ES.
Qed.

(** What the controller's listener is told says how it came, and it came so. *)
Theorem C99_controller : forall conf (s : lan W) es, l_packets s = [] ->
  forall m, In m (ct_messages (l_ctrl (lan_run conf s es))) -> In m (ct_messages (l_ctrl s)) \/
    exists d x, ReadMessage d = Ok x /\ m_from m = d_from d /\
      ((m = SetPacketType x MulticastPacket /\ by_multicast m /\ multicast_before conf s es d) \/
       (m = SetPacketType x UDPUnicastPacket /\ by_udp m /\ addressed_before conf s es 0 d)).
Proof.
  intros conf s es H0. induction es as [|e es IH] using rev_ind; [intros m I; left; exact I|]. intros m I. rewrite run_snoc in I.
  assert (OLD : In m (ct_messages (l_ctrl (lan_run conf s es))) -> In m (ct_messages (l_ctrl s)) \/
    exists d x, ReadMessage d = Ok x /\ m_from m = d_from d /\
      ((m = SetPacketType x MulticastPacket /\ by_multicast m /\ multicast_before conf s (es ++ [e]) d) \/
       (m = SetPacketType x UDPUnicastPacket /\ by_udp m /\ addressed_before conf s (es ++ [e]) 0 d))).
  { intros J. destruct (IH m J) as [K|(d & x & R & F & K)]; [left; exact K|]. right. exists d, x. split; [exact R|]. split; [exact F|].
    destruct K as [(A & B & C)|(A & B & C)]; [left|right]; (split; [exact A|]; split; [exact B|]).
    - destruct (before_more conf s es e (mkPacket 0 MulticastPacket d) (or_introl (conj eq_refl C))) as [(_ & X)|(X & _)]; [exact X|discriminate X].
    - destruct (before_more conf s es e (mkPacket 0 UDPUnicastPacket d) (or_intror (conj eq_refl C))) as [(X & _)|(_ & X)]; [discriminate X|exact X]. }
  assert (ACT : forall i f, l_ctrl (acts (lan_run conf s es) i f) = l_ctrl (lan_run conf s es)).
  { intros i f. unfold acts. destruct (nth_error _ i) as [nd|]; [|reflexivity]. cbn [add_packets l_ctrl]. destruct i; [reflexivity|]. cbn [put_member]. destruct (nth_error (l_hosts _) i); reflexivity. }
  destruct e as [i esv| |i|i d code v|k|k|k]; cbn [lan_step] in I; rewrite ?ACT in I; try (apply OLD; exact I).
  - destruct (nth_error (l_packets (lan_run conf s es)) k) as [p|] eqn:Ek; [|apply OLD, I].
    pose proof (C99_packets conf s es H0 p (nth_error_In _ _ Ek)) as FP. apply (before_more conf s es (LDeliver k)) in FP.
    unfold receives in I. destruct (pk_to p) as [|i] eqn:ET.
    + match type of I with context [serve_datagram ?a ?b ?c ?d ?f ?g ?h] => pose proof (heard_messages conf c b f g h m) as HM; destruct (serve_datagram a b c d f g h) as [out r] eqn:ES end.
      cbn [add_packets l_ctrl] in I. cbn [with_packets l_node l_ctrl fst] in HM. destruct (HM I) as [J|(x & RX & EX)]; [apply OLD, J|].
      right. exists (pk_datagram p), x. split; [exact RX|].
      assert (F : m_from x = d_from (pk_datagram p)) by (unfold ReadMessage in RX; destruct (NewMessageWithBytes _); cbn [bind] in RX; try discriminate RX; injection RX as <-; reflexivity).
      split; [rewrite EX; exact F|]. destruct FP as [(T & X)|(T & X)]; rewrite T in EX; [left|right]; (split; [exact EX|]); rewrite EX.
      * split; [apply type_multicast|exact X].
      * split; [apply type_udp|]. rewrite ET in X. exact X.
    + cbn [with_packets l_hosts] in I. destruct (nth_error (l_hosts _) i) as [h|]; [|apply OLD, I].
      destruct (serve_datagram _ _ _ _ _ _ _) as [out r]. apply OLD, I.
  - destruct (nth_error _ k); apply OLD, I.
Qed.

End Calls.

(** ** Responses to requests *)

Lemma header_type m d m' : parseFrameHeaderBytes m d = Ok m' -> m_pktType m' = m_pktType m.
Proof.
  unfold parseFrameHeaderBytes. destruct (_ <? _); [discriminate|]. destruct (idx d 0); cbn [bind]; try discriminate. destruct (negb _); try discriminate.
  destruct (idx d 1); cbn [bind]; try discriminate. destruct (negb _); try discriminate. destruct (idx d 2); cbn [bind]; try discriminate. destruct (idx d 3); cbn [bind]; try discriminate.
  intros [= <-]. reflexivity.
Qed.
Lemma format_type m d m' : parseFormat1HeaderBytes m d = Ok m' -> m_pktType m' = m_pktType m.
Proof. unfold parseFormat1HeaderBytes. destruct (_ <? _); [discriminate|]. repeat (destruct (idx d _); cbn [bind]; try discriminate). intros [= <-]; reflexivity. Qed.
Lemma reader_type {R} (Read : R -> Z -> read_result R) r m : NewMessageWithReader Read r = Ok m -> m_pktType m = UnknownPacket.
Proof.
  unfold NewMessageWithReader, ParseReader. destruct (read_exactly Read r FrameHeaderSize) as [[h r1]| |]; cbn [bind]; try discriminate.
  destruct (parseFrameHeaderBytes NewMessage h) as [m1| |] eqn:E1; cbn [bind]; try discriminate.
  destruct (read_exactly Read r1 Format1HeaderSize) as [[f r2]| |]; cbn [bind]; try discriminate.
  destruct (parseFormat1HeaderBytes m1 f) as [m2| |] eqn:E2; cbn [bind]; try discriminate.
  unfold parseFormat1PropertyReader. destruct (read_props Read (m_ep m2) r2) as [[ps r3]| |]; cbn [bind]; try discriminate. intros [= <-]. cbn [fst].
  change (m_pktType m2 = UnknownPacket). rewrite (format_type _ _ _ E2), (header_type _ _ _ E1). reflexivity.
Qed.

(** A response that PostMessage got over a connection says that it came in no way at
    all; one it got in a datagram says so. *)
Theorem C99_post_tcp : forall nd dst msg net nd' evs resp, Node_PostMessage nd dst msg net = Ok (nd', evs, PostDone resp) -> by_nothing resp /\ m_from resp = dst.
Proof.
  intros nd dst msg net nd' evs resp H.
  assert (U : forall l k m evs r, UManager_Post k dst l m = Ok (evs, Ok r) -> m_pktType r = UnknownPacket /\ m_from r = dst).
  { clear. intros l. induction l as [|a l IH]; intros k m evs r H; cbn [UManager_Post] in H; [discriminate H|].
    destruct (TCP_PostMessage k dst a m) as [[ev x]| |] eqn:ET; cbn [bind] in H; try discriminate H. cbn [fst snd] in H.
    destruct x as [r'|e|]; [|destruct l as [|a' l]; [discriminate H|]|discriminate H].
    - injection H as -> ->. unfold TCP_PostMessage in ET. destruct (Bytes m) as [b| |]; cbn [bind] in ET; try discriminate ET.
      destruct (dialAndWriteBytes k a b) as [[ev o] ok]. destruct (negb ok); [discriminate ET|]. destruct a as [| | |n|[] segs]; try discriminate ET.
      injection ET as _ ET. destruct (NewMessageWithReader bufio_Read (NewBufio segs)) as [y| |] eqn:EY; cbn [bind] in ET; try discriminate ET. injection ET as <-.
      split; [exact (reader_type _ _ _ EY)|reflexivity].
    - destruct (UManager_Post (S k) dst (a' :: l) m) as [[ev' x']| |] eqn:EU; cbn [bind fst snd] in H; try discriminate H. injection H as _ ->. exact (IH _ _ _ _ EU). }
  assert (K : m_pktType resp = UnknownPacket /\ m_from resp = dst).
  2: { destruct K as (K & F). split; [|exact F]. unfold by_nothing, IsMulticastPacket, IsUnicastPacket, IsUDPUnicastPacket, IsTCPUnicastPacket, IsPacketType. rewrite K. repeat split. }
  unfold Node_PostMessage in H.
  destruct (if pn_node_tcp net then post_tcp nd dst msg net else Ok (nd, msg, [], None)) as [[[[nd1 m1] ev1] r1]| |] eqn:EP; cbn [bind] in H; try discriminate H.
  destruct r1 as [r1|].
  - injection H as _ _ ->. destruct (pn_node_tcp net); [|discriminate EP]. unfold post_tcp in EP. destruct (negb (n_running nd)); [discriminate EP|].
    destruct (updateMessageDestinationHeader nd msg) as [nd2 [m2| |]]; try discriminate EP. destruct (pn_server_tcp net); [|discriminate EP].
    destruct (UManager_Post 0 dst (pn_post net) m2) as [[ev2 x]| |] eqn:EU; cbn [bind fst snd] in EP; try discriminate EP.
    destruct x as [x| |]; try discriminate EP. injection EP as _ _ _ ->. exact (U _ _ _ _ _ EU).
  - destruct (negb (n_running nd1)); [discriminate H|]. destruct (updateMessageDestinationHeader nd1 m1) as [nd2 [m2| |]]; try discriminate H.
    destruct (UManager_Send _ _ _ _) as [[ev2 []]| |]; cbn [bind fst snd] in H; discriminate H.
Qed.
Theorem C99_post_udp : forall W conf (s : lan W) a m resp, snd (net_post conf s a m) = inl resp -> by_udp resp.
Proof.
  intros W conf s a m resp. unfold net_post. destruct (Node_PostMessage _ _ _ _) as [[[cl evs] x]| |]; try discriminate.
  destruct evs as [|[k|k b|k|k b] [|e evs]]; try discriminate; destruct x; try discriminate.
  destruct (owner (members s) a) as [[|i]|]; try discriminate. destruct (nth_error (l_hosts s) i) as [h|]; try discriminate.
  destruct (serve_datagram (h_cb h) _ _ _ _ _ _) as [out r]. destruct r as [[[dst d]|]| |]; try discriminate.
  destruct (negb _); try discriminate. destruct (serve_datagram (ctrl_callbacks conf) _ _ _ _ _ _) as [out' r']. cbn [snd].
  destruct (out_delivered out'); try discriminate. destruct (ReadMessage d); try discriminate. intros [= <-]. apply type_udp.
Qed.
(** A copy says what the original says. *)
Theorem C99_copy : forall m c, NewMessageWithMessage m = Ok c ->
  IsMulticastPacket c = IsMulticastPacket m /\ IsUnicastPacket c = IsUnicastPacket m /\ IsUDPUnicastPacket c = IsUDPUnicastPacket m /\ IsTCPUnicastPacket c = IsTCPUnicastPacket m /\ m_from c = m_from m.
Proof.
  intros m c. unfold NewMessageWithMessage. destruct (Bytes m) as [b| |]; cbn [bind]; try discriminate. destruct (NewMessageWithBytes b) as [x| |]; cbn [bind]; try discriminate.
  intros [= <-]. repeat split.
Qed.

(** Over a connection the answer of the message is wrong: a response of the server
    that came over TCP is no unicast message. *)
Definition ex_response : res (option message) :=
  cl <- PropsExchange.ex_client ;;
  r <- Node_PostMessage cl (mkAddress 7 3610) (new_request 0x029001 0x62 [mkPProp 0x80 []])
     (mkPostNet true true [AWritten true [[0x10; 0x81; 0; 2; 2; 0x90; 1; 0x0E; 0xF0; 1; 0x72; 1; 0x80; 1; 0x30]]] []) ;;
  Ok match snd r with PostDone x => Some x | _ => None end.
Theorem C99_post_refuted : exists nd dst msg net nd' evs resp, n_running nd = true /\
  Node_PostMessage nd dst msg net = Ok (nd', evs, PostDone resp) /\ m_ep resp = [mkPProp 0x80 [0x30]] /\ ~ by_tcp resp /\ IsUnicastPacket resp = false.
Proof.
  destruct PropsExchange.ex_client as [cl| |] eqn:EC; [|vm_compute in EC; discriminate EC..].
  pose (net := mkPostNet true true [AWritten true [[0x10; 0x81; 0; 2; 2; 0x90; 1; 0x0E; 0xF0; 1; 0x72; 1; 0x80; 1; 0x30]]] []).
  pose (msg := new_request 0x029001 0x62 [mkPProp 0x80 []]).
  assert (R : (cl <- PropsExchange.ex_client ;; Ok (n_running cl)) = Ok true) by (vm_compute; reflexivity). rewrite EC in R. cbn [bind] in R. injection R as R.
  assert (E : match ex_response with Ok (Some x) => Some (m_ep x) | _ => None end = Some [mkPProp 0x80 [0x30]]) by (vm_compute; reflexivity).
  unfold ex_response in E. rewrite EC in E. cbn [bind] in E. fold msg net in E.
  destruct (Node_PostMessage cl (mkAddress 7 3610) msg net) as [[[nd' evs] [x| |y]]| |] eqn:EP; cbn [bind snd] in E; try discriminate E. injection E as E.
  destruct (C99_post_tcp _ _ _ _ _ _ _ EP) as ((_ & U & _ & T) & _).
  exists cl, (mkAddress 7 3610), msg, net, nd', evs, x. split; [exact R|]. split; [exact EP|]. split; [exact E|]. split; [|exact U].
  intros (_ & _ & _ & T'). congruence.
Qed.

(** ** Examples *)

(** The node at address 9 announces itself, the controller searches: it is told of
    the announcement and of two answers. *)
Example C99_example :
  let s := lan_run ex_conf ex_net (LAnnounce 2 :: LSearch 0 0x62 :: repeat (LDeliver 0) 9) in
  (l_packets s, map (fun m => (a_ip (m_from m), m_esv m, IsMulticastPacket m, IsUDPUnicastPacket m)) (ct_messages (l_ctrl s))) =
  ([], [(9, 0x73, true, false); (7, 0x72, false, true); (9, 0x72, false, true)]).
Proof. vm_compute. reflexivity. Qed.
Example C99_example_tcp :
  (nd <- PropsExchange.ex_server PropsNode.ex_dev ;;
   Ok (map (fun c => match fst c with CallNode m => Some (IsTCPUnicastPacket m, IsUnicastPacket m, IsMulticastPacket m) | _ => None end)
     (out_calls (fst (serve_connection (mkCallbacks (Some (fun w nd _ => (w, nd, false))) (fun _ => None) (fun _ => None)) tt nd None (mkAddress 5 40000)
       [[0x10; 0x81; 0; 2; 0x0E; 0xF0; 1; 2; 0x90; 1; 0x62; 1; 0x80; 0]]))))) = Ok [Some (true, true, false)].
Proof. vm_compute. reflexivity. Qed.

Print Assumptions C99_multicast.
Print Assumptions C99_udp.
Print Assumptions C99_tcp.
Print Assumptions C99_packets.
Print Assumptions C99_controller.
Print Assumptions C99_post_tcp.
Print Assumptions C99_post_udp.
Print Assumptions C99_copy.
Print Assumptions C99_post_refuted.

(** C88: requests in their order. *)

From Verif Require Import Go GoFacts Encoding EncodingFacts Protocol Parser MessageFacts ParserFacts
  ProtocolFacts Reader StdDB Property PropertyFacts Object ObjectFacts Spec Node NodeFacts
  Handler HandlerFacts PropsHandler Remote RemoteFacts PropsRemote Transport TransportFacts Exchange ExchangeFacts
  PropsExchange PropsSearch Concurrent ConcurrentFacts PropsConcurrent PropsMemory Lan LanFacts Control ControlFacts PropsControl.
From Verif Require PropsLan.
From Coq Require Import ZifyBool ZifyNat.
Local Open Scope Z_scope.

(** ** Statement vocabulary *)

Section Vocabulary.
Context {W : Type}.
Implicit Types s : lan W.

(** No datagram is on its way to member [i]. *)
Definition nothing_for s (i : nat) : Prop := Forall (fun p => pk_to p <> i) (l_packets s).

(** What happens to the datagrams for member [i]: none is lost, repeated, or from
    outside, and none overtakes another, on the network or among the goroutines that
    handle them (transport/unicast_server.go L107-L137 starts one for each datagram;
    [LDeliver] is the moment at which it runs); its application does not set values. *)
Definition orderly s (i : nat) (e : ctl_event) : Prop :=
  match e with
  | CLan (LSet i' _ _ _) => i' <> i
  | CLan (LDeliver k) => forall p, nth_error (l_packets s) k = Some p -> pk_to p = i ->
      Forall (fun q => pk_to q <> i) (firstn k (l_packets s))
  | CLan (LLose k) | CLan (LRepeat k) => forall p, nth_error (l_packets s) k = Some p -> pk_to p <> i
  | CInject p => pk_to p <> i
  | _ => True
  end.
Definition in_order (conf : ctrl_conf) s (i : nat) (es : list ctl_event) : Prop :=
  forall es1 e es2, es = es1 ++ e :: es2 -> orderly (ctl_run conf s es1) i e.

(** The event is a request of a running member to the node, that the node accepts as
    a request to write to its object [r]. *)
Definition sends_write s (nd : node) (r : objref) (o : object) (e : ctl_event) (qs : list pprop) : Prop :=
  exists i obj esv sender, e = CSend i (n_addr nd) obj esv qs /\ nth_error (members s) i = Some sender /\ n_running sender = true /\
    hears nd (n_addr sender) /\ LookupObject nd obj = Some r /\ writes esv /\ Forall (accepts o esv) qs.

(** What was sent to be written, in the order of sending. *)
Inductive sent_log s (nd : node) (r : objref) (o : object) : list ctl_event -> list pprop -> Prop :=
| SentNil : sent_log s nd r o [] []
| SentWrite : forall es e log qs, sent_log s nd r o es log -> sends_write s nd r o e qs -> sent_log s nd r o (es ++ [e]) (log ++ qs)
| SentOther : forall es e log, sent_log s nd r o es log -> (forall qs, ~ sends_write s nd r o e qs) -> sent_log s nd r o (es ++ [e]) log.

End Vocabulary.

(** ** Lemmas *)

Section Lemmas.
Context {W : Type}.
Implicit Types s : lan W.

(** The messages on their way to a member. *)
Definition msg_to (i : nat) (p : packet) : list message :=
  if (pk_to p =? i)%nat then match ReadMessage (pk_datagram p) with Ok m => [SetPacketType m (pk_type p)] | _ => [] end else [].
Definition msgs (i : nat) (ps : list packet) : list message := flat_map (msg_to i) ps.

Lemma msgs_app i ps qs : msgs i (ps ++ qs) = msgs i ps ++ msgs i qs.
Proof. apply flat_map_app. Qed.

Lemma msgs_none i ps : Forall (fun p => pk_to p <> i) ps -> msgs i ps = [].
Proof.
  induction 1 as [|p ps H _ IH]; [reflexivity|]. cbn [msgs flat_map]. fold (msgs i ps). rewrite IH. unfold msg_to.
  destruct (Nat.eqb_spec (pk_to p) i); [contradiction|reflexivity].
Qed.

Lemma msgs_without i ps k p : nth_error ps k = Some p -> pk_to p <> i -> msgs i (without ps k) = msgs i ps.
Proof.
  intros E H. rewrite (take_out ps k p E) at 2. unfold without. rewrite !msgs_app. f_equal.
  change (p :: skipn (S k) ps) with ([p] ++ skipn (S k) ps). rewrite msgs_app, (msgs_none i [p]); [reflexivity|]. constructor; [exact H|constructor].
Qed.

Lemma accepted_app nd r ms : forall ps ms' ps', accepted_writes nd r ms ps -> accepted_writes nd r ms' ps' ->
  accepted_writes nd r (ms ++ ms') (ps ++ ps').
Proof.
  intros ps ms' ps' H H'. induction H as [|m ms ps W1 W2 W3 _ IH|m ms ps W1 _ IH]; [exact H'| |].
  - cbn [app]. rewrite <- app_assoc. apply AWWrite; assumption.
  - cbn [app]. apply AWOther; assumption.
Qed.

Lemma accepted_none nd r ms : Forall (fun m => ~ writes (m_esv m)) ms -> accepted_writes nd r ms [].
Proof. induction 1 as [|m ms H _ IH]; [constructor|]. apply AWOther; [|exact IH]. intros (_ & _ & X). contradiction. Qed.

Lemma msgs_quiet i ps : (forall p m, In p ps -> ReadMessage (pk_datagram p) = Ok m -> ~ writes (m_esv m)) ->
  Forall (fun m => ~ writes (m_esv m)) (msgs i ps).
Proof.
  intros H. apply Forall_forall. intros m Hm. apply in_flat_map in Hm as (p & Hp & Hm). unfold msg_to in Hm.
  destruct (pk_to p =? i)%nat; [|destruct Hm]. destruct (ReadMessage (pk_datagram p)) as [x| |] eqn:E; try destruct Hm as [<-|[]]; try destruct Hm.
  apply (H p x Hp E).
Qed.

Lemma spoken_quiet ms a p m : spoken_packet ms a p -> ReadMessage (pk_datagram p) = Ok m -> ~ writes (m_esv m).
Proof.
  intros (x & b & HS & EB & ED & _) ER. rewrite ED in ER. destruct (spoken_read _ _ _ _ HS EB ER) as (X & _). unfold writes. cbn [In] in *. lia.
Qed.

Lemma core_shape nd nd' : core_of nd' = core_of nd -> kept nd nd' -> same_shape nd nd'.
Proof.
  intros E (_ & _ & K3 & K4 & _). pose proof (f_equal k_devs E) as E1. pose proof (f_equal k_profs E) as E2. cbn [core_of k_devs k_profs] in *.
  unfold same_shape, node_shape. rewrite E1, E2, K3, K4. reflexivity.
Qed.

Lemma msg_first i ps k p m : nth_error ps k = Some p -> pk_to p = i -> Forall (fun q => pk_to q <> i) (firstn k ps) ->
  ReadMessage (pk_datagram p) = Ok m -> msgs i ps = SetPacketType m (pk_type p) :: msgs i (without ps k).
Proof.
  intros E ET HF ER. rewrite (take_out ps k p E) at 1. unfold without. rewrite !msgs_app, !(msgs_none _ _ HF). cbn [app msgs flat_map].
  unfold msg_to at 1. rewrite ET, Nat.eqb_refl, ER. reflexivity.
Qed.
Lemma msg_first_none i ps k p : nth_error ps k = Some p -> pk_to p = i -> Forall (fun q => pk_to q <> i) (firstn k ps) ->
  (forall m, ReadMessage (pk_datagram p) <> Ok m) -> msgs i ps = msgs i (without ps k).
Proof.
  intros E ET HF ER. rewrite (take_out ps k p E) at 1. unfold without. rewrite !msgs_app, !(msgs_none _ _ HF). cbn [app msgs flat_map].
  unfold msg_to at 1. rewrite ET, Nat.eqb_refl. destruct (ReadMessage (pk_datagram p)) as [m| |]; [exfalso; apply (ER m); reflexivity|reflexivity..].
Qed.

(** One step: what it writes leaves the queue, what it sends joins it. *)
Definition order_goal s0 s s' e j nd0 r o0 ps : Prop :=
  exists nd2 ps1 rest ps2, nth_error (members s') (Datatypes.S j) = Some nd2 /\ same_shape nd0 nd2 /\ ps = ps1 ++ rest /\
    (writes_to s j r e ps1 \/ (writes_nothing s j r e /\ ps1 = [])) /\
    (sends_write s0 nd0 r o0 e ps2 \/ ((forall qs, ~ sends_write s0 nd0 r o0 e qs) /\ ps2 = [])) /\
    accepted_writes nd0 r (msgs (Datatypes.S j) (l_packets s')) (rest ++ ps2).

Lemma order_step conf s0 s e j nd0 r o0 nd1 ps :
  net_ok s -> event_ok e -> NoDup (map n_addr (members s0)) -> Forall2 kept (members s0) (members s) ->
  nth_error (members s0) (Datatypes.S j) = Some nd0 -> obj_at nd0 r = Some o0 ->
  nth_error (members s) (Datatypes.S j) = Some nd1 -> same_shape nd0 nd1 -> orderly s (Datatypes.S j) e ->
  accepted_writes nd0 r (msgs (Datatypes.S j) (l_packets s)) ps ->
  order_goal s0 s (ctl_step conf s e) e j nd0 r o0 ps.
Proof.
  intros HN HE HD HK E0 HO0 E1 SS HO HA. pose proof HN as (N1 & N2 & N3). set (sj := Datatypes.S j) in *. assert (ESJ : sj = Datatypes.S j) by reflexivity.
  assert (NS : forall e, (forall i a obj esv qs, e <> CSend i a obj esv qs) -> forall qs, ~ sends_write s0 nd0 r o0 e qs).
  { intros e' H qs (i & obj & esv & sender & -> & _). eapply H. reflexivity. }
  (* nothing written, nothing sent, quiet messages added *)
  assert (Q : forall s' (e' : ctl_event) nd2 (l add : list packet), writes_nothing s j r e' -> (forall qs, ~ sends_write s0 nd0 r o0 e' qs) ->
    nth_error (members s') sj = Some nd2 -> same_shape nd0 nd2 -> l_packets s' = l ++ add ->
    msgs sj l = msgs sj (l_packets s) -> (forall p m, In p add -> ReadMessage (pk_datagram p) = Ok m -> ~ writes (m_esv m)) ->
    order_goal s0 s s' e' j nd0 r o0 ps).
  { intros s' e' nd2 l add H1 H2 H3 H4 H5 H6 H7. unfold order_goal; fold sj. exists nd2, [], ps, []. split; [exact H3|]. split; [exact H4|]. split; [reflexivity|].
    split; [right; auto|]. split; [right; auto|]. rewrite H5, msgs_app, H6. apply accepted_app; [exact HA|].
    apply accepted_none, msgs_quiet. exact H7. }
  (* a member speaks *)
  assert (QA : forall (e' : ctl_event) i f, ctl_step conf s e' = acts s i f -> writes_nothing s j r e' -> (forall qs, ~ sends_write s0 nd0 r o0 e' qs) ->
    (forall nd, minv nd -> goes nd (f nd)) -> (i = sj -> forall nd, core_of (f nd) = core_of nd) ->
    order_goal s0 s (ctl_step conf s e') e' j nd0 r o0 ps).
  { intros e' i f EQ H1 H2 HG HC. rewrite EQ. destruct (nth_error (members s) i) as [nd|] eqn:EN.
    2:{ apply (Q _ e' nd1 (l_packets s) []); try assumption; rewrite ?(acts_none s i f EN), ?app_nil_r; try assumption; try reflexivity. intros ? ? []. }
    assert (HM : minv nd) by (rewrite Forall_forall in N1; apply N1; eapply nth_error_In, EN).
    destruct (acts_members s i f nd EN) as (A1 & _ & _ & A4). pose proof (goes_outgoing (members s) nd (f nd) (HG nd HM)) as HS.
    destruct (Nat.eq_dec i sj) as [Ei|NE].
    - subst i. assert (nd = nd1) by congruence. subst nd.
      apply (Q _ e' (f nd1) (l_packets s) (outgoing (members s) nd1 (f nd1))); try assumption; rewrite ?A1, ?A4; try reflexivity.
      + eapply set_nth_there, EN.
      + eapply ConcurrentFacts.same_trans; [exact SS|]. apply core_shape; [apply HC; reflexivity|apply HG, HM].
      + intros p m Hp. rewrite Forall_forall in HS. apply (spoken_quiet _ _ _ _ (HS p Hp)).
    - apply (Q _ e' nd1 (l_packets s) (outgoing (members s) nd (f nd))); try assumption; rewrite ?A1, ?A4; try reflexivity.
      + rewrite set_nth_elsewhere by exact NE. exact E1.
      + intros p m Hp. rewrite Forall_forall in HS. apply (spoken_quiet _ _ _ _ (HS p Hp)). }
  destruct e as [[i esv| |i|i d code v|k|k|k]|i a obj esv qs|p]; cbn [event_ok orderly] in *.
  - eapply QA; [reflexivity|intros x X; inversion X|apply NS; discriminate| |].
    + intros nd HM. apply search_goes; assumption.
    + intros _ nd. apply AnnounceMessage_core.
  - apply (Q _ (CLan LClear) nd1 (l_packets s) []); try assumption; [intros x X; inversion X|apply NS; discriminate|symmetry; apply app_nil_r|reflexivity|intros ? ? []].
  - eapply QA; [reflexivity|intros x X; inversion X|apply NS; discriminate| |].
    + intros nd HM. apply Announce_goes; assumption.
    + intros _ nd. apply Announce_core.
  - eapply QA; [reflexivity|intros x X; inversion X; subst; apply HO; reflexivity|apply NS; discriminate| |].
    + intros nd HM. apply (written_goes nd (DevRef d) (mkPProp code v)); assumption.
    + intros X. contradiction.
  - cbn [ctl_step lan_step]. destruct (nth_error (l_packets s) k) as [p|] eqn:EP.
    2:{ apply (Q _ (CLan (LDeliver k)) nd1 (l_packets s) []); cbn [ctl_step lan_step]; rewrite ?EP, ?app_nil_r; try assumption; try reflexivity;
        [intros x X; inversion X; congruence|apply NS; discriminate|intros ? ? []]. }
    set (s1 := with_packets s (without (l_packets s) k)).
    assert (HB : is_bytes (d_bytes (pk_datagram p))) by (rewrite Forall_forall in N3; apply N3; eapply nth_error_In, EP).
    destruct (nth_error (members s) (pk_to p)) as [nd|] eqn:EN.
    2:{ assert (NT : pk_to p <> sj) by congruence.
        apply (Q _ (CLan (LDeliver k)) nd1 (without (l_packets s) k) []); rewrite ?app_nil_r; fold s1; rewrite ?(receives_none conf s1 p EN); try assumption; try reflexivity;
        [intros x X; inversion X; congruence|apply NS; discriminate|eapply msgs_without; eassumption|intros ? ? []]. }
    destruct (receives_cases conf s1 p nd EN) as (_ & D).
    destruct (ReadMessage (pk_datagram p)) as [m| |] eqn:ER.
    2,3: destruct D as (D1 & D2 & _);
      apply (Q _ (CLan (LDeliver k)) nd1 (without (l_packets s) k) []); rewrite ?app_nil_r; fold s1; rewrite ?D1, ?D2; try assumption; try reflexivity;
        [intros x X; inversion X; congruence|apply NS; discriminate| |intros ? ? []];
      (destruct (Nat.eq_dec (pk_to p) sj) as [ET|NT]; [symmetry; eapply msg_first_none; [exact EP|exact ET|apply (HO p eq_refl ET)|congruence]|eapply msgs_without; eassumption]).
    destruct D as (nd' & rep & EH & D1 & D2). change (members s1) with (members s) in *.
    destruct (read_received _ _ (pk_type p) HB ER) as (HR & _).
    assert (HM : minv nd) by (rewrite Forall_forall in N1; apply N1; eapply nth_error_In, EN).
    destruct (handled_facts conf s1 _ _ nd nd' rep N2 HM HR EN EH) as (G & _ & A).
    pose proof (goes_outgoing (members s) nd nd' G) as HS.
    set (add := outgoing (members s) nd nd' ++ answer_packets (members s) (n_addr nd) (m_from m) rep) in *.
    assert (HQ : forall p m, In p add -> ReadMessage (pk_datagram p) = Ok m -> ~ writes (m_esv m)).
    { intros q x Hq Hx. apply in_app_or in Hq as [Hq|Hq].
      - rewrite Forall_forall in HS. apply (spoken_quiet _ _ _ _ (HS q Hq) Hx).
      - unfold answer_packets in Hq. destruct rep as [[resp|]| |]; try destruct Hq.
        destruct (A resp eq_refl) as (_ & (b & deoj & ev & EB & HF & HNr) & _). rewrite EB in Hq.
        destruct (owner (members s) (m_from m)) as [t|]; [|destruct Hq]. destruct Hq as [<-|[]]. cbn [pk_datagram] in Hx.
        destruct (framed_read _ _ _ _ _ HF Hx) as (_ & V). rewrite V. intros X. apply HNr. unfold writes in X. cbn [In spec_request] in *. tauto. }
    destruct (Nat.eq_dec (pk_to p) sj) as [ET|NT].
    2:{ apply (Q _ (CLan (LDeliver k)) nd1 (without (l_packets s) k) add); fold s1; rewrite ?D1, ?D2; try assumption; try reflexivity;
        [intros x X; inversion X; congruence|apply NS; discriminate|rewrite set_nth_elsewhere by exact NT; exact E1|eapply msgs_without; eassumption]. }
    rewrite ET in *. assert (nd = nd1) by congruence. subst nd.
    destruct (handled_at s1 conf j _ _ _ EH) as (h & Eh & Em & EN'). change (members s1) with (members s) in Em. fold sj in Em.
    change (l_hosts s1) with (l_hosts s) in Eh. assert (h_node h = nd1) by congruence. subst nd1.
    assert (HSt : storing (h_cb h)) by (rewrite Forall_forall in N2; apply N2; eapply nth_error_In, Eh).
    rewrite (msg_first sj _ k p m EP ET (HO p eq_refl ET) ER) in HA. destruct (accepted_cons _ _ _ _ _ HA) as (ps1 & rest & -> & A1 & A2).
    destruct (ConcurrentFacts.same_at _ _ _ _ SS HO0) as (o1 & Ho1 & _).
    destruct (memory_one (h_cb h) HSt (h_app h) nd0 (h_node h) None _ r o1 ps1 HR I SS Ho1 A1) as (SS2 & _). rewrite <- EN' in SS2.
    unfold order_goal; fold sj. exists nd', ps1, rest, []. rewrite D1. split; [eapply set_nth_there, E1|]. split; [exact SS2|]. split; [reflexivity|]. split; [|split].
    + inversion A1 as [|m' ms' ps' W1 (ov & W2) W3 W4|m' ms' ps' W1 W4]; subst; inversion W4; subst.
      * left. rewrite app_nil_r. destruct (same_valid_at _ _ _ _ (ConcurrentFacts.same_sym _ _ SS) (ex_intro _ ov W2)) as (ov' & W2').
        eapply (WRequest s j r k p (h_node h) m ov'); try eassumption. apply (same_not_own _ _ _ SS) in W1. exact W1.
      * right. split; [|reflexivity]. intros x X. inversion X as [|k' p' nd2 m2 o2 Y1 Y2 Y3 Y4 Y5 Y6 Y7]; subst.
        assert (p' = p) by congruence. subst p'. assert (m2 = m) by congruence. subst m2. fold sj in Y3. assert (nd2 = h_node h) by congruence. subst nd2.
        apply W1. split; [apply (same_not_own _ _ _ SS); exact Y5|]. split; [apply (same_valid_at _ _ _ _ SS); exists o2; exact Y6|exact Y7].
    + right. split; [apply NS; discriminate|reflexivity].
    + rewrite app_nil_r, D2, msgs_app. rewrite <- (app_nil_r rest). apply accepted_app; [exact A2|]. apply accepted_none, msgs_quiet, HQ.
  - destruct (nth_error (l_packets s) k) as [p|] eqn:EP.
    + apply (Q _ (CLan (LLose k)) nd1 (without (l_packets s) k) []); cbn [ctl_step lan_step]; try assumption;
        [intros x X; inversion X|apply NS; discriminate|symmetry; apply app_nil_r|eapply msgs_without; [exact EP|apply HO; reflexivity]|intros ? ? []].
    + apply (Q _ (CLan (LLose k)) nd1 (l_packets s) []); cbn [ctl_step lan_step with_packets l_packets]; try assumption; try reflexivity;
        [intros x X; inversion X|apply NS; discriminate|rewrite app_nil_r; apply without_none, EP|intros ? ? []].
  - destruct (nth_error (l_packets s) k) as [p|] eqn:EP.
    + unfold order_goal; fold sj. exists nd1, [], ps, []. cbn [ctl_step lan_step]. rewrite EP. split; [exact E1|]. split; [exact SS|]. split; [reflexivity|].
      split; [right; split; [intros x X; inversion X|reflexivity]|]. split; [right; split; [apply NS; discriminate|reflexivity]|].
      cbn [add_packets l_packets]. rewrite app_nil_r, msgs_app, (msgs_none sj [p]), app_nil_r; [exact HA|]. constructor; [apply HO; reflexivity|constructor].
    + apply (Q _ (CLan (LRepeat k)) nd1 (l_packets s) []); cbn [ctl_step lan_step]; rewrite ?EP; try assumption; try reflexivity;
        [intros x X; inversion X|apply NS; discriminate|symmetry; apply app_nil_r|intros ? ? []].
  - destruct HE as (HOb & HV & HQs). set (e := CSend i a obj esv qs).
    assert (WN : writes_nothing s j r e) by (intros x X; inversion X).
    assert (MK : forall sn, nth_error (members s0) i = Some sn -> exists sn', nth_error (members s) i = Some sn' /\ kept sn sn').
    { intros sn X. eapply kept_member'; eassumption. }
    destruct (nth_error (members s) i) as [nd|] eqn:EN.
    2:{ apply (Q _ e nd1 (l_packets s) []); unfold e; cbn [ctl_step]; rewrite ?(acts_none s i _ EN), ?app_nil_r; try assumption; try reflexivity; [|intros ? ? []].
        intros qs' (i' & obj' & esv' & sn & X & Y & _). injection X as <- _ _ _ _. destruct (MK sn Y) as (? & Z & _). congruence. }
    assert (HM : minv nd) by (rewrite Forall_forall in N1; apply N1; eapply nth_error_In, EN).
    set (f := fun nd => fst (SendMessage nd a (new_request obj esv qs))).
    destruct (acts_members s i f nd EN) as (A1 & A2 & A3 & A4).
    destruct (kept_member _ _ _ _ HK EN) as (sn & Esn & (_ & _ & KA & _ & KR)).
    destruct (n_running nd) eqn:ER.
    2:{ assert (EF : f nd = nd) by (unfold f, SendMessage, send_with; rewrite ER; reflexivity).
        rewrite EF in A1, A4. unfold outgoing in A4. rewrite skipn_all in A4. rewrite (set_nth_self _ _ _ EN) in A1.
        apply (Q _ e nd1 (l_packets s) []); unfold e; cbn [ctl_step]; fold f; rewrite ?A1, ?A4; try assumption; try reflexivity; [|intros ? ? []].
        intros qs' (i' & obj' & esv' & sn' & X & Y & Z & _). injection X as <- _ _ _ _. congruence. }
    assert (EF := SendMessage_run nd a (new_request obj esv qs) (proj1 HM) (proj1 (proj2 HM)) ER). cbv zeta in EF.
    apply (f_equal fst) in EF. fold (f nd) in EF. cbn [fst] in EF.
    set (t := (n_lastTID nd + 1) mod 65536) in *.
    pose proof (request_represents obj esv qs t 0x0EF001) as RR.
    assert (HL : in_limits (request_of nd obj esv qs)) by (apply sendable_limits; try assumption; apply tid_small).
    assert (EO : outgoing (members s) nd (f nd) = match owner (members s) a with
      | Some j => [mkPacket j UDPUnicastPacket (mkDatagram (wire (request_of nd obj esv qs)) (n_addr nd))] | None => [] end).
    { unfold outgoing. rewrite EF. cbn [hand_over with_lastTID n_sent n_addr]. rewrite skipn_app, skipn_all, Nat.sub_diag.
      cbn [skipn app flat_map packets_of]. rewrite app_nil_r, (UDP_sent _ _ _ RR HL). reflexivity. }
    rewrite EO in A4. clear EO.
    assert (N2' : exists nd2, nth_error (members (ctl_step conf s e)) sj = Some nd2 /\ same_shape nd0 nd2).
    { unfold e; cbn [ctl_step]; fold f. rewrite A1. destruct (Nat.eq_dec i sj) as [Ei|NE].
      - rewrite Ei in EN. assert (nd = nd1) by congruence. subst nd. exists (f nd1). rewrite Ei. split; [eapply set_nth_there, EN|].
        eapply ConcurrentFacts.same_trans; [exact SS|]. rewrite EF. apply core_shape; [reflexivity|]. apply kept_core; reflexivity.
      - exists nd1. rewrite set_nth_elsewhere by exact NE. auto. }
    destruct N2' as (nd2 & E2 & SS2).
    assert (OW : owner (members s) a = Some sj <-> a = n_addr nd0).
    { assert (HD' : NoDup (map n_addr (members s))) by (rewrite (kept_addrs _ _ HK); exact HD).
      assert (EA : n_addr nd1 = n_addr nd0) by (unfold same_shape, node_shape in SS; congruence).
      split.
      - intros X. apply owner_at in X as (x & X1 & <-). congruence.
      - intros ->. rewrite <- EA. apply owner_of; assumption. }
    destruct (address_dec a (n_addr nd0)) as [Ea|Na].
    2:{ assert (NSW : forall qs', ~ sends_write s0 nd0 r o0 e qs').
        { intros qs' (i' & obj' & esv' & sn' & X & _). injection X as _ X _ _ _. contradiction. }
        unfold order_goal; fold sj. exists nd2, [], ps, []. split; [exact E2|]. split; [exact SS2|]. split; [reflexivity|]. split; [right; auto|]. split; [right; auto|].
        unfold e; cbn [ctl_step]; fold f. rewrite A4, app_nil_r, msgs_app. rewrite (msgs_none sj (match _ with Some _ => _ | None => _ end)).
        - rewrite app_nil_r. exact HA.
        - destruct (owner (members s) a) as [x|] eqn:EX; constructor; [|constructor]. cbn [pk_to]. intros ->. apply Na, OW. reflexivity. }
    rewrite (proj2 OW Ea) in A4.
    assert (Hlen : (length (wire (request_of nd obj esv qs)) <= 1024)%nat).
    { rewrite PropsExchange.wire_length. unfold request_of. cbn [c_props]. rewrite map_map. apply HQs. }
    destruct (wire_arrives _ (n_addr nd) HL Hlen) as (x & EX & _ & _ & VX).
    destruct (request_arrives _ _ _ _ _ HOb HV HQs EX) as (_ & _ & G3 & G4 & G5 & G6).
    set (m := SetPacketType x UDPUnicastPacket).
    destruct (C81_writes nd0 r [m]) as (ps2 & AW & _); [constructor; [apply VX|constructor]|].
    unfold order_goal; fold sj. exists nd2, [], ps, ps2. split; [exact E2|]. split; [exact SS2|]. split; [reflexivity|]. split; [right; auto|]. split.
    + inversion AW as [|m' ms' ps' W1 (ov & W2) W3 W4|m' ms' ps' W1 W4]; subst; inversion W4; subst.
      * left. rewrite app_nil_r. change (m_ep m) with (m_ep x). change (m_esv m) with (m_esv x) in W3.
        destruct W2 as ((V1 & V2) & _ & V3). change (DEOJ m) with (DEOJ x) in V1. change (m_esv m) with (m_esv x) in V3. change (m_ep m) with (m_ep x) in V3.
        assert (ov = o0) by congruence. subst ov. exists i, (DEOJ x), (m_esv x), sn. split; [reflexivity|]. split; [exact Esn|]. split; [congruence|].
        split; [unfold hears; unfold not_own in W1; change (m_from m) with (m_from x) in W1; rewrite G6, KA in W1; exact W1|].
        split; [exact V1|]. split; [exact W3|]. apply V3. right. exact W3.
      * right. split; [|reflexivity]. intros qs' (i' & obj' & esv' & sn' & X & Y1 & Y2 & Y3 & Y4 & Y5 & Y6). injection X as <- <- <- <-.
        assert (sn' = sn) by congruence. subst sn'. apply W1. split; [|split].
        -- unfold not_own. change (m_from m) with (m_from x). rewrite G6, KA. exact Y3.
        -- exists o0. split; [split; [exact Y4|exact HO0]|]. split; [|intros _; exact Y6].
           change (m_esv m) with (m_esv x). unfold known_esv. apply in_or_app. left. unfold writes in Y5. cbn [In spec_request] in *. tauto.
        -- exact Y5.
    + unfold e; cbn [ctl_step]; fold f. rewrite A4, msgs_app. apply accepted_app; [exact HA|]. unfold msgs. cbn [flat_map]. unfold msg_to. cbn [pk_to pk_datagram pk_type].
      rewrite Nat.eqb_refl, EX. cbn [app]. exact AW.
  - unfold order_goal; fold sj. exists nd1, [], ps, []. cbn [ctl_step]. split; [exact E1|]. split; [exact SS|]. split; [reflexivity|].
    split; [right; split; [intros x X; inversion X|reflexivity]|]. split; [right; split; [apply NS; discriminate|reflexivity]|].
    cbn [add_packets l_packets]. rewrite app_nil_r, msgs_app, (msgs_none sj [p]), app_nil_r; [exact HA|]. constructor; [exact HO|constructor].
Qed.

End Lemmas.

(** ** C88: the requests take effect in the order in which they were sent *)

Section Statements.
Context {W : Type}.
Implicit Types s : lan W.

Lemma order_run conf s es j nd r o : controlled s -> Forall event_ok es -> nth_error (members s) (Datatypes.S j) = Some nd -> obj_at nd r = Some o ->
  nothing_for s (Datatypes.S j) -> in_order conf s (Datatypes.S j) es ->
  exists nd' log rest, nth_error (members (ctl_run conf s es)) (Datatypes.S j) = Some nd' /\ same_shape nd nd' /\
    write_log conf s j r es log /\ sent_log s nd r o es (log ++ rest) /\
    accepted_writes nd r (msgs (Datatypes.S j) (l_packets (ctl_run conf s es))) rest.
Proof.
  intros HC HE En Ho HQ. pose proof (controlled_ok s HC) as HN. induction es as [|e es IH] using rev_ind; intros HI.
  - exists nd, [], []. split; [exact En|]. split; [reflexivity|]. split; [constructor|]. split; [constructor|].
    change (ctl_run conf s []) with s. rewrite (msgs_none _ _ HQ). constructor.
  - apply Forall_app in HE as (HE & HE1). inversion HE1 as [|? ? H1 _]; subst. clear HE1.
    destruct IH as (nd1 & log & rest & I1 & I2 & I3 & I4 & I5); [exact HE|intros es1 e1 es2 X; apply (HI es1 e1 (es2 ++ [e])); rewrite X, <- app_assoc; reflexivity|].
    destruct (ctl_run_ok conf s es HN HE) as (HN1 & K1 & _).
    destruct (order_step conf s _ e j nd r o nd1 rest HN1 H1 (proj1 (proj2 (proj2 HC))) K1 En Ho I1 I2 (HI es e [] eq_refl) I5)
      as (nd2 & ps1 & rest' & ps2 & S1 & S2 & -> & S3 & S4 & S5).
    rewrite ctl_run_snoc. exists nd2, (log ++ ps1), (rest' ++ ps2). split; [exact S1|]. split; [exact S2|]. split; [|split; [|exact S5]].
    + destruct S3 as [S3|(S3 & ->)]; [apply LogWrite; assumption|rewrite app_nil_r; apply LogOther; assumption].
    + replace ((log ++ ps1) ++ rest' ++ ps2) with ((log ++ ps1 ++ rest') ++ ps2) by (rewrite <- !app_assoc; reflexivity).
      destruct S4 as [S4|(S4 & ->)]; [apply SentWrite; assumption|rewrite app_nil_r; apply SentOther; assumption].
Qed.

Lemma sends_unique s nd r o e qs qs' : sends_write s nd r o e qs -> sends_write s nd r o e qs' -> qs' = qs.
Proof. intros (i & obj & esv & sn & -> & _) (i' & obj' & esv' & sn' & X & _). congruence. Qed.

Lemma sent_unique s nd r o es : forall log log', sent_log s nd r o es log -> sent_log s nd r o es log' -> log' = log.
Proof.
  induction es as [|e es IH] using rev_ind; intros log log' H H'.
  - inversion H; [|destruct es; discriminate..]. inversion H'; [congruence|destruct es; discriminate..].
  - inversion H as [X|es1 e1 l1 p1 L1 W1 X Y|es1 e1 l1 L1 W1 X Y]; [destruct es; discriminate X| |]; apply app_inj_tail in X as (-> & ->); subst;
    inversion H' as [X|es2 e2 l2 p2 L2 W2 X Y|es2 e2 l2 L2 W2 X Y]; try (destruct es; discriminate X); apply app_inj_tail in X as (-> & ->); subst.
    + rewrite (IH _ _ L1 L2), (sends_unique _ _ _ _ _ _ _ W1 W2). reflexivity.
    + exfalso. eapply W2, W1.
    + exfalso. eapply W1, W2.
    + apply (IH _ _ L1 L2).
Qed.

(** What was written is the beginning of what was sent: nothing is left out, comes
    twice or changes places. *)
Theorem C88_prefix : forall conf s es j nd r o sent log, controlled s -> Forall event_ok es ->
  nth_error (members s) (Datatypes.S j) = Some nd -> obj_at nd r = Some o ->
  nothing_for s (Datatypes.S j) -> in_order conf s (Datatypes.S j) es ->
  sent_log s nd r o es sent -> write_log conf s j r es log ->
  exists rest, sent = log ++ rest /\ (nothing_for (ctl_run conf s es) (Datatypes.S j) -> rest = []).
Proof.
  intros conf s es j nd r o sent log HC HE En Ho HQ HI HS HL.
  destruct (order_run conf s es j nd r o HC HE En Ho HQ HI) as (nd' & log' & rest & _ & _ & L & S & A).
  assert (log' = log) by (eapply log_unique; eassumption). subst log'. exists rest. split; [eapply sent_unique; eassumption|].
  intros X. unfold nothing_for in X. rewrite (msgs_none _ _ X) in A. inversion A. reflexivity.
Qed.

(** When nothing is on its way to the node any more, each property has the value
    that was last sent to it. *)
Theorem C88_last : forall conf s es j nd r o sent, controlled s -> Forall event_ok es ->
  nth_error (members s) (Datatypes.S j) = Some nd -> obj_at nd r = Some o ->
  nothing_for s (Datatypes.S j) -> in_order conf s (Datatypes.S j) es ->
  sent_log s nd r o es sent -> nothing_for (ctl_run conf s es) (Datatypes.S j) ->
  exists o', object_at (ctl_run conf s es) (Datatypes.S j) r o' /\ o_codes o' = o_codes o /\
    (forall c v0, holds o c v0 -> exists v, holds o' c v /\ last_write sent c v0 v) /\
    (forall c v, holds o' c v -> exists v0, holds o c v0 /\ last_write sent c v0 v).
Proof.
  intros conf s es j nd r o sent HC HE En Ho HQ HI HS HX.
  assert (OA : object_at s (Datatypes.S j) r o) by (exists nd; auto).
  destruct (C86_log conf s es j r o HC HE OA) as (log & L & _).
  destruct (C88_prefix conf s es j nd r o sent log HC HE En Ho HQ HI HS L) as (rest & -> & E). rewrite (E HX), app_nil_r.
  apply (C86_memory conf s es j r o log HC HE OA L).
Qed.

End Statements.

(** When one request overtakes another the value sent last is not the value in the
    end, although nothing is lost or repeated: nothing in the messages tells the
    node which one is newer.  The network need not reorder anything for that: each
    datagram is handled by a goroutine of its own. *)
Theorem C88_overtaken_refuted : exists es, Forall event_ok es /\
  (forall k, ~ In (CLan (LLose k)) es /\ ~ In (CLan (LRepeat k)) es) /\
  filter (fun e => match e with CSend _ _ _ _ _ => true | _ => false end) es =
    [CSend 0 (mkAddress 7 3610) 0x029001 0x61 [mkPProp 0x80 [0x31]]; CSend 0 (mkAddress 7 3610) 0x029001 0x61 [mkPProp 0x80 [0x35]]] /\
  l_packets (ctl_run PropsLan.ex_conf ex_ctl es) = [] /\
  lights (ctl_run PropsLan.ex_conf ex_ctl es) = [[Ok [0x31]]; [Ok [0x30]]].
Proof.
  exists ([CSend 0 (mkAddress 7 3610) 0x029001 0x61 [mkPProp 0x80 [0x31]]; CSend 0 (mkAddress 7 3610) 0x029001 0x61 [mkPProp 0x80 [0x35]];
    CLan (LDeliver 1)] ++ repeat (CLan (LDeliver 0)) 9).
  split.
  { apply Forall_app. split; [|apply Forall_forall; intros e He; apply repeat_spec in He; rewrite He; exact I].
    repeat (apply Forall_cons; [|]); try apply Forall_nil; cbn [event_ok]; [| |exact I].
    1-2: split; [lia|]; split; [lia|]; split; [cbn; lia|]; split; [|cbn; lia]; repeat constructor; cbn; try lia; unfold is_byte; lia. }
  split; [intros k; split; cbn [app repeat In]; intuition discriminate|]. split; [reflexivity|].
  split; vm_compute; reflexivity.
Qed.

(** The same requests in their order. *)
Definition ex_in_order : list ctl_event :=
  [CSend 0 (mkAddress 7 3610) 0x029001 0x61 [mkPProp 0x80 [0x31]]; CSend 0 (mkAddress 7 3610) 0x029001 0x61 [mkPProp 0x80 [0x35]]] ++
  repeat (CLan (LDeliver 0)) 10.

Example C88_example : in_order PropsLan.ex_conf ex_ctl 1 ex_in_order /\
  lights (ctl_run PropsLan.ex_conf ex_ctl ex_in_order) = [[Ok [0x35]]; [Ok [0x30]]] /\
  l_packets (ctl_run PropsLan.ex_conf ex_ctl ex_in_order) = [].
Proof.
  split; [|split; vm_compute; reflexivity].
  intros es1 e es2 E. assert (I : In e ex_in_order) by (rewrite E; apply in_elt). unfold ex_in_order in I.
  apply in_app_or in I as [I|I].
  - destruct I as [<-|[<-|[]]]; exact Logic.I.
  - apply repeat_spec in I. subst e. intros p _ _. apply Forall_nil.
Qed.

Print Assumptions C88_prefix.
Print Assumptions C88_last.
Print Assumptions C88_overtaken_refuted.

(** Theorems about the handling of received messages: C29 - C36. *)

From Verif Require Import Go GoFacts Encoding EncodingFacts Protocol Parser MessageFacts ParserFacts
  ProtocolFacts StdDB Property PropertyFacts Object ObjectFacts Spec Node NodeFacts Handler HandlerFacts.
From Verif Require PropsNode.
From Coq Require Import ZifyBool ZifyNat.
Local Open Scope Z_scope.

(** Every theorem is about [ProtocolMessageReceived cb w nd pending m] for
    - [m] any message as the transport delivers it ([received], file HandlerFacts:
      any bytes that decode, any source, any packet type);
    - [nd] any node content, [cb] and [w] any application callbacks and state;
    - [pending] any state of PostMessage ([pending_ok]: the waiting request, if
      there is one, has three byte object codes, as every built or decoded message). *)

Definition pending_ok (pending : option message) : Prop :=
  match pending with None => True | Some q => shape q end.

(** The message is not taken for one of the node itself. *)
Definition not_own (nd : node) (m : message) : Prop := n_self nd = true \/ m_from m <> n_addr nd.

(** ** What a valid message is *)

(** Get, SetGet; SetI, SetC, SetGet. *)
Definition reads (esv : Z) : Prop := In esv [0x62; 0x6E].
Definition writes (esv : Z) : Prop := In esv [0x60; 0x61; 0x6E].

Definition known_esv (esv : Z) : Prop :=
  In esv (spec_request ++ spec_response ++ spec_notification ++ spec_error).

(** The object takes part in the service for that property. *)
Definition accepts (o : object) (esv : Z) (p : pprop) : Prop :=
  exists q, LookupProperty (o_props o) (pp_code p) = Some q /\
    (reads esv -> p_get q <> Prohibited) /\
    (writes esv -> p_set q <> Prohibited /\ length (pp_data p) = length (p_data q)).

(** [o], at [r], is the object of the node the message is for. *)
Definition addressed (nd : node) (m : message) (r : objref) (o : object) : Prop :=
  LookupObject nd (DEOJ m) = Some r /\ obj_at nd r = Some o.

Definition valid (nd : node) (m : message) (r : objref) (o : object) : Prop :=
  addressed nd m r o /\ known_esv (m_esv m) /\
  (reads (m_esv m) \/ writes (m_esv m) -> Forall (accepts o (m_esv m)) (m_ep m)).

Lemma byte_reads esv : ESV_IsReadRequest esv = true <-> reads esv.
Proof.
  unfold ESV_IsReadRequest, reads. cbn [In]. unfold ESVReadRequest, ESVWriteReadRequest.
  destruct (Z.eqb_spec esv 98); destruct (Z.eqb_spec esv 110); lia.
Qed.

Lemma byte_writes esv : ESV_IsWriteRequest esv = true <-> writes esv.
Proof.
  unfold ESV_IsWriteRequest, writes. cbn [In].
  unfold ESVWriteRequest, ESVWriteRequestResponseRequired, ESVWriteReadRequest.
  destruct (Z.eqb_spec esv 96); destruct (Z.eqb_spec esv 97); destruct (Z.eqb_spec esv 110); lia.
Qed.

Lemma known_valid esv : ESV_IsValid esv = true <-> known_esv esv.
Proof.
  unfold ESV_IsValid, known_esv, spec_request, spec_response, spec_notification, spec_error.
  cbn [app In]. split.
  - intros H. unfold contains in H. apply existsb_exists in H. destruct H as (x & Hx & E).
    apply Z.eqb_eq in E. subst x. cbn [In] in Hx.
    unfold ESVWriteRequest, ESVWriteRequestResponseRequired, ESVReadRequest,
      ESVNotificationRequest, ESVWriteReadRequest, ESVWriteResponse,
      ESVReadResponse, ESVNotification, ESVNotificationResponseRequired,
      ESVNotificationResponse, ESVWriteReadResponse, ESVWriteRequestError,
      ESVWriteRequestResponseRequiredError, ESVReadRequestError,
      ESVNotificationRequestError, ESVWriteReadRequestError in Hx. tauto.
  - intros H. repeat destruct H as [H|H]; try contradiction; subst esv; reflexivity.
Qed.

Lemma required_iff esv : ESV_IsResponseRequired esv = true <-> In esv (map fst spec_answer).
Proof.
  unfold ESV_IsResponseRequired. cbn [spec_answer map fst In].
  unfold ESVReadRequest, ESVNotificationRequest, ESVWriteReadRequest,
    ESVWriteRequestResponseRequired, ESVNotificationResponseRequired.
  destruct (Z.eqb_spec esv 98), (Z.eqb_spec esv 99), (Z.eqb_spec esv 110), (Z.eqb_spec esv 97),
    (Z.eqb_spec esv 116); lia.
Qed.

Lemma prohibited_iff a : negb (attr_IsProhibited a) = true <-> a <> Prohibited.
Proof. destruct a; cbn; split; congruence. Qed.

Lemma check_accepts o esv p : reads esv \/ writes esv -> check_property o esv p = true <-> accepts o esv p.
Proof.
  intros H. unfold check_property, accepts.
  destruct (LookupProperty (o_props o) (pp_code p)) as [q|].
  2:{ split; [discriminate|]. intros (q & E & _). discriminate E. }
  pose proof (prohibited_iff (p_get q)) as HG. pose proof (prohibited_iff (p_set q)) as HS.
  fold (IsReadable q) in HG. fold (IsWritable q) in HS.
  assert (HZ : pp_Size p =? len (p_data q) = true <-> length (pp_data p) = length (p_data q)).
  { unfold pp_Size, len. rewrite Z.eqb_eq. lia. }
  unfold reads, writes in *. cbn [In] in *.
  transitivity (((98 = esv \/ 110 = esv \/ False -> p_get q <> Prohibited) /\
    (96 = esv \/ 97 = esv \/ 110 = esv \/ False -> p_set q <> Prohibited /\ length (pp_data p) = length (p_data q)))).
  2:{ split; [intros A; exists q; tauto|]. intros (q' & E & A). injection E as <-. exact A. }
  rewrite <- HG, <- HS, <- HZ.
  assert (D : esv = 96 \/ esv = 97 \/ esv = 98 \/ esv = 110) by lia. clear H HG HS HZ.
  destruct D as [D|[D|[D|D]]]; subst esv; unfold IsAvailableService; cbn -[IsReadable IsWritable pp_Size len];
    destruct (IsReadable q), (IsWritable q), (pp_Size p =? len (p_data q)); cbn [negb andb];
    split; try congruence; try (intros _; split; intros; try split; try reflexivity; lia);
    intros (A & B); try (specialize (B ltac:(lia)); destruct B; congruence);
    try (specialize (A ltac:(lia)); congruence).
Qed.

Lemma forallb_Forall {A} (f : A -> bool) (P : A -> Prop) l : (forall a, f a = true <-> P a) ->
  forallb f l = true <-> Forall P l.
Proof.
  intros H. rewrite forallb_forall, Forall_forall. split; intros HA a Ha; apply H, HA, Ha.
Qed.

Lemma checked_iff esv : checked esv = true <-> reads esv \/ writes esv.
Proof. unfold checked. rewrite Bool.orb_true_iff, byte_reads, byte_writes. reflexivity. Qed.

Lemma valid_iff nd m : received m -> valid_b nd m = true <-> exists r o, valid nd m r o.
Proof.
  intros HR. unfold valid_b, valid, addressed. rewrite (received_visited m HR).
  destruct (LookupObject nd (DEOJ m)) as [r|] eqn:EL.
  2:{ split; [discriminate|]. intros (r & o & (H & _) & _). discriminate H. }
  destruct (LookupObject_at nd (DEOJ m) r EL) as (o & EO & _). rewrite EO.
  transitivity (known_esv (m_esv m) /\
    (reads (m_esv m) \/ writes (m_esv m) -> Forall (accepts o (m_esv m)) (m_ep m))).
  2:{ split.
      - intros H. exists r, o. tauto.
      - intros (r' & o' & (E1 & E2) & H). injection E1 as <-. rewrite EO in E2. injection E2 as <-. exact H. }
  rewrite Bool.andb_true_iff, known_valid, Bool.orb_true_iff, Bool.negb_true_iff.
  destruct (checked (m_esv m)) eqn:EC.
  - apply checked_iff in EC. rewrite (forallb_Forall _ (accepts o (m_esv m))).
    + split; [intros (A & [B|B]); [discriminate B|tauto]|tauto].
    + intros p. apply check_accepts, EC.
  - assert (N : ~ (reads (m_esv m) \/ writes (m_esv m))) by (rewrite <- checked_iff, EC; discriminate).
    tauto.
Qed.

(** ** The handler as a whole *)

Lemma own_false nd m : not_own nd m -> negb (n_self nd) && addr_eqb (m_from m) (n_addr nd) = false.
Proof.
  intros [H|H].
  - rewrite H. reflexivity.
  - destruct (n_self nd); [reflexivity|]. cbn [negb andb]. unfold addr_eqb.
    destruct (m_from m) as [i p], (n_addr nd) as [i' p']. cbn [a_ip a_port] in *.
    destruct (Z.eqb_spec p p'); [|reflexivity]. destruct (Z.eqb_spec i i'); [|reflexivity].
    exfalso. apply H. congruence.
Qed.

Lemma isResponse_ok pending m : pending_ok pending -> shape m -> exists d, isResponseMessage pending m = Ok d.
Proof.
  intros HP HS. unfold isResponseMessage. destruct pending as [q|]; [|eauto].
  cbn [Equals]. rewrite (Bytes_general m HS), (Bytes_general q HP). cbn [bind].
  destruct (bytes_eqb _ _); [eauto|]. destruct (negb _); eauto.
Qed.

Section Handler.
Context {W : Type}.
Implicit Types (cb : callbacks W) (w : W).

Lemma handle_invalid cb w nd pending m : received m -> pending_ok pending -> not_own nd m ->
  ~ (exists r o, valid nd m r o) ->
  exists d resp, ProtocolMessageReceived cb w nd pending m = mkOutcome w nd [] d (Ok (Some resp)) /\
    NewImpossibleMessageWithMessage m = Ok resp /\
    TID resp = TID m /\ SEOJ resp = DEOJ m /\ DEOJ resp = SEOJ m /\ m_esv resp = impossible_esv (m_esv m).
Proof.
  intros HR HP HO HV. pose proof (received_header m HR) as (H1 & H2 & H3 & H4 & H5 & H6 & H7).
  unfold ProtocolMessageReceived. rewrite (own_false nd m HO).
  destruct (isResponse_ok pending m HP H7) as [d ->]. rewrite validate_eq.
  destruct (valid_b nd m) eqn:EV; [apply valid_iff in EV; [contradiction|assumption]|].
  destruct (impossible_facts m H1 H2 H3 H4) as (resp & E & T & S & D & V & _).
  exists d, resp. rewrite E. cbn [bind]. auto 10.
Qed.

Lemma handle_valid cb w nd pending m r o : received m -> pending_ok pending -> not_own nd m ->
  valid nd m r o ->
  exists d st, executeMessageListeners cb w nd m = Ok st /\ run_ok st /\
    map fst (r_calls st) = expected_calls cb r m /\
    ProtocolMessageReceived cb w nd pending m =
      mkOutcome (r_world st) (r_node st) (r_calls st) d
        (if r_err st then Err ErrOther
         else if negb (ESV_IsResponseRequired (m_esv m)) then Ok None
         else r <- createResponseMessageForRequestMessage (r_node st) m ;; Ok (Some r)).
Proof.
  intros HR HP HO HV. pose proof (received_header m HR) as (_ & _ & _ & _ & _ & _ & H7).
  unfold ProtocolMessageReceived. rewrite (own_false nd m HO).
  destruct (isResponse_ok pending m HP H7) as [d ->]. rewrite validate_eq.
  rewrite (proj2 (valid_iff nd m HR) (ex_intro _ r (ex_intro _ o HV))).
  destruct HV as ((EL & _) & _).
  destruct (exec_spec cb w nd m r EL) as (st & E & RO & RC). rewrite E. exists d, st.
  destruct (r_err st); [auto|]. destruct (negb _); auto.
Qed.

Lemma valid_dec nd m : received m -> (exists r o, valid nd m r o) \/ ~ (exists r o, valid nd m r o).
Proof.
  intros HR. destruct (valid_b nd m) eqn:E.
  - left. apply valid_iff; assumption.
  - right. intros H. apply valid_iff in H; [congruence|assumption].
Qed.

(** ** C29: read requests return current values *)

(** A property of the answer: the code asked for and the data the object holds. *)
Definition answers (o : object) (p a : pprop) : Prop :=
  pp_code a = pp_code p /\
  exists q, LookupProperty (o_props o) (pp_code p) = Some q /\ pp_data a = p_data q.

Lemma Forall2_len {A B} (R : A -> B -> Prop) l l' : Forall2 R l l' -> length l = length l'.
Proof. induction 1; cbn [length]; congruence. Qed.

Lemma found_all o l : (forall p, In p l -> HasProp (o_props o) (pp_code p) = true) ->
  Forall2 (answers o) l (flat_map (found o) l).
Proof.
  induction l as [|p l IH]; intros H; [constructor|]. cbn [flat_map].
  destruct (proj1 (HasProp_some _ _) (H p (or_introl eq_refl))) as [q Hq].
  unfold found at 1. rewrite Hq. cbn [app]. constructor.
  - split; [apply (Lookup_code _ _ _ Hq)|]. exists q. split; [assumption|reflexivity].
  - apply IH. intros x Hx. apply H. right. assumption.
Qed.

(** The answer is made from the node as it is when the callbacks are done. *)
Theorem C29_read : forall cb w nd pending m r o,
  received m -> pending_ok pending -> not_own nd m ->
  m_esv m = 0x62 -> valid nd m r o ->
  let out := ProtocolMessageReceived cb w nd pending m in
  (forall c e, In (c, e) (out_calls out) -> e = false) ->
  forall r' o', addressed (out_node out) m r' o' ->
  (forall p, In p (m_ep m) -> HasProp (o_props o') (pp_code p) = true) ->
  exists resp, out_reply out = Ok (Some resp) /\
    TID resp = TID m /\ SEOJ resp = DEOJ m /\ DEOJ resp = SEOJ m /\ m_esv resp = 0x72 /\
    OPC resp = OPC m /\ Forall2 (answers o') (m_ep m) (m_ep resp).
Proof.
  intros cb w nd pending m r o HR HP HO HE HV out Hok r' o' (A1 & A2) Hall.
  destruct (handle_valid cb w nd pending m r o HR HP HO HV) as (d & st & E & RO & RC & EQ).
  subst out. rewrite EQ in *. cbn [out_node out_reply out_calls] in *.
  assert (EF : r_err st = false).
  { rewrite RO. destruct (existsb snd (r_calls st)) eqn:X; [|reflexivity].
    apply existsb_exists in X. destruct X as ([c e] & I & X). cbn [snd] in X. subst e.
    specialize (Hok c true I). discriminate Hok. }
  rewrite EF, HE. cbn [ESV_IsResponseRequired negb].
  rewrite (createResponse_eq _ _ _ _ A1 A2). cbn [bind].
  exists (response_for o' m). split; [reflexivity|].
  destruct (response_for_spec o' m HR) as (T & S & D & V & P & O).
  rewrite HE in V. pose proof (found_all o' (m_ep m) Hall) as F. rewrite <- P in F.
  pose proof (received_header m HR) as (_ & _ & _ & _ & _ & H6 & _).
  repeat (split; [assumption|]). split; [|assumption].
  rewrite O, <- H6. f_equal. symmetry. eapply Forall2_len, F.
Qed.

(** The library changes nothing itself, whatever the message is: with callbacks
    that leave the node alone the node is unchanged. *)
Theorem C29_no_change : forall cb w nd pending m,
  keeps_node cb -> out_node (ProtocolMessageReceived cb w nd pending m) = nd.
Proof.
  intros cb w nd pending m HK. unfold ProtocolMessageReceived.
  destruct (negb (n_self nd) && _); [reflexivity|].
  destruct (isResponseMessage pending m); [|reflexivity|reflexivity]. rewrite validate_eq.
  destruct (valid_b nd m); [|reflexivity].
  destruct (executeMessageListeners cb w nd m) as [st| |] eqn:E; [|reflexivity|reflexivity].
  pose proof (exec_keeps cb w nd m st HK E) as X.
  destruct (r_err st); [exact X|]. destruct (negb _); exact X.
Qed.

(** Both together: the data answered is the data held before the request. *)
Theorem C29_read_unchanged : forall cb w nd pending m r o,
  received m -> pending_ok pending -> not_own nd m ->
  m_esv m = 0x62 -> valid nd m r o -> keeps_node cb ->
  let out := ProtocolMessageReceived cb w nd pending m in
  (forall c e, In (c, e) (out_calls out) -> e = false) ->
  exists resp, out_reply out = Ok (Some resp) /\ m_esv resp = 0x72 /\
    Forall2 (answers o) (m_ep m) (m_ep resp).
Proof.
  intros cb w nd pending m r o HR HP HO HE HV HK out Hok.
  destruct (C29_read cb w nd pending m r o HR HP HO HE HV Hok r o) as (resp & E & _ & _ & _ & V & _ & F).
  - rewrite C29_no_change by assumption. apply HV.
  - intros p Hp. destruct HV as (_ & _ & HV). rewrite HE in HV.
    specialize (HV (or_introl (or_introl eq_refl))). rewrite Forall_forall in HV.
    destruct (HV p Hp) as (q & Hq & _). apply HasProp_some. eauto.
  - exists resp. auto.
Qed.

(** With callbacks that work on the node through the library only, the request
    for a device of a node made by library calls is always answered completely;
    the values are those the device holds after the callbacks. *)
Theorem C29_read_library : forall cb w ops nd pending m i o,
  Forall node_op_ok ops -> node_after ops = Ok nd ->
  received m -> pending_ok pending -> not_own nd m ->
  m_esv m = 0x62 -> valid nd m (DevRef i) o -> respects calls_library cb ->
  let out := ProtocolMessageReceived cb w nd pending m in
  (forall c e, In (c, e) (out_calls out) -> e = false) ->
  exists o' resp, obj_at (out_node out) (DevRef i) = Some o' /\ o_codes o' = o_codes o /\
    out_reply out = Ok (Some resp) /\
    TID resp = TID m /\ SEOJ resp = DEOJ m /\ DEOJ resp = SEOJ m /\ m_esv resp = 0x72 /\
    OPC resp = OPC m /\ Forall2 (answers o') (m_ep m) (m_ep resp).
Proof.
  intros cb w ops nd pending m i o Hops HN HR HP HO HE HV HK out Hok.
  destruct (handle_valid cb w nd pending m (DevRef i) o HR HP HO HV) as (d & st & E & RO & RC & EQ).
  pose proof (exec_library cb w nd m st HK E) as (ops' & HO' & HF).
  assert (EN : out_node out = r_node st) by (subst out; rewrite EQ; reflexivity).
  destruct (node_after_spec ops Hops) as (nd0 & E0 & Hinv & _ & R0).
  assert (nd0 = nd) by congruence. subst nd0. clear E0.
  assert (HT : 0 <= n_lastTID nd <= 65535) by (rewrite (proj1 R0); pose proof (Z.mod_pos_bound (len (n_sent nd)) 65536); lia).
  destruct HV as ((A1 & A2) & HV).
  assert (LD : LookupDevice nd (DEOJ m) = Some (DevRef i)).
  { unfold LookupObject in A1. destruct (LookupDevice nd (DEOJ m)); [assumption|].
    unfold LookupProfile in A1. destruct (find_code (n_profiles nd) (DEOJ m)); discriminate A1. }
  destruct (PropsNode.C25_lookup_stable ops' nd (r_node st) (DEOJ m) i Hinv HT HO' HF LD) as [_ L2].
  destruct (history_run ops' nd Hinv HO' HT) as (nd2 & E2 & _ & Ec & _).
  assert (nd2 = r_node st) by congruence. subst nd2.
  destruct (history_grows ops' (core_of nd) i o A2) as (o' & Ho' & G1 & G2).
  rewrite <- Ec in Ho'. cbn [core_of k_devs] in Ho'.
  destruct (C29_read cb w nd pending m (DevRef i) o HR HP HO HE (conj (conj A1 A2) HV) Hok (DevRef i) o')
    as (resp & X).
  - fold out. rewrite EN. split; assumption.
  - intros p Hp. apply G2. destruct HV as (_ & HV). rewrite HE in HV.
    specialize (HV (or_introl (or_introl eq_refl))). rewrite Forall_forall in HV.
    destruct (HV p Hp) as (q & Hq & _). apply HasProp_some. eauto.
  - exists o', resp. rewrite EN. split; [assumption|]. split; [assumption|]. exact X.
Qed.

(** ** C30: invalid requests have no effect *)

Inductive invalid (nd : node) (m : message) : Prop :=
| no_object : In (m_esv m) spec_request -> LookupObject nd (DEOJ m) = None -> invalid nd m
| no_property r o p : reads (m_esv m) \/ writes (m_esv m) -> addressed nd m r o -> In p (m_ep m) ->
    LookupProperty (o_props o) (pp_code p) = None -> invalid nd m
| not_readable r o p q : reads (m_esv m) -> addressed nd m r o -> In p (m_ep m) ->
    LookupProperty (o_props o) (pp_code p) = Some q -> p_get q = Prohibited -> invalid nd m
| not_writable r o p q : writes (m_esv m) -> addressed nd m r o -> In p (m_ep m) ->
    LookupProperty (o_props o) (pp_code p) = Some q -> p_set q = Prohibited -> invalid nd m
| wrong_size r o p q : writes (m_esv m) -> addressed nd m r o -> In p (m_ep m) ->
    LookupProperty (o_props o) (pp_code p) = Some q -> length (pp_data p) <> length (p_data q) -> invalid nd m.

Lemma invalid_not_valid nd m : invalid nd m -> In (m_esv m) spec_request /\ ~ (exists r o, valid nd m r o).
Proof.
  assert (R : reads (m_esv m) \/ writes (m_esv m) -> In (m_esv m) spec_request).
  { unfold reads, writes, spec_request. cbn [In]. tauto. }
  intros H. split.
  - destruct H; auto.
  - intros (r' & o' & (A1 & A2) & _ & HF). destruct H as
      [_ EN|r o p Hs (B1 & B2) Hp EN|r o p q Hs (B1 & B2) Hp EN X|r o p q Hs (B1 & B2) Hp EN X|r o p q Hs (B1 & B2) Hp EN X].
    1: congruence.
    all: rewrite A1 in B1; injection B1 as <-; rewrite A2 in B2; injection B2 as <-;
         specialize (HF ltac:(tauto)); rewrite Forall_forall in HF;
         destruct (HF p Hp) as (q' & E & G & S); rewrite EN in E.
    + discriminate E.
    + injection E as <-. exact (G Hs X).
    + injection E as <-. exact (proj1 (S Hs) X).
    + injection E as <-. exact (X (proj2 (S Hs))).
Qed.

Theorem C30_invalid : forall cb w nd pending m,
  received m -> pending_ok pending -> not_own nd m -> invalid nd m ->
  let out := ProtocolMessageReceived cb w nd pending m in
  out_calls out = [] /\ out_world out = w /\ out_node out = nd /\
  exists resp, out_reply out = Ok (Some resp) /\
    TID resp = TID m /\ SEOJ resp = DEOJ m /\ DEOJ resp = SEOJ m /\
    In (m_esv m, m_esv resp) spec_error_answer.
Proof.
  intros cb w nd pending m HR HP HO HI out. destruct (invalid_not_valid nd m HI) as [HE HV].
  destruct (handle_invalid cb w nd pending m HR HP HO HV) as (d & resp & EQ & _ & T & S & D & V).
  subst out. rewrite EQ. cbn [out_calls out_world out_node out_reply].
  repeat (split; [reflexivity|]). exists resp. repeat (split; [assumption || reflexivity|]).
  rewrite V. cbn [spec_request In] in HE.
  repeat destruct HE as [HE|HE]; try contradiction; rewrite <- HE; vm_compute; tauto.
Qed.

(** ** C31: a failing callback suppresses the response *)

Theorem C31_failing : forall cb w nd pending m r o,
  received m -> pending_ok pending -> not_own nd m -> valid nd m r o ->
  let out := ProtocolMessageReceived cb w nd pending m in
  (exists c, In (c, true) (out_calls out)) -> exists e, out_reply out = Err e.
Proof.
  intros cb w nd pending m r o HR HP HO HV out (c & Hc).
  destruct (handle_valid cb w nd pending m r o HR HP HO HV) as (d & st & E & RO & RC & EQ).
  subst out. rewrite EQ in *. cbn [out_reply out_calls] in *.
  assert (X : existsb snd (r_calls st) = true) by (apply existsb_exists; exists (c, true); auto).
  rewrite RO, X. eauto.
Qed.

Theorem C31_succeeding : forall cb w nd pending m r o,
  received m -> pending_ok pending -> not_own nd m -> valid nd m r o ->
  let out := ProtocolMessageReceived cb w nd pending m in
  (forall c e, In (c, e) (out_calls out) -> e = false) ->
  (forall a, In (m_esv m, a) spec_answer -> (exists r' o', addressed (out_node out) m r' o') ->
     exists resp, out_reply out = Ok (Some resp) /\
       TID resp = TID m /\ SEOJ resp = DEOJ m /\ DEOJ resp = SEOJ m /\ m_esv resp = a) /\
  (~ In (m_esv m) (map fst spec_answer) -> out_reply out = Ok None).
Proof.
  intros cb w nd pending m r o HR HP HO HV out Hok.
  destruct (handle_valid cb w nd pending m r o HR HP HO HV) as (d & st & E & RO & RC & EQ).
  subst out. rewrite EQ in *. cbn [out_node out_reply out_calls] in *.
  assert (EF : r_err st = false).
  { rewrite RO. destruct (existsb snd (r_calls st)) eqn:X; [|reflexivity].
    apply existsb_exists in X. destruct X as ([c e] & I & X). cbn [snd] in X. subst e.
    specialize (Hok c true I). discriminate Hok. }
  rewrite EF. split.
  - intros a Ha (r' & o' & A1 & A2).
    rewrite (proj2 (required_iff (m_esv m)) (in_map fst _ _ Ha)). cbn [negb].
    rewrite (createResponse_eq _ _ _ _ A1 A2). cbn [bind]. exists (response_for o' m).
    destruct (response_for_spec o' m HR) as (T & S & D & V & _ & _).
    repeat (split; [assumption || reflexivity|]). rewrite V.
    cbn [spec_answer In] in Ha.
    repeat destruct Ha as [Ha|Ha]; try contradiction; injection Ha as Hr Ha; rewrite <- Hr, <- Ha; reflexivity.
  - intros Hn. destruct (ESV_IsResponseRequired (m_esv m)) eqn:X; [|reflexivity].
    apply required_iff in X. contradiction.
Qed.

(** ** C32: callbacks run once per requested property, in order *)

(** Whether the application installed the callback. *)
Definition installed cb (c : cb_call) : bool :=
  match c with
  | CallNode _ => match cb_node cb with Some _ => true | None => false end
  | CallListener r _ _ => match cb_listener cb r with Some _ => true | None => false end
  | CallHandler r _ _ => match cb_handler cb r with Some _ => true | None => false end
  end.

Theorem C32_calls : forall cb w nd pending m r o,
  received m -> pending_ok pending -> not_own nd m -> valid nd m r o ->
  map fst (out_calls (ProtocolMessageReceived cb w nd pending m)) =
  filter (installed cb)
    (CallNode m :: flat_map (fun p => [CallListener r (m_esv m) p; CallHandler r (m_esv m) p]) (m_ep m)).
Proof.
  intros cb w nd pending m r o HR HP HO HV.
  destruct (handle_valid cb w nd pending m r o HR HP HO HV) as (d & st & E & RO & RC & EQ).
  rewrite EQ. cbn [out_calls]. rewrite RC. unfold expected_calls. rewrite (received_visited m HR).
  cbn [filter installed].
  assert (X : flat_map (fun p => opt_call (cb_listener cb r) (CallListener r (m_esv m) p) ++
                opt_call (cb_handler cb r) (CallHandler r (m_esv m) p)) (m_ep m) =
              filter (installed cb) (flat_map (fun p => [CallListener r (m_esv m) p; CallHandler r (m_esv m) p]) (m_ep m))).
  { induction (m_ep m) as [|p l IH]; [reflexivity|]. cbn [flat_map app filter installed].
    rewrite IH. unfold opt_call. destruct (cb_listener cb r), (cb_handler cb r); reflexivity. }
  rewrite X. unfold opt_call. destruct (cb_node cb); reflexivity.
Qed.

(** A message that is not valid, or is the node's own, causes no call at all. *)
Theorem C32_no_calls : forall cb w nd pending m,
  received m -> pending_ok pending -> ~ (not_own nd m /\ exists r o, valid nd m r o) ->
  out_calls (ProtocolMessageReceived cb w nd pending m) = [].
Proof.
  intros cb w nd pending m HR HP HN.
  destruct (negb (n_self nd) && addr_eqb (m_from m) (n_addr nd)) eqn:EO.
  - unfold ProtocolMessageReceived. rewrite EO. reflexivity.
  - assert (HO : not_own nd m).
    { destruct (n_self nd) eqn:ES; [left; assumption|]. right. intros EA. rewrite EA in EO.
      unfold addr_eqb in EO. rewrite !Z.eqb_refl in EO. discriminate EO. }
    destruct (handle_invalid cb w nd pending m HR HP HO) as (d & resp & EQ & _); [tauto|].
    rewrite EQ. reflexivity.
Qed.

(** ** C33: message exchanges terminate *)

(** Full statement, false: see the next theorems.
    [forall m, In (m_esv m) (spec_response ++ spec_error ++ [0x73]) -> the node sends nothing back].
    It holds for messages to an object the node has. *)
Theorem C33_no_answer_partial : forall cb w nd pending m r o,
  received m -> pending_ok pending -> not_own nd m -> addressed nd m r o ->
  In (m_esv m) (spec_response ++ spec_error ++ [0x73]) ->
  forall resp, out_reply (ProtocolMessageReceived cb w nd pending m) <> Ok (Some resp).
Proof.
  intros cb w nd pending m r o HR HP HO HA HE resp.
  assert (HV : valid nd m r o).
  { split; [assumption|]. unfold known_esv, reads, writes, spec_request, spec_response, spec_notification, spec_error in *.
    cbn [app In] in *. split; [tauto|]. intros HX. exfalso. lia. }
  destruct (handle_valid cb w nd pending m r o HR HP HO HV) as (d & st & E & RO & RC & EQ).
  rewrite EQ. cbn [out_reply]. destruct (r_err st); [discriminate|].
  destruct (ESV_IsResponseRequired (m_esv m)) eqn:X; [|discriminate].
  apply required_iff in X. unfold spec_response, spec_error in HE. cbn [spec_answer map fst app In] in *. exfalso. lia.
Qed.

(** What is missing is false: an answer, error or notification for an object
    the node does not have is answered, with a service code 0 that is none. *)
Theorem C33_answers_refuted : forall cb w nd pending m,
  received m -> pending_ok pending -> not_own nd m ->
  In (m_esv m) (spec_response ++ spec_error ++ [0x73]) -> LookupObject nd (DEOJ m) = None ->
  exists resp, out_reply (ProtocolMessageReceived cb w nd pending m) = Ok (Some resp) /\ m_esv resp = 0.
Proof.
  intros cb w nd pending m HR HP HO HE HL.
  assert (HV : ~ (exists r o, valid nd m r o)).
  { intros (r & o & (A & _) & _). congruence. }
  destruct (handle_invalid cb w nd pending m HR HP HO HV) as (d & resp & EQ & _ & _ & _ & _ & V).
  rewrite EQ. exists resp. split; [reflexivity|]. rewrite V.
  unfold spec_response, spec_error in HE. cbn [app In] in HE.
  repeat destruct HE as [HE|HE]; try contradiction; rewrite <- HE; reflexivity.
Qed.

(** That answer is answered by every node, whatever objects it has. *)
Lemma zero_invalid nd m : m_esv m = 0 -> ~ (exists r o, valid nd m r o).
Proof.
  intros E (r & o & _ & K & _). rewrite E in K. unfold known_esv in K. vm_compute in K. intuition discriminate.
Qed.

End Handler.

(** Two nodes that send each other what their handlers return: [x] handles [m];
    the answer goes over the wire, is decoded, and [y] handles it as coming from
    the address [ax] of [x]; and so on.  True when the exchange is still going
    on after [k] messages.  [cx], [wx] are the callbacks and state of the
    application of [x]. *)
Fixpoint volley {W : Type} (k : nat) (cx : callbacks W) (wx : W) (x : node) (ax : address)
  (cy : callbacks W) (wy : W) (y : node) (ay : address) (m : message) : bool :=
  match k with
  | O => true
  | S k' =>
      let out := ProtocolMessageReceived cx wx x None m in
      match out_reply out with
      | Ok (Some resp) =>
          match Bytes resp with
          | Ok b =>
              match NewMessageWithBytes b with
              | Ok m' => volley k' cy wy y ay cx (out_world out) (out_node out) ax (SetFrom m' ax)
              | _ => false
              end
          | _ => false
          end
      | _ => false
      end
  end.

Lemma SetTID_bytes m v : is_byte (fst (m_tid (SetTID m v))) /\ is_byte (snd (m_tid (SetTID m v))).
Proof. split; apply Z.mod_pos_bound; lia. Qed.

Lemma be3_bytes v : 0 <= v < 2 ^ 24 -> is_bytes (be3 v).
Proof.
  intros H. unfold be3. change (2 ^ 24) with 16777216 in H.
  constructor; [|constructor; [|constructor; [|constructor]]]; unfold is_byte; lia.
Qed.

Lemma blank_bytes n k : is_bytes (flat_map raw_prop (firstn k (repeat NewPProp n))).
Proof.
  revert k. induction n as [|n IH]; intros [|k]; cbn [repeat firstn flat_map]; try constructor.
  - unfold is_byte. cbn. lia.
  - constructor; [unfold is_byte; cbn; lia|]. apply IH.
Qed.

(** The error response survives the wire: it is decoded again. *)
Lemma impossible_wire m resp : received m -> NewImpossibleMessageWithMessage m = Ok resp ->
  exists b m', is_bytes b /\ Bytes resp = Ok b /\ NewMessageWithBytes b = Ok m' /\ m_esv m' = m_esv resp.
Proof.
  intros HR HI. pose proof (received_header m HR) as (H1 & H2 & H3 & H4 & H5 & H6 & H7).
  destruct (impossible_facts m H1 H2 H3 H4) as
    (x & E & _ & _ & _ & V & O & P & Y1 & Y2 & S & D & T).
  rewrite HI in E. injection E as <-.
  assert (HS : shape resp) by (split; rewrite ?S, ?D; reflexivity).
  pose proof (SetTID_bytes NewMessage (TID m)) as (B1 & B2). rewrite <- T in B1, B2.
  assert (VB : 0 <= impossible_esv (m_esv m) < 256).
  { unfold impossible_esv. repeat match goal with |- context [if ?c then _ else _] => destruct c end;
      vm_compute; split; congruence. }
  pose proof (be3_bytes _ H3) as B3. pose proof (be3_bytes _ H2) as B4.
  pose proof (blank_bytes (Z.to_nat (2 * OPC m)) (Z.to_nat (m_opc resp))) as B5.
  assert (OB : 0 <= m_opc resp < 256) by (unfold OPC in O at 1; rewrite O; apply Z.mod_pos_bound; lia).
  rewrite (Bytes_general resp HS). unfold raw_header, visited. rewrite Y1, Y2, S, D, P, V.
  unfold be3 in *. cbn [app].
  match goal with |- exists b m', _ /\ Ok ?l = _ /\ _ => assert (HB : is_bytes l) end.
  { unfold is_bytes in *.
    repeat match goal with H : Forall is_byte (_ :: _) |- _ => inversion H; clear H; subst end.
    repeat (constructor; [first [assumption | unfold is_byte; lia]|]). assumption. }
  eexists. eexists. split; [exact HB|]. split; [reflexivity|].
  rewrite ParseBytes_long by exact HB. split; reflexivity.
Qed.

(** The exchange never stops: from any message with service code 0 on, for every
    pair of nodes, whatever objects they have and whatever their applications
    do.  (A node that ignores its own messages must not share its address.) *)
Theorem C33_exchange_refuted : forall (W : Type) k (cx cy : callbacks W) wx wy x y ax ay m,
  received m -> m_esv m = 0 -> m_from m = ay -> not_own x m ->
  n_self x = true \/ ay <> n_addr x -> n_self y = true \/ ax <> n_addr y ->
  volley k cx wx x ax cy wy y ay m = true.
Proof.
  intros W k. induction k as [|k IH]; intros cx cy wx wy x y ax ay m HR HE HF HO Hx Hy; [reflexivity|].
  cbn [volley].
  destruct (handle_invalid cx wx x None m HR I HO (zero_invalid x m HE)) as
    (d & resp & EQ & EI & _ & _ & _ & V).
  rewrite EQ. cbn [out_reply out_world out_node].
  destruct (impossible_wire m resp HR EI) as (b & m' & HB & -> & EM & VM). rewrite EM.
  apply IH.
  - exists b, m', ax, (m_pktType (SetFrom m' ax)). split; [exact HB|]. split; [exact EM|].
    destruct m'. reflexivity.
  - cbn [SetFrom m_esv]. rewrite VM, V, HE. reflexivity.
  - reflexivity.
  - unfold not_own. cbn [SetFrom m_from]. exact Hy.
  - exact Hy.
  - exact Hx.
Qed.

(** An ordinary message starts such an exchange: any answer, error or
    notification for an object the receiving node does not have. *)
Theorem C33_exchange_starts_refuted : forall (W : Type) k (cx cy : callbacks W) wx wy x y ax ay m,
  received m -> In (m_esv m) (spec_response ++ spec_error ++ [0x73]) ->
  LookupObject x (DEOJ m) = None -> m_from m = ay ->
  n_self x = true \/ ay <> n_addr x -> n_self y = true \/ ax <> n_addr y ->
  volley k cx wx x ax cy wy y ay m = true.
Proof.
  intros W [|k] cx cy wx wy x y ax ay m HR HE HL HF Hx Hy; [reflexivity|]. cbn [volley].
  assert (HO : not_own x m) by (unfold not_own; rewrite HF; exact Hx).
  assert (HV : ~ (exists r o, valid x m r o)) by (intros (r & o & (A & _) & _); congruence).
  destruct (handle_invalid cx wx x None m HR I HO HV) as (d & resp & EQ & EI & _ & _ & _ & V).
  rewrite EQ. cbn [out_reply out_world out_node].
  destruct (impossible_wire m resp HR EI) as (b & m' & HB & -> & EM & VM). rewrite EM.
  apply C33_exchange_refuted.
  - exists b, m', ax, (m_pktType (SetFrom m' ax)). split; [exact HB|]. split; [exact EM|].
    destruct m'. reflexivity.
  - cbn [SetFrom m_esv]. rewrite VM, V. unfold spec_response, spec_error in HE. cbn [app In] in HE.
    repeat destruct HE as [HE|HE]; try contradiction; rewrite <- HE; reflexivity.
  - reflexivity.
  - unfold not_own. cbn [SetFrom m_from]. exact Hy.
  - exact Hy.
  - exact Hx.
Qed.

(** ** C34: write requests are accepted exactly when well-typed *)

(** Passed to the application: the node listener, if installed, gets the message. *)
Theorem C34_write : forall (W : Type) (cb : callbacks W) w nd pending m r o,
  received m -> pending_ok pending -> not_own nd m ->
  In (m_esv m) [0x60; 0x61] -> addressed nd m r o -> cb_node cb <> None ->
  (In (CallNode m) (map fst (out_calls (ProtocolMessageReceived cb w nd pending m))) <->
   forall p, In p (m_ep m) ->
     exists q, LookupProperty (o_props o) (pp_code p) = Some q /\
       p_set q <> Prohibited /\ length (pp_data p) = length (p_data q)).
Proof.
  intros W cb w nd pending m r o HR HP HO HE HA HC.
  assert (HW : writes (m_esv m) /\ ~ reads (m_esv m) /\ known_esv (m_esv m)).
  { unfold writes, reads, known_esv, spec_request. cbn [In app] in *. lia. }
  destruct HW as (HW & HNR & HK). split.
  - intros HI p Hp. destruct (valid_dec nd m HR) as [(r' & o' & (A & _ & HF))|HN].
    + destruct HA as (A1 & A2), A as (B1 & B2). rewrite A1 in B1. injection B1 as <-.
      rewrite A2 in B2. injection B2 as <-.
      specialize (HF (or_intror HW)). rewrite Forall_forall in HF.
      destruct (HF p Hp) as (q & E & _ & S). exists q. specialize (S HW). tauto.
    + rewrite C32_no_calls in HI by tauto. contradiction.
  - intros HF. assert (HV : valid nd m r o).
    { split; [assumption|]. split; [assumption|]. intros _. apply Forall_forall. intros p Hp.
      destruct (HF p Hp) as (q & E & S). exists q. tauto. }
    rewrite (C32_calls cb w nd pending m r o HR HP HO HV). cbn [filter installed].
    destruct (cb_node cb); [left; reflexivity|congruence].
Qed.

(** The write part of a write-and-read request needs the right to read as well. *)
Theorem C34_write_read : forall (W : Type) (cb : callbacks W) w nd pending m r o,
  received m -> pending_ok pending -> not_own nd m ->
  m_esv m = 0x6E -> addressed nd m r o -> cb_node cb <> None ->
  (In (CallNode m) (map fst (out_calls (ProtocolMessageReceived cb w nd pending m))) <->
   forall p, In p (m_ep m) ->
     exists q, LookupProperty (o_props o) (pp_code p) = Some q /\
       p_set q <> Prohibited /\ p_get q <> Prohibited /\ length (pp_data p) = length (p_data q)).
Proof.
  intros W cb w nd pending m r o HR HP HO HE HA HC.
  assert (HW : writes (m_esv m) /\ reads (m_esv m) /\ known_esv (m_esv m)).
  { unfold writes, reads, known_esv, spec_request. cbn [In app] in *. lia. }
  destruct HW as (HW & HNR & HK). split.
  - intros HI p Hp. destruct (valid_dec nd m HR) as [(r' & o' & (A & _ & HF))|HN].
    + destruct HA as (A1 & A2), A as (B1 & B2). rewrite A1 in B1. injection B1 as <-.
      rewrite A2 in B2. injection B2 as <-.
      specialize (HF (or_intror HW)). rewrite Forall_forall in HF.
      destruct (HF p Hp) as (q & E & G & S). exists q. specialize (S HW). specialize (G HNR). tauto.
    + rewrite C32_no_calls in HI by tauto. contradiction.
  - intros HF. assert (HV : valid nd m r o).
    { split; [assumption|]. split; [assumption|]. intros _. apply Forall_forall. intros p Hp.
      destruct (HF p Hp) as (q & E & S). exists q. tauto. }
    rewrite (C32_calls cb w nd pending m r o HR HP HO HV). cbn [filter installed].
    destruct (cb_node cb); [left; reflexivity|congruence].
Qed.

(** ** C35: unreadable properties are not disclosed *)

(** Full statement, false (next theorem): no response to any message carries the
    data of a property whose read attribute is prohibited.  It holds for the two
    read services, when the callbacks leave the read attributes alone. *)
Theorem C35_undisclosed_partial : forall (W : Type) (cb : callbacks W) w nd pending m r o r' o' resp,
  received m -> pending_ok pending -> not_own nd m ->
  In (m_esv m) [0x62; 0x6E] -> addressed nd m r o ->
  let out := ProtocolMessageReceived cb w nd pending m in
  addressed (out_node out) m r' o' ->
  (forall c q q', LookupProperty (o_props o) c = Some q -> LookupProperty (o_props o') c = Some q' ->
     p_get q' = p_get q) ->
  out_reply out = Ok (Some resp) ->
  forall a, In a (m_ep resp) -> pp_data a <> [] ->
    exists q, LookupProperty (o_props o') (pp_code a) = Some q /\ p_get q <> Prohibited.
Proof.
  intros W cb w nd pending m r o r' o' resp HR HP HO HE HA out HA' HG HRep a Ha HD.
  assert (HRd : reads (m_esv m)) by exact HE.
  pose proof (received_header m HR) as (H1 & H2 & H3 & H4 & _).
  destruct (valid_dec nd m HR) as [(r0 & o0 & HV)|HN].
  - destruct (handle_valid cb w nd pending m r0 o0 HR HP HO HV) as (d & st & E & RO & RC & EQ).
    subst out. rewrite EQ in *. cbn [out_node out_reply] in *.
    destruct HV as (A & _ & HF). destruct HA as (A1 & A2), A as (B1 & B2). rewrite A1 in B1. injection B1 as <-.
    rewrite A2 in B2. injection B2 as <-.
    destruct (r_err st); [discriminate HRep|]. destruct (negb _); [discriminate HRep|].
    destruct HA' as (C1 & C2). rewrite (createResponse_eq _ _ _ _ C1 C2) in HRep. cbn [bind] in HRep.
    injection HRep as <-. destruct (response_for_spec o' m HR) as (_ & _ & _ & _ & P & _).
    rewrite P in Ha. apply in_flat_map in Ha. destruct Ha as (p & Hp & Ha).
    unfold found in Ha. destruct (LookupProperty (o_props o') (pp_code p)) as [q|] eqn:EQ'; [|contradiction].
    destruct Ha as [<-|[]]. cbn [ToProtocol pp_code]. rewrite (Lookup_code _ _ _ EQ').
    exists q. split; [assumption|].
    specialize (HF (or_introl HRd)). rewrite Forall_forall in HF. destruct (HF p Hp) as (q0 & E0 & G0 & _).
    rewrite (HG _ _ _ E0 EQ'). exact (G0 HRd).
  - destruct (handle_invalid cb w nd pending m HR HP HO HN) as (d & x & EQ & EI & _).
    subst out. rewrite EQ in HRep. cbn [out_reply] in HRep. injection HRep as <-.
    destruct (impossible_facts m H1 H2 H3 H4) as (y & E & _ & _ & _ & _ & _ & P & _).
    rewrite EI in E. injection E as <-. rewrite P in Ha. apply repeat_spec in Ha. subst a.
    exfalso. apply HD. reflexivity.
Qed.

(** Anyone can have any property of any object: a notification request (or a
    notification that wants a response) is answered with the data of the named
    properties, whatever their attributes. *)
Theorem C35_disclosed_refuted : forall (W : Type) (cb : callbacks W) w nd pending m r o p q,
  received m -> pending_ok pending -> not_own nd m ->
  In (m_esv m) [0x63; 0x74] -> addressed nd m r o -> keeps_node cb ->
  In p (m_ep m) -> LookupProperty (o_props o) (pp_code p) = Some q ->
  let out := ProtocolMessageReceived cb w nd pending m in
  (forall c e, In (c, e) (out_calls out) -> e = false) ->
  exists resp a, out_reply out = Ok (Some resp) /\ In a (m_ep resp) /\
    pp_code a = pp_code p /\ pp_data a = p_data q.
Proof.
  intros W cb w nd pending m r o p q HR HP HO HE HA HK Hp Hq out Hok.
  assert (HV : valid nd m r o).
  { split; [assumption|]. unfold known_esv, reads, writes, spec_request, spec_response, spec_notification.
    cbn [In app] in *. split; [lia|]. intros X. exfalso. lia. }
  destruct (handle_valid cb w nd pending m r o HR HP HO HV) as (d & st & E & RO & RC & EQ).
  pose proof (exec_keeps cb w nd m st HK E) as EN.
  subst out. rewrite EQ in *. cbn [out_reply out_calls] in *.
  assert (EF : r_err st = false).
  { rewrite RO. destruct (existsb snd (r_calls st)) eqn:X; [|reflexivity].
    apply existsb_exists in X. destruct X as ([c e] & I & X). cbn [snd] in X. subst e.
    specialize (Hok c true I). discriminate Hok. }
  rewrite EF, EN. assert (ER : ESV_IsResponseRequired (m_esv m) = true).
  { apply required_iff. cbn [spec_answer map fst In] in *. lia. }
  rewrite ER. cbn [negb]. destruct HA as (A1 & A2). rewrite (createResponse_eq _ _ _ _ A1 A2). cbn [bind].
  exists (response_for o m), (ToProtocol q). split; [reflexivity|].
  destruct (response_for_spec o m HR) as (_ & _ & _ & _ & P & _). rewrite P.
  split; [|split; [apply (Lookup_code _ _ _ Hq)|reflexivity]].
  apply in_flat_map. exists p. split; [assumption|]. unfold found. rewrite Hq. left. reflexivity.
Qed.

(** A write-only property is also disclosed by the response to a write request. *)
Theorem C35_write_response_refuted : forall (W : Type) (cb : callbacks W) w nd pending m r o p q,
  received m -> pending_ok pending -> not_own nd m ->
  m_esv m = 0x61 -> valid nd m r o -> keeps_node cb ->
  In p (m_ep m) -> LookupProperty (o_props o) (pp_code p) = Some q ->
  let out := ProtocolMessageReceived cb w nd pending m in
  (forall c e, In (c, e) (out_calls out) -> e = false) ->
  exists resp a, out_reply out = Ok (Some resp) /\ In a (m_ep resp) /\
    pp_code a = pp_code p /\ pp_data a = p_data q.
Proof.
  intros W cb w nd pending m r o p q HR HP HO HE HV HK Hp Hq out Hok.
  destruct (handle_valid cb w nd pending m r o HR HP HO HV) as (d & st & E & RO & RC & EQ).
  pose proof (exec_keeps cb w nd m st HK E) as EN.
  subst out. rewrite EQ in *. cbn [out_reply out_calls] in *.
  assert (EF : r_err st = false).
  { rewrite RO. destruct (existsb snd (r_calls st)) eqn:X; [|reflexivity].
    apply existsb_exists in X. destruct X as ([c e] & I & X). cbn [snd] in X. subst e.
    specialize (Hok c true I). discriminate Hok. }
  rewrite EF, EN, HE. cbn [ESV_IsResponseRequired negb]. destruct HV as ((A1 & A2) & _).
  rewrite (createResponse_eq _ _ _ _ A1 A2). cbn [bind].
  exists (response_for o m), (ToProtocol q). split; [reflexivity|].
  destruct (response_for_spec o m HR) as (_ & _ & _ & _ & P & _). rewrite P.
  split; [|split; [apply (Lookup_code _ _ _ Hq)|reflexivity]].
  apply in_flat_map. exists p. split; [assumption|]. unfold found. rewrite Hq. left. reflexivity.
Qed.

(** ** C36: own multicasts are ignored *)

(** Full statement, false for a node with several addresses (next theorem): a
    message from any address the node sends from is ignored, all others are
    handled.  It holds for the one address [n_addr] that Address and Port return. *)
Theorem C36_own_ignored_partial : forall (W : Type) (cb : callbacks W) w nd pending m,
  n_self nd = false -> m_from m = n_addr nd ->
  ProtocolMessageReceived cb w nd pending m = mkOutcome w nd [] false (Ok None).
Proof.
  intros W cb w nd pending m HS HF. unfold ProtocolMessageReceived. rewrite HS, HF.
  unfold addr_eqb. rewrite !Z.eqb_refl. reflexivity.
Qed.

(** Other sources are handled: a valid message is passed to the application, and
    every other one is answered with an error. *)
Theorem C36_others_handled : forall (W : Type) (cb : callbacks W) w nd pending m,
  received m -> pending_ok pending -> m_from m <> n_addr nd ->
  let out := ProtocolMessageReceived cb w nd pending m in
  (forall r o, valid nd m r o -> cb_node cb <> None -> In (CallNode m) (map fst (out_calls out))) /\
  (~ (exists r o, valid nd m r o) -> exists resp, out_reply out = Ok (Some resp)).
Proof.
  intros W cb w nd pending m HR HP HF out.
  assert (HO : not_own nd m) by (right; assumption). split.
  - intros r o HV HC. subst out. rewrite (C32_calls cb w nd pending m r o HR HP HO HV).
    cbn [filter installed]. destruct (cb_node cb); [left; reflexivity|congruence].
  - intros HN. destruct (handle_invalid cb w nd pending m HR HP HO HN) as (d & resp & EQ & _).
    subst out. rewrite EQ. exists resp. reflexivity.
Qed.

(** A node bound to two addresses passes its own multicasts, received from the
    second one, to the application although self messages are disabled. *)
Theorem C36_second_address_refuted : forall (W : Type) (cb : callbacks W) w nd pending m r o a1 a2 servers port,
  received m -> pending_ok pending -> n_self nd = false ->
  n_addr nd = mkAddress (node_Address (Some a1 :: Some a2 :: servers)) port -> a2 <> a1 ->
  m_from m = mkAddress a2 port -> valid nd m r o -> cb_node cb <> None ->
  In (CallNode m) (map fst (out_calls (ProtocolMessageReceived cb w nd pending m))).
Proof.
  intros W cb w nd pending m r o a1 a2 servers port HR HP HS HA HN HF HV HC.
  apply (C36_others_handled W cb w nd pending m HR HP) with (r := r) (o := o); try assumption.
  rewrite HF, HA. cbn [node_Address]. congruence.
Qed.

(** ** Examples *)

(** A node with one device, a light with a write-only property 0xB1. *)
Definition ex_light : object :=
  mkObject [0x02; 0x90; 0x01]
    [mkProperty 0x80 Required Required Required [0x30]; mkProperty 0xB0 Required Prohibited Prohibited [0x32; 0x33];
     mkProperty 0xB1 Prohibited Required Prohibited [0x55]].

Definition ex_addr : address := mkAddress 7 3610.
Definition ex_node (self : bool) : node := mkNode [ex_light] [mkObject np_codes []] 0 0 true ex_addr self [].

(** A message from address 9 for the light: service and properties. *)
Definition ex_bytes (esv opc : Z) (area : list Z) : list Z :=
  [0x10; 0x81; 0x12; 0x34; 0x05; 0xFF; 0x01; 0x02; 0x90; 0x01; esv; opc] ++ area.
Definition ex_msg (esv opc : Z) (area : list Z) : message :=
  match NewMessageWithBytes (ex_bytes esv opc area) with
  | Ok m => SetPacketType (SetFrom m (mkAddress 9 3610)) 2
  | _ => NewMessage
  end.

(** An application that counts calls, turns the light on when a property is
    read, and reports an error when [fails]. *)
Definition ex_cb (fails : bool) : callbacks Z :=
  mkCallbacks (Some (fun w nd _ => (w + 1, nd, false)))
    (fun _ => Some (fun w nd _ _ => (w + 100, put_at nd (DevRef 0) (mkObject (o_codes ex_light)
       (set_data (o_props ex_light) 0x80 [0x31])), fails)))
    (fun _ => None).

Definition ex_run (cb : callbacks Z) (self : bool) (m : message) : outcome Z :=
  ProtocolMessageReceived cb 0 (ex_node self) None m.

Lemma ex_received esv opc area : is_bytes (ex_bytes esv opc area) -> received (ex_msg esv opc area).
Proof.
  intros H. unfold ex_msg.
  destruct (NewMessageWithBytes (ex_bytes esv opc area)) as [m| |] eqn:E.
  - exists (ex_bytes esv opc area), m, (mkAddress 9 3610), 2. auto.
  - exfalso. unfold ex_bytes in *. cbn [app] in *. rewrite ParseBytes_long in E by assumption. discriminate E.
  - exfalso. unfold ex_bytes in *. cbn [app] in *. rewrite ParseBytes_long in E by assumption. discriminate E.
Qed.

Definition reply_bytes (r : res (option message)) : res (option (list Z)) :=
  r <- r ;; match r with None => Ok None | Some m => b <- Bytes m ;; Ok (Some b) end.

(** Reading 0xB0 and 0x80: the callback changed 0x80 before the answer was made. *)
Example C29_example :
  let out := ex_run (ex_cb false) true (ex_msg 0x62 2 [0xB0; 0; 0x80; 0]) in
  reply_bytes (out_reply out) =
    Ok (Some [0x10; 0x81; 0x12; 0x34; 0x02; 0x90; 0x01; 0x05; 0xFF; 0x01; 0x72; 2; 0xB0; 2; 0x32; 0x33; 0x80; 1; 0x31]).
Proof. reflexivity. Qed.

Example C29_valid_example : valid (ex_node true) (ex_msg 0x62 2 [0xB0; 0; 0x80; 0]) (DevRef 0) ex_light.
Proof.
  split; [split; reflexivity|]. split; [cbn; tauto|]. intros _.
  change (Forall (accepts ex_light 0x62) [mkPProp 0xB0 []; mkPProp 0x80 []]).
  constructor; [|constructor; [|constructor]]; eexists; (split; [reflexivity|]);
    (split; [cbn; discriminate|]); intros H; unfold writes in H; cbn [In] in H; exfalso; lia.
Qed.

(** Requests for a missing object, a missing property, an unreadable property,
    a read-only property, with a wrong size. *)
Example C30_example :
  map (fun m => let out := ex_run (ex_cb false) true m in
                (out_calls out, out_world out, r <- out_reply out ;; Ok (option_map m_esv r)))
    [with_deoj (ex_msg 0x62 1 [0x80; 0]) [1; 2; 3]; ex_msg 0x62 1 [0x81; 0]; ex_msg 0x62 1 [0xB1; 0];
     ex_msg 0x61 1 [0xB0; 2; 1; 2]; ex_msg 0x60 1 [0x80; 2; 1; 2]; ex_msg 0x6E 1 [0xB1; 1; 1]] =
  [([], 0, Ok (Some 0x52)); ([], 0, Ok (Some 0x52)); ([], 0, Ok (Some 0x52));
   ([], 0, Ok (Some 0x51)); ([], 0, Ok (Some 0x50)); ([], 0, Ok (Some 0x5E))].
Proof. vm_compute. reflexivity. Qed.

Example C31_example :
  out_reply (ex_run (ex_cb true) true (ex_msg 0x62 2 [0xB0; 0; 0x80; 0])) = Err ErrOther /\
  (exists r, out_reply (ex_run (ex_cb false) true (ex_msg 0x61 1 [0x80; 1; 0x30])) = Ok (Some r) /\ m_esv r = 0x71) /\
  out_reply (ex_run (ex_cb false) true (ex_msg 0x60 1 [0x80; 1; 0x30])) = Ok None.
Proof.
  split; [vm_compute; reflexivity|]. split; [|vm_compute; reflexivity].
  eexists. split; reflexivity.
Qed.

Example C32_example :
  let m := ex_msg 0x62 3 [0xB0; 0; 0x80; 0; 0xB0; 0] in
  out_calls (ex_run (ex_cb false) true m) =
    [(CallNode m, false); (CallListener (DevRef 0) 0x62 (mkPProp 0xB0 []), false);
     (CallListener (DevRef 0) 0x62 (mkPProp 0x80 []), false); (CallListener (DevRef 0) 0x62 (mkPProp 0xB0 []), false)] /\
  out_world (ex_run (ex_cb false) true m) = 301.
Proof. vm_compute. split; reflexivity. Qed.

(** A read response for an object the node does not have: after 40 messages the
    two nodes still answer each other. *)
Example C33_example :
  volley 40 (no_callbacks unit) tt (ex_node true) ex_addr (no_callbacks unit) tt (ex_node true) (mkAddress 9 3610)
    (with_deoj (ex_msg 0x72 1 [0x80; 0]) [1; 2; 3]) = true /\
  out_reply (ex_run (ex_cb false) true (ex_msg 0x72 1 [0x80; 0])) = Ok None.
Proof. vm_compute. split; reflexivity. Qed.

Example C34_example :
  map (fun m => length (out_calls (ex_run (ex_cb false) true m)))
    [ex_msg 0x61 2 [0x80; 1; 0x31; 0xB1; 1; 0x56]; ex_msg 0x61 2 [0x80; 1; 0x31; 0xB0; 2; 1; 2];
     ex_msg 0x61 1 [0xB1; 0]] = [3; 0; 0]%nat.
Proof. vm_compute. reflexivity. Qed.

(** The write-only property 0xB1, with data 0x55: not by Get, but by INF_REQ, by
    INFC and in the answer to SetC. *)
Example C35_example :
  map (fun m => r <- out_reply (ex_run (no_callbacks Z) true m) ;; Ok (option_map m_ep r))
    [ex_msg 0x62 1 [0xB1; 0]; ex_msg 0x63 1 [0xB1; 0]; ex_msg 0x74 1 [0xB1; 0]; ex_msg 0x61 1 [0xB1; 1; 0]] =
  [Ok (Some [NewPProp; NewPProp]); Ok (Some [mkPProp 0xB1 [0x55]]); Ok (Some [mkPProp 0xB1 [0x55]]);
   Ok (Some [mkPProp 0xB1 [0x55]])].
Proof. vm_compute. reflexivity. Qed.

Example C36_example :
  let m := ex_msg 0x62 1 [0x80; 0] in
  map (fun a => length (out_calls (ex_run (ex_cb false) false (SetFrom m a))))
    [ex_addr; mkAddress 8 3610; mkAddress 7 3611] = [0; 2; 2]%nat /\
  n_addr (ex_node false) = mkAddress (node_Address [None; Some 7; Some 8]) 3610.
Proof. vm_compute. split; reflexivity. Qed.

Print Assumptions C29_read.
Print Assumptions C29_no_change.
Print Assumptions C29_read_unchanged.
Print Assumptions C29_read_library.
Print Assumptions C30_invalid.
Print Assumptions C31_failing.
Print Assumptions C31_succeeding.
Print Assumptions C32_calls.
Print Assumptions C32_no_calls.
Print Assumptions C33_no_answer_partial.
Print Assumptions C33_answers_refuted.
Print Assumptions C33_exchange_refuted.
Print Assumptions C33_exchange_starts_refuted.
Print Assumptions C34_write.
Print Assumptions C34_write_read.
Print Assumptions C35_undisclosed_partial.
Print Assumptions C35_disclosed_refuted.
Print Assumptions C35_write_response_refuted.
Print Assumptions C36_own_ignored_partial.
Print Assumptions C36_others_handled.
Print Assumptions C36_second_address_refuted.

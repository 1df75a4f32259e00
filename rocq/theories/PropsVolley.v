(** C33, exactly: which exchanges of two nodes end. *)

From Verif Require Import Go GoFacts Encoding EncodingFacts Protocol Parser MessageFacts ParserFacts
  ProtocolFacts StdDB Property PropertyFacts Object ObjectFacts Spec Node NodeFacts
  Handler HandlerFacts PropsHandler Exchange ExchangeFacts PropsExchange ControlFacts.
From Coq Require Import ZifyBool ZifyNat.
Local Open Scope Z_scope.

(** ** Statement vocabulary *)

(** The node does not take messages from that address for its own. *)
Definition heeds (nd : node) (a : address) : Prop := n_self nd = true \/ a <> n_addr nd.

(** The properties of the node hold bytes. *)
Definition holds_bytes (nd : node) : Prop :=
  forall o p, In o (n_devices nd ++ n_profiles nd) -> In p (o_props o) -> is_bytes (p_data p).

(** The services that ask for something. *)
Definition asking : list Z := spec_request ++ [0x74].

(** ** Facts *)

Lemma framed_message b deoj esv : framed b deoj esv -> exists m, NewMessageWithBytes b = Ok m /\ m_deoj m = deoj /\ m_esv m = esv.
Proof.
  intros (HB & h & o & area & HL & HD & ->).
  do 5 (destruct h as [|? h]; [discriminate HL|]). destruct h; [|discriminate HL].
  do 3 (destruct deoj as [|? deoj]; [discriminate HD|]). destruct deoj; [|discriminate HD]. cbn [app] in *.
  rewrite ParseBytes_long by exact HB. cbn [Z.eqb Pos.eqb andb]. eexists. split; [reflexivity|]. split; reflexivity.
Qed.

Section Volley.
Context {W : Type}.

(** What becomes of an answer on the wire. *)
Lemma reply_wire (cb : callbacks W) w nd m resp : received m -> holds_bytes (out_node (ProtocolMessageReceived cb w nd None m)) ->
  out_reply (ProtocolMessageReceived cb w nd None m) = Ok (Some resp) ->
  exists b m', is_bytes b /\ Bytes resp = Ok b /\ NewMessageWithBytes b = Ok m' /\ DEOJ m' = SEOJ m /\
    (if existsb (Z.eqb (m_esv m)) asking then In (m_esv m') (spec_response ++ spec_error ++ [0x73]) else m_esv m' = 0).
Proof.
  intros HR HB E. pose proof (received_header m HR) as (_ & H2 & _).
  destruct (reply_cases cb w nd m resp HR E) as (_ & [(r & o & r' & o' & _ & _ & HO & HA & ->)|EI]).
  - assert (HC : clean (response_for o' m)).
    { eexists. split; [apply response_represents|]. cbn [c_props c_esv]. split.
      - apply Forall_map. apply Forall_forall. intros p Hp. apply in_flat_map in Hp as (q & _ & Hp). unfold found in Hp.
        destruct (LookupProperty _ _) as [x|] eqn:EL; [|destruct Hp]. destruct Hp as [<-|[]].
        cbn [to_pair snd ToProtocol pp_data]. eapply HB; [eapply obj_in, HO|eapply Lookup_In, EL].
      - unfold response_esv, is_byte. repeat match goal with |- context [if ?c then _ else _] => destruct c end; vm_compute; intuition discriminate. }
    destruct (clean_frame _ HC) as (b & EB & HF). destruct (framed_message _ _ _ HF) as (m' & EM & D & V).
    exists b, m'. split; [apply HF|]. split; [exact EB|]. split; [exact EM|].
    destruct (response_represents o' m) as (_ & _ & _ & _ & X5 & X6 & _). cbn [c_deoj c_esv] in X5, X6.
    unfold DEOJ. rewrite D, X5, IntegerToByte_3 by exact H2. split; [apply ByteToInteger_be3, H2|]. rewrite V, X6.
    clear -HA. cbn [spec_answer map fst In] in HA. repeat destruct HA as [HA|HA]; try contradiction; rewrite <- HA; vm_compute; tauto.
  - destruct (impossible_bytes m resp HR EI) as (HL & EB). pose proof (wire_framed _ HL) as HF.
    destruct (framed_message _ _ _ HF) as (m' & EM & D & V). cbn [c_deoj c_esv] in *. exists (wire (mkContent (TID m) (DEOJ m) (SEOJ m) (impossible_esv (m_esv m))
             (repeat (0, []) (Z.to_nat (2 * OPC m mod 256))))), m'.
    split; [apply HF|]. split; [exact EB|]. split; [exact EM|]. unfold DEOJ. rewrite D. split; [apply ByteToInteger_be3, H2|]. rewrite V.
    clear. unfold asking, impossible_esv. cbn [existsb spec_request app].
    unfold ESVWriteRequest, ESVWriteRequestResponseRequired, ESVReadRequest, ESVNotificationRequest, ESVWriteReadRequest, ESVNotificationResponseRequired.
    repeat match goal with |- context [?a =? ?b] => destruct (a =? b) eqn:? end; cbn [orb]; vm_compute; tauto.
Qed.

(** ** C33 *)

(** The exchange that begins with [m] ends exactly when it is not answered, or when it
    asks for something and its sender has the object it names as the source; then it ends
    with the answer.  Everything else goes on for ever. *)
Theorem C33_exact : forall (cx cy : callbacks W) wx wy x y ax ay m,
  received m -> m_from m = ay -> heeds x ay -> heeds y ax ->
  let out := ProtocolMessageReceived cx wx x None m in
  heeds (out_node out) ay -> holds_bytes (out_node out) ->
  ((exists k, volley k cx wx x ax cy wy y ay m = false) <->
   (forall resp, out_reply out <> Ok (Some resp)) \/ (In (m_esv m) asking /\ exists r, LookupObject y (SEOJ m) = Some r)) /\
  ((exists k, volley k cx wx x ax cy wy y ay m = false) -> volley 2 cx wx x ax cy wy y ay m = false).
Proof.
  intros cx cy wx wy x y ax ay m HR HF Hx Hy out Hx' HB.
  assert (HA : In (m_esv m) asking <-> existsb (Z.eqb (m_esv m)) asking = true).
  { rewrite existsb_exists. split; [intros I; eexists; split; [exact I|apply Z.eqb_refl]|]. intros (v & I & EV). apply Z.eqb_eq in EV. subst v. exact I. }
  assert (Q : (exists resp, out_reply out = Ok (Some resp)) \/ (forall resp, out_reply out <> Ok (Some resp))).
  { destruct (out_reply out) as [[r|]|e|]; [left; eauto|right; discriminate..]. }
  destruct Q as [(resp & E)|N].
  2:{ assert (V : forall k, volley (S k) cx wx x ax cy wy y ay m = false).
      { intros k. cbn [volley]. fold out. destruct (out_reply out) as [[r|]|e|] eqn:EE; [|reflexivity..]. destruct (N r eq_refl). }
      split; [|intros _; apply V]. split; [auto|]. intros _. exists 1%nat. apply V. }
  destruct (reply_wire cx wx x m resp HR HB E) as (b & m' & B & EB & EM & D & V).
  assert (R' : received (SetFrom m' ax)).
  { exists b, m', ax, (m_pktType (SetFrom m' ax)). split; [exact B|]. split; [exact EM|]. destruct m'. reflexivity. }
  assert (ST : forall k, volley (S k) cx wx x ax cy wy y ay m = volley k cy wy y ay cx (out_world out) (out_node out) ax (SetFrom m' ax)).
  { intros k. cbn [volley]. fold out. rewrite E, EB, EM. reflexivity. }
  destruct (existsb (Z.eqb (m_esv m)) asking) eqn:EA.
  - destruct (LookupObject y (SEOJ m)) as [r|] eqn:EL.
    + assert (V2 : volley 2 cx wx x ax cy wy y ay m = false).
      { rewrite ST. cbn [volley]. destruct (LookupObject_at _ _ _ EL) as (o & EO & _).
        assert (AD : addressed y (SetFrom m' ax) r o) by (split; [change (DEOJ (SetFrom m' ax)) with (DEOJ m'); rewrite D; exact EL|exact EO]).
        pose proof (C33_no_answer_partial cy wy y None (SetFrom m' ax) r o R' I Hy AD V) as NA.
        destruct (out_reply (ProtocolMessageReceived cy wy y None (SetFrom m' ax))) as [[q|]|e|]; [destruct (NA q eq_refl)|reflexivity..]. }
      split; [|intros _; exact V2]. split; [intros _; right|intros _; exists 2%nat; exact V2]. split; [apply HA; reflexivity|]. exists r. reflexivity.
    + assert (V2 : forall k, volley k cx wx x ax cy wy y ay m = true).
      { intros [|k]; [reflexivity|]. rewrite ST. apply C33_exchange_starts_refuted; [exact R'|exact V| |reflexivity|exact Hy|exact Hx'].
        change (DEOJ (SetFrom m' ax)) with (DEOJ m'). rewrite D. exact EL. }
      split; [|intros (k & K); rewrite V2 in K; discriminate K]. split; [intros (k & K); rewrite V2 in K; discriminate K|].
      intros [N|(_ & r & K)]; [destruct (N resp E)|discriminate K].
  - assert (V2 : forall k, volley k cx wx x ax cy wy y ay m = true).
    { intros [|k]; [reflexivity|]. rewrite ST. apply C33_exchange_refuted; [exact R'|exact V|reflexivity|exact Hy|exact Hy|exact Hx']. }
    split; [|intros (k & K); rewrite V2 in K; discriminate K]. split; [intros (k & K); rewrite V2 in K; discriminate K|].
    intros [N|(K & _)]; [destruct (N resp E)|apply HA in K; discriminate K].
Qed.

(** Which messages are answered at all: those that ask for an answer and are carried out,
    and those that are not accepted. *)
Theorem C33_answered : forall (cb : callbacks W) w nd m, received m -> not_own nd m ->
  (forall c e, In (c, e) (out_calls (ProtocolMessageReceived cb w nd None m)) -> e = false) ->
  (forall r o, addressed nd m r o -> exists r' o', addressed (out_node (ProtocolMessageReceived cb w nd None m)) m r' o') ->
  ((exists resp, out_reply (ProtocolMessageReceived cb w nd None m) = Ok (Some resp)) <->
   In (m_esv m) (map fst spec_answer) \/ ~ exists r o, valid nd m r o).
Proof.
  intros cb w nd m HR HO Hok Hstay. destruct (valid_dec nd m HR) as [(r & o & HV)|HV].
  - destruct (C31_succeeding cb w nd None m r o HR I HO HV Hok) as (A & B). split.
    + intros (resp & E). destruct (in_dec Z.eq_dec (m_esv m) (map fst spec_answer)) as [I|N]; [left; exact I|]. rewrite (B N) in E. discriminate E.
    + intros [I|N]; [|destruct N; exists r, o; exact HV]. apply in_map_iff in I. destruct I as ([e a] & E1 & I). cbn [fst] in E1. subst e.
      destruct (A a I (Hstay r o (proj1 HV))) as (resp & E & _). eauto.
  - split; [intros _; right; exact HV|]. intros _. destruct (handle_invalid cb w nd None m HR I HO HV) as (d & resp & EQ & _). rewrite EQ. exists resp. reflexivity.
Qed.
End Volley.

(** ** Concrete exchanges *)

(** A read of the light in the name of the object 05FF01, which the second asking node
    has and the first does not. *)
Definition ex_asker (devices : list object) : node :=
  mkNode devices [mkObject np_codes []] 0 0 true (mkAddress 9 3610) true [].
Definition ex_exchange (devices : list object) (esv : Z) : list bool :=
  map (fun k => volley k (no_callbacks unit) tt (ex_node true) ex_addr (no_callbacks unit) tt (ex_asker devices) (mkAddress 9 3610)
                  (ex_msg esv 1 [0x80; 0])) [1; 2; 30]%nat.

Example C33_exact_example :
  ex_exchange [ex_light] 0x62 = [true; true; true] /\
  ex_exchange [mkObject [0x05; 0xFF; 0x01] []] 0x62 = [true; false; false] /\
  ex_exchange [mkObject [0x05; 0xFF; 0x01] []] 0x61 = [true; false; false] /\
  ex_exchange [ex_light] 0x72 = [false; false; false] /\
  ex_exchange [mkObject [0x05; 0xFF; 0x01] []] 0x65 = [true; true; true].
Proof. vm_compute. repeat split; reflexivity. Qed.

Example C33_exact_hypotheses_example :
  received (ex_msg 0x62 1 [0x80; 0]) /\ m_from (ex_msg 0x62 1 [0x80; 0]) = mkAddress 9 3610 /\
  heeds (ex_node true) (mkAddress 9 3610) /\
  let out := ProtocolMessageReceived (no_callbacks unit) tt (ex_node true) None (ex_msg 0x62 1 [0x80; 0]) in
  heeds (out_node out) (mkAddress 9 3610) /\ holds_bytes (out_node out).
Proof.
  split; [apply ex_received; repeat (constructor; [unfold is_byte; lia|]); constructor|]. split; [vm_compute; reflexivity|].
  split; [left; reflexivity|]. cbv zeta.
  assert (E : out_node (ProtocolMessageReceived (no_callbacks unit) tt (ex_node true) None (ex_msg 0x62 1 [0x80; 0])) = ex_node true)
    by (vm_compute; reflexivity).
  rewrite E. split; [left; reflexivity|]. intros o p HO HP. cbn [ex_node n_devices n_profiles app In] in HO.
  destruct HO as [<-|[<-|[]]]; cbn [ex_light o_props In] in HP; [|contradiction].
  destruct HP as [<-|[<-|[<-|[]]]]; cbn [p_data]; repeat (constructor; [unfold is_byte; lia|]); constructor.
Qed.

Print Assumptions C33_exact.
Print Assumptions C33_answered.

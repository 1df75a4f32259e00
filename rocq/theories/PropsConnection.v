(** C63-C69: requests over TCP connections, and how PostMessage uses the network. *)

From Verif Require Import Go GoFacts Encoding EncodingFacts Protocol Parser MessageFacts ParserFacts
  ProtocolFacts Reader ReaderFacts StdDB Property PropertyFacts Object ObjectFacts Spec Node NodeFacts
  Handler HandlerFacts PropsHandler Transport TransportFacts Exchange ExchangeFacts PropsExchange.
From Verif Require PropsProtocol PropsNode.
From Coq Require Import ZifyBool ZifyNat.
Local Open Scope Z_scope.

(** ** Vocabulary *)

Definition content_pieces (c : content) : list (list Z) :=
  PropsProtocol.stream_pieces (c_tid c) (c_seoj c) (c_deoj c) (c_esv c) (c_props c).

(** The reads of a connection on which the message arrives; anything may follow. *)
Definition arrives (c : content) (segs : list (list Z)) : Prop :=
  Forall (fun s => s <> []) segs /\ exists later, concat segs = wire c ++ later.

(** No segment ends inside one of the pieces the decoder asks for (in particular:
    the whole message is in one segment). *)
Definition in_pieces (c : content) (segs : list (list Z)) : Prop :=
  arrives c segs /\ ~ PropsProtocol.cut_inside segs (content_pieces c).

(** Properties that fit into a message. *)
Definition fits (ps : list pprop) : Prop :=
  (length ps <= 255)%nat /\ Forall (fun p => 0 <= pp_code p < 256 /\ value (pp_data p)) ps.

(** What carries bytes of the message. *)
Definition transmits (e : net_event) : bool := match e with Wrote _ _ | SentUDP _ _ => true | _ => false end.
Definition by_udp (e : net_event) : bool := match e with SentUDP _ _ => true | _ => false end.

(** Nothing was transmitted before the attempt failed. *)
Definition unreachable (a : tcp_answer) : Prop :=
  match a with ANoAddress | ADialFails | ADeadlineFails => True | _ => False end.

(** Every connection is closed after it was opened, and used only in between;
    [conn] is the connection that is open. *)
Fixpoint well_closed (conn : option nat) (evs : list net_event) : Prop :=
  match evs with
  | [] => conn = None
  | Opened k :: evs => conn = None /\ well_closed (Some k) evs
  | Wrote k _ :: evs => conn = Some k /\ well_closed conn evs
  | Closed k :: evs => conn = Some k /\ well_closed None evs
  | SentUDP _ _ :: evs => well_closed conn evs
  end.

(** ** Lemmas *)

Lemma pieces_whole c segs : arrives c segs ->
  (forall s1 s2, segs = s1 ++ s2 -> length (concat s1) = 0%nat \/ (length (wire c) <= length (concat s1))%nat) -> in_pieces c segs.
Proof.
  intros HA H. split; [exact HA|]. intros (s1 & s2 & p1 & p & p2 & E1 & E2 & C).
  assert (L : (length (concat p1) + length p <= length (wire c))%nat).
  { unfold wire. rewrite <- stream_concat. fold (content_pieces c). rewrite E2, concat_app. cbn [concat]. rewrite !app_length. lia. }
  destruct (H s1 s2 E1); lia.
Qed.

Lemma wire_nonempty c : wire c <> [].
Proof. discriminate. Qed.

Lemma in_pieces_one c : in_pieces c [wire c].
Proof.
  apply pieces_whole.
  - split; [constructor; [apply wire_nonempty|constructor]|]. exists []. cbn [concat]. reflexivity.
  - intros [|x [|y s1]] s2 E; cbn [app] in E; [left; reflexivity| |destruct s1; discriminate E].
    injection E as <- _. right. cbn [concat]. rewrite app_nil_r. lia.
Qed.

Lemma in_pieces_next c1 c2 : in_pieces c1 [wire c1; wire c2].
Proof.
  apply pieces_whole.
  - split; [repeat (constructor; [apply wire_nonempty|]); constructor|]. exists (wire c2 ++ []). reflexivity.
  - intros [|x s1] s2 E; cbn [app] in E; [left; reflexivity|].
    injection E as <- _. right. cbn [concat]. rewrite app_length. lia.
Qed.

Lemma in_pieces_joined c1 c2 : in_pieces c1 [wire c1 ++ wire c2].
Proof.
  apply pieces_whole.
  - split; [constructor; [|constructor]|].
    + intros E. apply app_eq_nil in E. destruct E as [E _]. exact (wire_nonempty _ E).
    + exists (wire c2). cbn [concat]. apply app_nil_r.
  - intros [|x s1] s2 E; cbn [app] in E; [left; reflexivity|].
    assert (EX := f_equal (hd []) E). cbn [hd] in EX. subst x. right. cbn [concat]. rewrite !app_length. lia.
Qed.

Lemma addr_eqb_eq a b : addr_eqb a b = true <-> a = b.
Proof.
  unfold addr_eqb. destruct a as [i p], b as [j q]. cbn [a_ip a_port]. rewrite andb_true_iff, !Z.eqb_eq.
  split; [intros [-> ->]; reflexivity|intros H; injection H; auto].
Qed.

Lemma wire_parses c : in_limits c ->
  exists x, NewMessageWithBytes (wire c) = Ok x /\ represents x c /\
    forall a pt, received (SetPacketType (SetFrom x a) pt).
Proof.
  intros HL.
  destruct (parse_wire _ _ _ _ _ [] HL) as (x & Ex & H1 & H2 & H3 & H4 & H5 & H6 & F1 & F2 & F3 & F4 & F5 & _); [constructor|].
  rewrite app_nil_r in Ex. fold (wire c) in Ex. exists x. split; [exact Ex|]. split.
  { destruct HL as (Lt & Ls & Ld & Le & Ll & Lp).
    repeat split; try assumption.
    - rewrite SetTID_TID by lia. symmetry. exact F3.
    - rewrite IntegerToByte_3 by assumption. exact F4.
    - rewrite IntegerToByte_3 by assumption. exact F5.
    - unfold OPC in H5. rewrite H5. unfold len. rewrite Z.mod_small by lia. reflexivity. }
  intros a pt. exists (wire c), x, a, pt. split; [apply wire_bytes, HL|]. split; [exact Ex|reflexivity].
Qed.

Lemma stream_arrives c segs : in_limits c -> in_pieces c segs ->
  NewMessageWithReader bufio_Read (NewBufio segs) = NewMessageWithBytes (wire c).
Proof.
  intros HL ((HS & later & HC) & HN).
  destruct (PropsProtocol.C06_stream_exact _ _ _ _ _ segs later HL HS HC) as [(_ & E)|(C & _)]; [exact E|].
  exfalso. exact (HN C).
Qed.

Lemma fits_limits tid obj esv ps : 0 <= tid < 65536 -> 0 <= obj < 2 ^ 24 -> 0 <= esv < 256 -> fits ps ->
  in_limits (mkContent tid 0x0EF001 obj esv (map to_pair ps)).
Proof.
  intros Ht Ho He (Hl & HF). unfold in_limits, frame_in_limits. cbn [c_tid c_seoj c_deoj c_esv c_props].
  split; [exact Ht|]. split; [lia|]. split; [exact Ho|]. split; [exact He|]. split; [rewrite map_length; lia|].
  apply Forall_map. eapply Forall_impl; [|exact HF]. intros p (P1 & P2 & P3).
  split; [exact P1|]. split; [cbn [to_pair snd]; lia|exact P3].
Qed.

Lemma connection_serves {W} (cb : callbacks W) w nd pending from segs c :
  in_limits c -> in_pieces c segs ->
  exists req, received req /\ represents req c /\ m_from req = from /\
    serve_connection cb w nd pending from segs =
      (ProtocolMessageReceived cb w nd pending req,
       match out_reply (ProtocolMessageReceived cb w nd pending req) with
       | Ok (Some resp) => Bytes resp
       | Ok None | Err _ => Ok []
       | Panic => Panic
       end).
Proof.
  intros HL HP. destruct (wire_parses c HL) as (x & Ex & RX & VX).
  exists (SetPacketType (SetFrom x from) TCPUnicastPacket). split; [apply VX|].
  split; [exact RX|]. split; [reflexivity|].
  unfold serve_connection. rewrite (stream_arrives c segs HL HP), Ex. reflexivity.
Qed.

(** ** C63 *)

(** Full statement: as below for every way the bytes of request and response are
    cut into segments; C63_fragmented_refuted shows that it does not hold. *)
Theorem C63_request_partial : forall (W : Type) (cb : callbacks W) w cl nd i o pending ca sa obj esv aesv ps,
  library_node cl -> n_running cl = true ->
  library_node nd -> respects calls_library cb -> pending_ok pending -> hears nd ca ->
  In (esv, aesv) spec_answer -> 0 <= obj < 2 ^ 24 -> fits ps ->
  LookupObject nd obj = Some (DevRef i) -> obj_at nd (DevRef i) = Some o -> Forall (accepts o esv) ps ->
  let tid := (n_lastTID cl + 1) mod 65536 in
  let c := mkContent tid 0x0EF001 obj esv (map to_pair ps) in
  forall segs, in_pieces c segs ->
  let s := serve_connection cb w nd pending ca segs in
  (exists req, m_ep req = ps /\ SEOJ req = 0x0EF001 /\ m_from req = ca /\
    map fst (out_calls (fst s)) = filter (installed cb)
      (CallNode req :: flat_map (fun p => [CallListener (DevRef i) esv p; CallHandler (DevRef i) esv p]) ps)) /\
  ((forall k e, In (k, e) (out_calls (fst s)) -> e = false) ->
   exists o' vs, obj_at (out_node (fst s)) (DevRef i) = Some o' /\ Forall2 (holds o') (map pp_code ps) vs /\
    (Forall value vs ->
     let c' := mkContent tid obj 0x0EF001 aesv (combine (map pp_code ps) vs) in
     snd s = Ok (wire c') /\
     forall segs' answers sends, in_pieces c' segs' ->
     exists cl' resp,
       Node_PostMessage cl sa (new_request obj esv ps) (mkPostNet true true (AWritten true segs' :: answers) sends) =
         Ok (cl', [Opened 0; Wrote 0 (wire c); Closed 0], PostDone resp) /\
       m_from resp = sa /\ TID resp = tid /\ SEOJ resp = obj /\ DEOJ resp = 0x0EF001 /\ m_esv resp = aesv /\
       OPC resp = Z.of_nat (length ps) /\ m_ep resp = with_values ps vs)).
Proof.
  intros W cb w cl nd i o pending ca sa obj esv aesv ps Hcl Hrun Hnd HK HP HO HE Hobj HS HL HOb HA tid c segs Hsegs s.
  destruct (library_ok cl Hcl) as (HI & HT).
  assert (HLc : in_limits c).
  { apply fits_limits; try assumption; [apply tid_small|].
    cbn [spec_answer In] in HE. repeat destruct HE as [HE|HE]; try contradiction; injection HE as <- _; lia. }
  destruct (connection_serves cb w nd pending ca segs c HLc Hsegs) as (req & HR & RR & EF & ES).
  destruct (represents_getters req c RR HLc) as (G1 & G2 & G3 & G4 & _ & G5).
  assert (EP : m_ep req = ps) by (rewrite G5; cbn [c c_props]; apply of_to_pair).
  assert (NO : not_own nd req) by (unfold not_own; rewrite EF; exact HO).
  destruct (handles cb w nd pending req c aesv (DevRef i) o HR RR HLc HP NO HE HL HOb) as (E2 & E3).
  { intros _. cbn [c c_esv c_props]. rewrite of_to_pair. exact HA. }
  subst s. rewrite ES. cbn [fst snd]. split.
  { exists req. do 3 (split; [assumption|]). rewrite E2, G4, EP. reflexivity. }
  intros Hok.
  pose proof (out_library cb w nd pending req HK) as HC.
  destruct (device_stays nd _ obj i o Hnd HC HL HOb) as (L' & o' & O' & _ & Hkeep).
  destruct (holds_all o' ps) as (vs & F).
  { intros p Hp. apply Hkeep. rewrite Forall_forall in HA. destruct (HA p Hp) as (q & Hq & _).
    apply HasProp_some. eauto. }
  exists o', vs. split; [exact O'|]. split; [exact F|]. intros HV.
  set (c' := mkContent tid obj 0x0EF001 aesv (combine (map pp_code ps) vs)).
  assert (Ec : map fst (c_props c) = map pp_code ps) by (cbn [c c_props]; rewrite map_map; reflexivity).
  assert (EL : length (map pp_code ps) = length vs) by (exact (Forall2_len _ _ _ F)).
  destruct (E3 Hok (DevRef i) o' vs L' O') as (resp & Er & Rr); [rewrite Ec; exact F|].
  assert (Ea : answer_content c aesv vs = c').
  { unfold answer_content, c'. rewrite Ec. reflexivity. }
  rewrite Ea in Rr.
  assert (HLa : in_limits c').
  { rewrite <- Ea. apply answer_limits; try assumption.
    - cbn [spec_answer In] in HE. repeat destruct HE as [HE|HE]; try contradiction; injection HE as _ <-; lia.
    - cbn [c c_props]. rewrite map_length, <- EL, map_length. reflexivity. }
  split; [rewrite Er; apply (represents_Bytes resp c' Rr HLa)|].
  intros segs' answers sends Hsegs'.
  destruct (wire_parses c' HLa) as (x & Ex & RX & _).
  destruct (represents_getters x c' RX HLa) as (K1 & K2 & K3 & K4 & K5 & K6).
  cbn [c' c_tid c_seoj c_deoj c_esv c_props] in K1, K2, K3, K4, K5, K6.
  eexists. exists (SetFrom x sa). split.
  { unfold Node_PostMessage, post_tcp. cbn [pn_node_tcp pn_server_tcp pn_post]. rewrite Hrun. cbn [negb].
    rewrite header_run by assumption. fold tid. cbn [UManager_Post]. unfold TCP_PostMessage.
    rewrite (represents_Bytes _ c (request_represents obj esv ps tid 0x0EF001) HLc). cbn [bind dialAndWriteBytes negb].
    rewrite (stream_arrives c' segs' HLa Hsegs'), Ex. cbn [bind fst snd app]. reflexivity. }
  split; [reflexivity|]. do 4 (split; [assumption|]). split.
  { change (OPC (SetFrom x sa)) with (OPC x). rewrite K5, combine_length, <- EL, Nat.min_id, map_length. reflexivity. }
  change (m_ep (SetFrom x sa)) with (m_ep x). rewrite K6. apply with_values_pairs.
Qed.

(** A message whose first read returns one to three of its bytes is not handled
    and not answered. *)
Theorem C63_fragmented_refuted : forall (W : Type) (cb : callbacks W) w nd pending from c segs,
  in_limits c -> arrives c segs -> PropsProtocol.cut_inside segs (content_pieces c) ->
  let s := serve_connection cb w nd pending from segs in
  out_calls (fst s) = [] /\ out_delivered (fst s) = false /\ out_node (fst s) = nd /\ snd s = Ok [].
Proof.
  intros W cb w nd pending from c segs HL (HS & later & HC) HN s.
  destruct (PropsProtocol.C06_stream_exact _ _ _ _ _ segs later HL HS HC) as [(N & _)|(_ & E)]; [contradiction|].
  subst s. unfold serve_connection. rewrite E. auto.
Qed.

(** ** C64 *)

(** Full statement: every request that arrives on a connection is handled.  Only
    the first one is: what follows on the connection makes no difference. *)
Theorem C64_first_partial : forall (W : Type) (cb : callbacks W) w nd pending from c segs,
  in_limits c -> in_pieces c segs ->
  serve_connection cb w nd pending from segs = serve_connection cb w nd pending from [wire c].
Proof.
  intros W cb w nd pending from c segs HL HP. unfold serve_connection.
  rewrite (stream_arrives c segs HL HP), (stream_arrives c [wire c] HL (in_pieces_one c)). reflexivity.
Qed.

Theorem C64_second_refuted : forall (W : Type) (cb : callbacks W) w nd pending from c1 c2,
  in_limits c1 -> in_limits c2 -> pending_ok pending ->
  forall segs, In segs [[wire c1; wire c2]; [wire c1 ++ wire c2]] ->
  let s := serve_connection cb w nd pending from segs in
  s = serve_connection cb w nd pending from [wire c1] /\
  (length (filter (fun k => match k with CallNode _ => true | _ => false end) (map fst (out_calls (fst s)))) <= 1)%nat /\
  (forall m, In (CallNode m) (map fst (out_calls (fst s))) -> Bytes m = Ok (wire c1)).
Proof.
  intros W cb w nd pending from c1 c2 H1 H2 HP segs HS s.
  assert (IP : in_pieces c1 segs).
  { destruct HS as [<-|[<-|[]]]; [apply in_pieces_next|apply in_pieces_joined]. }
  split; [apply C64_first_partial; assumption|].
  subst s. destruct (connection_serves cb w nd pending from segs c1 H1 IP) as (req & HR & RR & EF & ES).
  rewrite ES. cbn [fst]. clear ES.
  assert (D : (not_own nd req /\ exists r o, valid nd req r o) \/ ~ (not_own nd req /\ exists r o, valid nd req r o)).
  { destruct (valid_b nd req) eqn:V.
    - apply (proj1 (valid_iff nd req HR)) in V. unfold not_own.
      destruct (n_self nd); [left; auto|]. destruct (addr_eqb (m_from req) (n_addr nd)) eqn:E.
      + right. intros ([X|X] & _); [discriminate X|]. apply X, addr_eqb_eq, E.
      + left. split; [|exact V]. right. intros X. apply addr_eqb_eq in X. congruence.
    - right. intros (_ & X). apply (proj2 (valid_iff nd req HR)) in X. congruence. }
  destruct D as [(NO & r & o & HV)|NV].
  - rewrite (C32_calls cb w nd pending req r o HR HP NO HV).
    assert (NF : forall l, filter (fun k => match k with CallNode _ => true | _ => false end)
      (filter (installed cb) (flat_map (fun p => [CallListener r (m_esv req) p; CallHandler r (m_esv req) p]) l)) = []).
    { induction l as [|p l IH]; [reflexivity|]. cbn [flat_map app filter].
      destruct (installed cb (CallListener r (m_esv req) p)), (installed cb (CallHandler r (m_esv req) p)); exact IH. }
    split.
    + cbn [filter]. destruct (installed cb (CallNode req)); cbn [filter]; rewrite NF; cbn; lia.
    + intros m Hm. apply filter_In in Hm. destruct Hm as ([Hm|Hm] & _).
      * injection Hm as <-. apply (represents_Bytes req c1 RR H1).
      * exfalso. apply in_flat_map in Hm. destruct Hm as (p & _ & [Hm|[Hm|[]]]); discriminate Hm.
  - rewrite (C32_no_calls cb w nd pending req HR HP NV). split; [cbn; lia|]. intros m [].
Qed.

(** ** C65 *)

(** Full statement: the message PostMessage returns has the transaction number of
    the request.  Over TCP whatever message arrives on the connection is returned,
    with every transaction number, service and object. *)
Theorem C65_other_message_refuted : forall cl sa obj esv ps c' segs' answers sends,
  library_node cl -> n_running cl = true -> 0 <= obj < 2 ^ 24 -> 0 <= esv < 256 -> fits ps ->
  in_limits c' -> in_pieces c' segs' ->
  let tid := (n_lastTID cl + 1) mod 65536 in
  exists cl' resp,
    Node_PostMessage cl sa (new_request obj esv ps) (mkPostNet true true (AWritten true segs' :: answers) sends) =
      Ok (cl', [Opened 0; Wrote 0 (wire (mkContent tid 0x0EF001 obj esv (map to_pair ps))); Closed 0], PostDone resp) /\
    TID resp = c_tid c' /\ SEOJ resp = c_seoj c' /\ DEOJ resp = c_deoj c' /\ m_esv resp = c_esv c' /\
    m_ep resp = map of_pair (c_props c').
Proof.
  intros cl sa obj esv ps c' segs' answers sends Hcl Hrun Hobj Hesv HS HL' Hsegs' tid.
  destruct (library_ok cl Hcl) as (HI & HT).
  assert (HLc : in_limits (mkContent tid 0x0EF001 obj esv (map to_pair ps))) by (apply fits_limits; try assumption; apply tid_small).
  destruct (wire_parses c' HL') as (x & Ex & RX & _).
  destruct (represents_getters x c' RX HL') as (K1 & K2 & K3 & K4 & K5 & K6).
  eexists. exists (SetFrom x sa). split.
  { unfold Node_PostMessage, post_tcp. cbn [pn_node_tcp pn_server_tcp pn_post]. rewrite Hrun. cbn [negb].
    rewrite header_run by assumption. fold tid. cbn [UManager_Post]. unfold TCP_PostMessage.
    rewrite (represents_Bytes _ _ (request_represents obj esv ps tid 0x0EF001) HLc). cbn [bind dialAndWriteBytes negb].
    rewrite (stream_arrives c' segs' HL' Hsegs'), Ex. cbn [bind fst snd app]. reflexivity. }
  auto.
Qed.

(** ** C66 *)

(** How often the bytes of one request go out. *)
Definition sendings (evs : list net_event) : nat := length (filter transmits evs).

Lemma sendings_app a b : sendings (a ++ b) = (sendings a + sendings b)%nat.
Proof. unfold sendings. rewrite filter_app, app_length. reflexivity. Qed.

Lemma post_bound answers : forall k dst m evs r, UManager_Post k dst answers m = Ok (evs, r) ->
  (sendings evs <= length answers)%nat.
Proof.
  induction answers as [|a rest IH]; intros k dst m evs r H; cbn [UManager_Post] in H.
  - injection H as <- _. cbn. lia.
  - unfold TCP_PostMessage in H. destruct (Bytes m) as [b| |] eqn:EB; try discriminate H. cbn [bind] in H.
    assert (S1 : forall x, (let '(evs, _, ok) := dialAndWriteBytes k a b in
                 if negb ok then Ok (evs, Err ErrOther)
                 else match a with
                      | AWritten true segs => Ok (evs ++ [Closed k],
                          m <- NewMessageWithReader bufio_Read (NewBufio segs) ;; Ok (SetFrom m dst))
                      | _ => Ok (evs ++ [Closed k], Err ErrOther)
                      end) = Ok x -> (sendings (fst x) <= 1)%nat).
    { intros x. destruct a as [| | |n|[|] segs]; cbn [dialAndWriteBytes negb]; intros X; injection X as <-; cbn; lia. }
    destruct (let '(evs, _, ok) := dialAndWriteBytes k a b in _) as [x| |] eqn:EX; try discriminate H.
    specialize (S1 x eq_refl). cbn [bind] in H. destruct x as [e1 [y|e|]]; cbn [fst snd] in *.
    + injection H as <- _. cbn [length]. lia.
    + destruct rest as [|a' rest]; [injection H as <- _; cbn [length]; lia|].
      destruct (UManager_Post (S k) dst (a' :: rest) m) as [[e2 r2]| |] eqn:E2; try discriminate H.
      cbn [bind fst snd] in H. injection H as <- _. rewrite sendings_app. specialize (IH _ _ _ _ _ E2).
      cbn [length] in *. lia.
    + injection H as <- _. cbn [length]. lia.
Qed.

Lemma send_bound tcp answers : forall k m evs r, UManager_Send tcp k answers m = Ok (evs, r) ->
  (sendings evs <= (if tcp then 2 else 1) * length answers)%nat /\ (tcp = false -> (sendings evs <= 1)%nat).
Proof.
  induction answers as [|[a udp] rest IH]; intros k m evs r H; cbn [UManager_Send] in H.
  - injection H as <- _. destruct tcp; cbn; lia.
  - unfold UServer_SendMessage in H.
    assert (S1 : forall x, (if tcp then TCP_SendMessage k a m else Ok ([], false)) = Ok x ->
      (sendings (fst x) <= if tcp then 1 else 0)%nat /\ (tcp = false -> x = ([], false))).
    { intros x. unfold TCP_SendMessage. destruct tcp.
      - destruct (Bytes m) as [b| |]; try discriminate. cbn [bind].
        destruct a as [| | |n|[|] segs]; cbn [dialAndWriteBytes]; intros X; injection X as <-; cbn; (split; [lia|discriminate]).
      - intros X. injection X as <-. cbn. split; [lia|reflexivity]. }
    destruct (if tcp then TCP_SendMessage k a m else Ok ([], false)) as [[e1 ok]| |] eqn:EX; try discriminate H.
    destruct (S1 _ eq_refl) as (S2 & S3). cbn [bind fst] in *. clear S1.
    destruct ok.
    + injection H as <- _. cbn [length]. split; [destruct tcp; lia|]. intros X. discriminate (S3 X).
    + destruct (Bytes m) as [b| |]; try discriminate H. cbn [bind] in H. destruct udp.
      * injection H as <- _. rewrite sendings_app. change (sendings [SentUDP k b]) with 1%nat. cbn [length].
        split; [destruct tcp; lia|]. intros ->. lia.
      * destruct (UManager_Send tcp (S k) rest m) as [[e2 r2]| |] eqn:E2; try discriminate H.
        cbn [bind fst snd] in H. injection H as <- _. rewrite app_nil_r, sendings_app.
        destruct (IH _ _ _ _ E2) as (I1 & I2). cbn [length]. split; [destruct tcp; lia|].
        intros ->. specialize (I2 eq_refl). lia.
Qed.

(** Full statement: [sendings evs <= 1] for every network.  It holds when TCP is
    not used; with TCP there is a bound in the number of servers. *)
Theorem C66_once_partial : forall nd dst msg net nd' evs p,
  Node_PostMessage nd dst msg net = Ok (nd', evs, p) ->
  (pn_server_tcp net = false -> (sendings evs <= 1)%nat) /\
  (sendings evs <= length (pn_post net) + 2 * length (pn_send net))%nat.
Proof.
  intros nd dst msg net nd' evs p H. unfold Node_PostMessage in H.
  assert (S1 : forall x, (if pn_node_tcp net then post_tcp nd dst msg net else Ok (nd, msg, [], None)) = Ok x ->
    (sendings (snd (fst x)) <= length (pn_post net))%nat /\ (pn_server_tcp net = false -> snd (fst x) = [])).
  { intros x. unfold post_tcp. destruct (pn_node_tcp net); [|intros X; injection X as <-; cbn; split; [lia|reflexivity]].
    destruct (negb (n_running nd)); [intros X; injection X as <-; cbn; split; [lia|reflexivity]|].
    destruct (updateMessageDestinationHeader nd msg) as [nd2 [m2|e|]]; try discriminate.
    - destruct (pn_server_tcp net).
      + destruct (UManager_Post 0 dst (pn_post net) m2) as [[e1 r1]| |] eqn:E; try discriminate.
        cbn [bind fst snd]. pose proof (post_bound _ _ _ _ _ _ E) as B.
        destruct r1 as [y|e|]; intros X; try discriminate X; injection X as <-; cbn [fst snd]; (split; [lia|discriminate]).
      + intros X; injection X as <-; cbn; split; [lia|reflexivity].
    - intros X; injection X as <-; cbn; split; [lia|reflexivity]. }
  destruct (if pn_node_tcp net then _ else _) as [[[[nd1 m1] e1] resp]| |]; try discriminate H.
  destruct (S1 _ eq_refl) as (B1 & B2). cbn [fst snd bind] in *. clear S1.
  assert (FIN : forall evs', evs = evs' -> evs' = e1 ->
    (pn_server_tcp net = false -> (sendings evs <= 1)%nat) /\ (sendings evs <= length (pn_post net) + 2 * length (pn_send net))%nat).
  { intros evs' -> ->. split; [intros X; rewrite (B2 X); cbn; lia|lia]. }
  destruct resp as [resp|]; [injection H as _ <- _; eapply FIN; reflexivity|].
  destruct (negb (n_running nd1)); [injection H as _ <- _; eapply FIN; reflexivity|].
  destruct (updateMessageDestinationHeader nd1 m1) as [nd2 [m2|e|]]; try discriminate H.
  - destruct (UManager_Send (pn_server_tcp net) 0 (pn_send net) m2) as [[e2 ok]| |] eqn:E; try discriminate H.
    cbn [bind fst snd] in H. injection H as _ <- _. destruct (send_bound _ _ _ _ _ _ E) as (C1 & C2).
    rewrite sendings_app. split.
    + intros X. rewrite (B2 X). specialize (C2 X). cbn. lia.
    + destruct (pn_server_tcp net); lia.
  - injection H as _ <- _; eapply FIN; reflexivity.
Qed.

(** A TCP answer without a message: a failure, or a connection on which nothing
    is received. *)
Definition silent (a : tcp_answer) : Prop :=
  match a with AWritten _ segs => segs = [] | _ => True end.

Lemma nothing_read : NewMessageWithReader bufio_Read (NewBufio []) = Err ErrEOF.
Proof. reflexivity. Qed.

Lemma silent_post answers b : Forall silent answers -> forall k dst m, Bytes m = Ok b ->
  exists e, UManager_Post k dst answers m =
    Ok (concat (map (fun ka => let '(evs, _, ok) := dialAndWriteBytes (fst ka) (snd ka) b in
                               evs ++ if ok then [Closed (fst ka)] else []) (combine (seq k (length answers)) answers)), Err e).
Proof.
  induction 1 as [|a rest Ha HF IH]; intros k dst m EB; [eexists; reflexivity|].
  assert (S1 : exists e, TCP_PostMessage k dst a m =
    Ok ((let '(evs, _, ok) := dialAndWriteBytes k a b in evs ++ if ok then [Closed k] else []), Err e)).
  { unfold TCP_PostMessage. rewrite EB. cbn [bind].
    destruct a as [| | |n|[|] segs]; cbn [dialAndWriteBytes negb silent] in *; rewrite ?app_nil_r; try subst segs;
      rewrite ?nothing_read; cbn [bind]; eexists; reflexivity. }
  destruct S1 as (e & E). cbn [UManager_Post]. rewrite E. cbn [bind fst snd length seq combine map concat].
  destruct (IH (S k) dst m EB) as (e' & E').
  destruct rest as [|a' rest]; [eexists; rewrite app_nil_r; reflexivity|].
  rewrite E'. cbn [bind fst snd]. eexists. reflexivity.
Qed.

(** The state before the second attempt. *)
Lemma post_second cl sa obj esv ps answers sends :
  library_node cl -> n_running cl = true -> 0 <= obj < 2 ^ 24 -> 0 <= esv < 256 -> fits ps -> Forall silent answers ->
  let request n := mkContent ((n_lastTID cl + n) mod 65536) 0x0EF001 obj esv (map to_pair ps) in
  exists cl' m,
    represents m (request 2) /\ in_limits (request 1) /\ in_limits (request 2) /\
    Node_PostMessage cl sa (new_request obj esv ps) (mkPostNet true true answers sends) =
    (r <- UManager_Send true 0 sends m ;;
     Ok (hand_over cl' (Unicast sa m),
         concat (map (fun ka => let '(evs, _, ok) := dialAndWriteBytes (fst ka) (snd ka) (wire (request 1)) in
                                evs ++ if ok then [Closed (fst ka)] else []) (combine (seq 0 (length answers)) answers)) ++ fst r,
         if snd r then PostWaits m else PostFailed)).
Proof.
  intros Hcl Hrun Hobj Hesv HS HF request.
  destruct (library_ok cl Hcl) as (HI & HT).
  assert (HL : forall n, in_limits (request n)) by (intros n; apply fits_limits; try assumption; apply tid_small).
  unfold Node_PostMessage, post_tcp. cbn [pn_node_tcp pn_server_tcp pn_post pn_send]. rewrite Hrun. cbn [negb].
  rewrite header_run by assumption. set (t1 := (n_lastTID cl + 1) mod 65536).
  pose proof (represents_Bytes _ _ (request_represents obj esv ps t1 0x0EF001) (HL 1)) as B1.
  destruct (silent_post answers _ HF 0%nat sa _ B1) as (e & E). rewrite E. cbn [bind fst snd].
  cbn [hand_over with_lastTID n_running]. rewrite Hrun. cbn [negb].
  set (m1 := SetSEOJ (SetTID (new_request obj esv ps) t1) 0x0EF001) in *.
  match goal with |- context [updateMessageDestinationHeader ?n m1] => set (cl1 := n) end.
  assert (HI1 : core_inv (core_of cl1)) by exact HI.
  assert (HT1 : tid_ok cl1) by (change (0 <= t1 <= 65535); pose proof (tid_small (n_lastTID cl + 1)); unfold t1; lia).
  rewrite header_run by assumption.
  assert (ET : (n_lastTID cl1 + 1) mod 65536 = (n_lastTID cl + 2) mod 65536).
  { change (n_lastTID cl1) with t1. unfold t1. rewrite Zplus_mod_idemp_l. apply (f_equal (fun x => x mod 65536)). lia. }
  rewrite ET. eexists. exists (SetSEOJ (SetTID m1 ((n_lastTID cl + 2) mod 65536)) 0x0EF001).
  split.
  { replace (SetSEOJ (SetTID m1 ((n_lastTID cl + 2) mod 65536)) 0x0EF001)
      with (SetSEOJ (SetTID (new_request obj esv ps) ((n_lastTID cl + 2) mod 65536)) 0x0EF001).
    - apply request_represents.
    - unfold m1. generalize (new_request obj esv ps) ((n_lastTID cl + 2) mod 65536) t1. intros x t t'.
      unfold SetSEOJ, SetTID. cbn [with_seoj with_tid m_seoj]. rewrite IntegerToByte_length. reflexivity. }
  split; [apply HL|]. split; [apply HL|]. reflexivity.
Qed.

(** With n servers and a peer that accepts connections and does not answer, the
    request goes out n + 1 times, the last time with another transaction number. *)
Theorem C66_repeated_refuted : forall cl sa obj esv ps n segs d u rest,
  library_node cl -> n_running cl = true -> 0 <= obj < 2 ^ 24 -> 0 <= esv < 256 -> fits ps ->
  let request k := wire (mkContent ((n_lastTID cl + k) mod 65536) 0x0EF001 obj esv (map to_pair ps)) in
  exists cl' evs m,
    Node_PostMessage cl sa (new_request obj esv ps)
      (mkPostNet true true (repeat (AWritten true []) n) ((AWritten d segs, u) :: rest)) = Ok (cl', evs, PostWaits m) /\
    filter transmits evs = map (fun k => Wrote k (request 1)) (seq 0 n) ++ [Wrote 0 (request 2)] /\
    request 1 <> request 2.
Proof.
  intros cl sa obj esv ps n segs d u rest Hcl Hrun Hobj Hesv HS request.
  destruct (post_second cl sa obj esv ps (repeat (AWritten true []) n) ((AWritten d segs, u) :: rest) Hcl Hrun Hobj Hesv HS)
    as (cl' & m & RM & L1 & L2 & E).
  { apply Forall_forall. intros a Ha. apply repeat_spec in Ha. subst a. reflexivity. }
  rewrite E. cbn [UManager_Send]. unfold UServer_SendMessage, TCP_SendMessage.
  rewrite (represents_Bytes m _ RM L2). cbn [bind dialAndWriteBytes fst snd app].
  eexists. eexists. exists m. split; [reflexivity|]. split.
  - rewrite filter_app. f_equal. rewrite repeat_length. clear.
    generalize 0%nat as k. induction n as [|n IH]; intros k; [reflexivity|].
    cbn [repeat seq combine map concat fst snd dialAndWriteBytes app filter transmits]. rewrite IH. reflexivity.
  - intros X. assert (K : c_tid (mkContent ((n_lastTID cl + 1) mod 65536) 0x0EF001 obj esv (map to_pair ps)) =
      c_tid (mkContent ((n_lastTID cl + 2) mod 65536) 0x0EF001 obj esv (map to_pair ps))).
    { f_equal. apply (wire_inj _ _ L1 L2 X). }
    cbn [c_tid] in K. clear -K. lia.
Qed.

(** ** C67 *)

(** Full statement: a request that gets no response over TCP goes out by UDP.  It
    does when no connection can be made. *)
Theorem C67_fallback_partial : forall cl sa obj esv ps answers a rest,
  library_node cl -> n_running cl = true -> 0 <= obj < 2 ^ 24 -> 0 <= esv < 256 -> fits ps ->
  Forall unreachable answers -> unreachable a ->
  exists cl' evs m,
    Node_PostMessage cl sa (new_request obj esv ps) (mkPostNet true true answers ((a, true) :: rest)) =
      Ok (cl', evs, PostWaits m) /\
    filter transmits evs =
      [SentUDP 0 (wire (mkContent ((n_lastTID cl + 2) mod 65536) 0x0EF001 obj esv (map to_pair ps)))].
Proof.
  intros cl sa obj esv ps answers a rest Hcl Hrun Hobj Hesv HS HF Ha.
  destruct (post_second cl sa obj esv ps answers ((a, true) :: rest) Hcl Hrun Hobj Hesv HS) as (cl' & m & RM & L1 & L2 & E).
  { eapply Forall_impl; [|exact HF]. intros []; cbn; tauto. }
  rewrite E. cbn [UManager_Send]. unfold UServer_SendMessage, TCP_SendMessage.
  rewrite (represents_Bytes m _ RM L2). cbn [bind].
  set (b2 := wire (mkContent ((n_lastTID cl + 2) mod 65536) 0x0EF001 obj esv (map to_pair ps))). clearbody b2.
  assert (X : exists evs, dialAndWriteBytes 0 a b2 = (evs, None, false) /\ filter transmits evs = []).
  { destruct a; cbn [unreachable dialAndWriteBytes] in *; try contradiction; eexists; split; reflexivity. }
  destruct X as (evs & -> & X). cbn [bind fst snd].
  eexists. eexists. exists m. split; [reflexivity|]. rewrite app_nil_r, !filter_app, X. cbn [filter transmits app].
  match goal with |- ?l ++ _ = _ => assert (Y : l = []) end.
  { clear -HF. generalize 0%nat as k. induction HF as [|a l Ha HF IH]; intros k; [reflexivity|].
    cbn [length seq combine map concat fst snd]. rewrite filter_app, IH, app_nil_r.
    destruct a; cbn [unreachable] in Ha; try contradiction; reflexivity. }
  rewrite Y. reflexivity.
Qed.

(** Nothing goes out by UDP when the peer accepts the second connection, whether
    or not it answers. *)
Theorem C67_no_fallback_refuted : forall cl sa obj esv ps answers d segs u rest,
  library_node cl -> n_running cl = true -> 0 <= obj < 2 ^ 24 -> 0 <= esv < 256 -> fits ps ->
  Forall silent answers ->
  exists cl' evs m,
    Node_PostMessage cl sa (new_request obj esv ps) (mkPostNet true true answers ((AWritten d segs, u) :: rest)) =
      Ok (cl', evs, PostWaits m) /\
    filter by_udp evs = [].
Proof.
  intros cl sa obj esv ps answers d segs u rest Hcl Hrun Hobj Hesv HS HF.
  destruct (post_second cl sa obj esv ps answers ((AWritten d segs, u) :: rest) Hcl Hrun Hobj Hesv HS HF) as (cl' & m & RM & L1 & L2 & E).
  rewrite E. cbn [UManager_Send]. unfold UServer_SendMessage, TCP_SendMessage.
  rewrite (represents_Bytes m _ RM L2). cbn [bind dialAndWriteBytes fst snd app].
  eexists. eexists. exists m. split; [reflexivity|]. rewrite filter_app. cbn [filter by_udp]. rewrite app_nil_r.
  clear. generalize 0%nat as k. induction answers as [|a l IH]; intros k; [reflexivity|].
  cbn [length seq combine map concat fst snd]. rewrite filter_app, IH, app_nil_r.
  destruct a as [| | |n|[|] s]; reflexivity.
Qed.

(** ** C68 *)

Lemma well_closed_app a : forall conn b, well_closed conn a -> well_closed None b -> well_closed conn (a ++ b).
Proof.
  induction a as [|e a IH]; intros conn b; cbn [app].
  - intros ->. auto.
  - destruct e; cbn [well_closed]; intuition.
Qed.

Lemma post_closed answers : forall k dst m evs r, UManager_Post k dst answers m = Ok (evs, r) -> well_closed None evs.
Proof.
  induction answers as [|a rest IH]; intros k dst m evs r H; cbn [UManager_Post] in H.
  - injection H as <- _. reflexivity.
  - assert (S1 : forall x, TCP_PostMessage k dst a m = Ok x -> well_closed None (fst x)).
    { intros x. unfold TCP_PostMessage. destruct (Bytes m) as [b| |]; try discriminate. cbn [bind].
      destruct a as [| | |n|[|] segs]; cbn [dialAndWriteBytes negb]; intros X; injection X as <-; cbn; auto. }
    destruct (TCP_PostMessage k dst a m) as [[e1 r1]| |]; try discriminate H.
    specialize (S1 _ eq_refl). cbn [bind fst snd] in *.
    destruct r1 as [y|e|]; [injection H as <- _; exact S1| |injection H as <- _; exact S1].
    destruct rest as [|a' rest]; [injection H as <- _; exact S1|].
    destruct (UManager_Post (S k) dst (a' :: rest) m) as [[e2 r2]| |] eqn:E2; try discriminate H.
    cbn [bind fst snd] in H. injection H as <- _. apply well_closed_app; [exact S1|]. exact (IH _ _ _ _ _ E2).
Qed.

Lemma send_closed tcp answers : forall k m evs r, UManager_Send tcp k answers m = Ok (evs, r) -> well_closed None evs.
Proof.
  induction answers as [|[a udp] rest IH]; intros k m evs r H; cbn [UManager_Send] in H.
  - injection H as <- _. reflexivity.
  - assert (S1 : forall x, UServer_SendMessage tcp k a udp m = Ok x -> well_closed None (fst x)).
    { intros x. unfold UServer_SendMessage, TCP_SendMessage.
      destruct tcp, (Bytes m) as [b| |]; cbn [bind]; try discriminate;
        destruct a as [| | |n|[|] segs]; cbn [dialAndWriteBytes bind]; destruct udp; intros X; injection X as <-; cbn; auto. }
    destruct (UServer_SendMessage tcp k a udp m) as [[e1 ok]| |]; try discriminate H.
    specialize (S1 _ eq_refl). cbn [bind fst snd] in *.
    destruct ok; [injection H as <- _; exact S1|].
    destruct (UManager_Send tcp (S k) rest m) as [[e2 r2]| |] eqn:E2; try discriminate H.
    cbn [bind fst snd] in H. injection H as <- _. apply well_closed_app; [exact S1|]. exact (IH _ _ _ _ E2).
Qed.

Theorem C68_closed : forall nd dst msg net nd' evs p,
  Node_PostMessage nd dst msg net = Ok (nd', evs, p) -> well_closed None evs.
Proof.
  intros nd dst msg net nd' evs p H. unfold Node_PostMessage in H.
  assert (S1 : forall x, (if pn_node_tcp net then post_tcp nd dst msg net else Ok (nd, msg, [], None)) = Ok x ->
    well_closed None (snd (fst x))).
  { intros x. unfold post_tcp. destruct (pn_node_tcp net); [|intros X; injection X as <-; reflexivity].
    destruct (negb (n_running nd)); [intros X; injection X as <-; reflexivity|].
    destruct (updateMessageDestinationHeader nd msg) as [nd2 [m2|e|]]; try discriminate;
      [|intros X; injection X as <-; reflexivity].
    destruct (pn_server_tcp net); [|intros X; injection X as <-; reflexivity].
    destruct (UManager_Post 0 dst (pn_post net) m2) as [[e1 r1]| |] eqn:E; try discriminate.
    cbn [bind fst snd]. pose proof (post_closed _ _ _ _ _ _ E) as B.
    destruct r1 as [y|e|]; intros X; try discriminate X; injection X as <-; exact B. }
  destruct (if pn_node_tcp net then _ else _) as [[[[nd1 m1] e1] resp]| |]; try discriminate H.
  specialize (S1 _ eq_refl). cbn [fst snd bind] in *.
  destruct resp as [resp|]; [injection H as _ <- _; exact S1|].
  destruct (negb (n_running nd1)); [injection H as _ <- _; exact S1|].
  destruct (updateMessageDestinationHeader nd1 m1) as [nd2 [m2|e|]]; try discriminate H; [|injection H as _ <- _; exact S1].
  destruct (UManager_Send (pn_server_tcp net) 0 (pn_send net) m2) as [[e2 ok]| |] eqn:E; try discriminate H.
  cbn [bind fst snd] in H. injection H as _ <- _. apply well_closed_app; [exact S1|]. exact (send_closed _ _ _ _ _ _ E).
Qed.

(** ** C69 *)

(** Full statement: the wait is over when the context of the caller has ended.  It
    is over at the request timeout at the latest, with the response when one came. *)
Theorem C69_wait_partial : forall ctx timeout response t r,
  0 <= timeout -> (forall t' m, response = Some (t', m) -> 0 <= t') ->
  wait_response ctx timeout response = (t, r) ->
  0 <= t <= timeout /\
  (forall m, r = Ok m <-> exists t', response = Some (t', m) /\ t' < timeout) /\
  (forall m, r = Ok m -> response = Some (t, m)).
Proof.
  intros ctx timeout response t r HT HR H. unfold wait_response in H.
  destruct response as [[t' m']|].
  - specialize (HR t' m' eq_refl). destruct (t' <? timeout) eqn:E; injection H as <- <-.
    + split; [lia|]. split.
      * intros m. split; [intros X; injection X as <-; exists t'; split; [reflexivity|lia]|].
        intros (x & X & _). injection X as _ <-. reflexivity.
      * intros m X. injection X as <-. reflexivity.
    + split; [lia|]. split; [|intros m X; discriminate X].
      intros m. split; [discriminate|]. intros (x & X & Y). injection X as <- _. lia.
  - injection H as <- <-. split; [lia|]. split; [|intros m X; discriminate X].
    intros m. split; [discriminate|]. intros (x & X & Y). discriminate X.
Qed.

(** A context that ends earlier changes nothing. *)
Theorem C69_context_refuted : forall d timeout response,
  0 <= d < timeout -> (forall t m, response = Some (t, m) -> d < t) ->
  d < fst (wait_response (Some d) timeout response).
Proof.
  intros d timeout response HD HR. unfold wait_response. destruct response as [[t m]|]; [|cbn; lia].
  specialize (HR t m eq_refl). destruct (t <? timeout) eqn:E; cbn [fst]; lia.
Qed.

(** ** Examples *)

(** The server answers on the connection what it answers by UDP; the client reads
    it in two segments. *)
Example C63_example :
  (cl <- ex_client ;; nd <- ex_server PropsNode.ex_dev ;;
   b <- snd (serve_connection (no_callbacks unit) tt nd None (mkAddress 5 40000)
      [[0x10; 0x81; 0; 2]; [0x0E; 0xF0; 1; 2; 0x90; 1; 0x62; 2; 0xB0; 0; 0x80; 0]]) ;;
   r <- Node_PostMessage cl (mkAddress 7 3610) (new_request 0x029001 0x62 [mkPProp 0xB0 []; mkPProp 0x80 []])
      (mkPostNet true true [AWritten true [firstn 12 b; skipn 12 b]] []) ;;
   Ok (b, snd (fst r), match snd r with PostDone x => Some (m_ep x) | _ => None end)) =
  Ok ([0x10; 0x81; 0; 2; 2; 0x90; 1; 0x0E; 0xF0; 1; 0x72; 2; 0xB0; 1; 0x32; 0x80; 1; 0x30],
      [Opened 0; Wrote 0 [0x10; 0x81; 0; 2; 0x0E; 0xF0; 1; 2; 0x90; 1; 0x62; 2; 0xB0; 0; 0x80; 0]; Closed 0],
      Some [mkPProp 0xB0 [0x32]; mkPProp 0x80 [0x30]]).
Proof. vm_compute. reflexivity. Qed.

(** Two requests in one segment: one answer. *)
Example C64_example :
  let request t := [0x10; 0x81; 0; t; 0x0E; 0xF0; 1; 2; 0x90; 1; 0x62; 1; 0x80; 0] in
  (nd <- ex_server PropsNode.ex_dev ;;
   snd (serve_connection (no_callbacks unit) tt nd None (mkAddress 5 40000) [request 2 ++ request 3])) =
  Ok [0x10; 0x81; 0; 2; 2; 0x90; 1; 0x0E; 0xF0; 1; 0x72; 1; 0x80; 1; 0x30].
Proof. vm_compute. reflexivity. Qed.

(** A notification with another number arrives instead of the response. *)
Example C65_example :
  (cl <- ex_client ;;
   r <- Node_PostMessage cl (mkAddress 7 3610) (new_request 0x029001 0x62 [mkPProp 0x80 []])
      (mkPostNet true true [AWritten true [[0x10; 0x81; 9; 9; 1; 0x30; 1; 0x0E; 0xF0; 1; 0x73; 1; 0xBB; 1; 0x19]]] []) ;;
   Ok match snd r with PostDone x => Some (TID x, SEOJ x, m_esv x) | _ => None end) =
  Ok (Some (0x0909, 0x013001, 0x73)).
Proof. vm_compute. reflexivity. Qed.

Definition ex_sendings (net : post_net) : res (list net_event) :=
  cl <- ex_client ;;
  r <- Node_PostMessage cl (mkAddress 7 3610) (new_request 0x029001 0x61 [mkPProp 0x80 [0x31]]) net ;;
  Ok (snd (fst r)).

(** Three servers, no answer: four times the write request. *)
Example C66_example :
  (evs <- ex_sendings (mkPostNet true true [AWritten true []; AWritten true []; AWritten true []] [(AWritten true [], true)]) ;;
   Ok (sendings evs, map (fun e => match e with Wrote k b => (k, nth 3 b 0) | _ => (0%nat, 0) end) (filter transmits evs))) =
  Ok (4%nat, [(0%nat, 2); (1%nat, 2); (2%nat, 2); (0%nat, 3)]).
Proof. vm_compute. reflexivity. Qed.

Example C67_example :
  let b t := [0x10; 0x81; 0; t; 0x0E; 0xF0; 1; 2; 0x90; 1; 0x61; 1; 0x80; 1; 0x31] in
  ex_sendings (mkPostNet true true [ADialFails; ADeadlineFails] [(ADialFails, true)]) =
    Ok [Opened 1; Closed 1; SentUDP 0 (b 3)] /\
  ex_sendings (mkPostNet true true [AWritten true []] [(AWritten true [], true)]) =
    Ok [Opened 0; Wrote 0 (b 2); Closed 0; Opened 0; Wrote 0 (b 3); Closed 0].
Proof. vm_compute. split; reflexivity. Qed.

Example C68_example :
  (evs <- ex_sendings (mkPostNet true true [ADeadlineFails; AWriteFails 3; AWritten false []; AWritten true [[1]]]
    [(AWriteFails 5, false); (AWritten true [], true)]) ;;
   Ok (map (fun e => match e with Opened k => (1, k) | Closed k => (2, k) | Wrote k _ => (3, k) | SentUDP k _ => (4, k) end)%nat evs)) =
  Ok [(1, 0); (2, 0); (1, 1); (3, 1); (2, 1); (1, 2); (3, 2); (2, 2); (1, 3); (3, 3); (2, 3);
      (1, 0); (3, 0); (2, 0); (1, 1); (3, 1); (2, 1)]%nat.
Proof. vm_compute. reflexivity. Qed.

Example C69_example :
  wait_response (Some 10) 5000 (Some (40, NewMessage)) = (40, Ok NewMessage) /\
  wait_response (Some 10) 5000 None = (5000, Err ErrTimeout).
Proof. split; reflexivity. Qed.

Print Assumptions C63_request_partial.
Print Assumptions C63_fragmented_refuted.
Print Assumptions C64_first_partial.
Print Assumptions C64_second_refuted.
Print Assumptions C65_other_message_refuted.
Print Assumptions C66_once_partial.
Print Assumptions C66_repeated_refuted.
Print Assumptions C67_fallback_partial.
Print Assumptions C67_no_fallback_refuted.
Print Assumptions C68_closed.
Print Assumptions C69_wait_partial.
Print Assumptions C69_context_refuted.

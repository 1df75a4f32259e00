(** C86, C87: a network of memories. *)

From Verif Require Import Go GoFacts Encoding EncodingFacts Protocol Parser MessageFacts ParserFacts
  ProtocolFacts Reader StdDB Property PropertyFacts Object ObjectFacts Spec Node NodeFacts
  Handler HandlerFacts PropsHandler Remote RemoteFacts PropsRemote Transport TransportFacts Exchange ExchangeFacts
  PropsExchange PropsSearch Concurrent ConcurrentFacts PropsConcurrent PropsMemory Lan LanFacts Control ControlFacts.
From Verif Require PropsProtocol PropsNode PropsLan.
From Coq Require Import ZifyBool ZifyNat.
Local Open Scope Z_scope.

(** ** Statement vocabulary *)

Section Vocabulary.
Context {W : Type}.
Implicit Types s : lan W.

(** The members are nodes after any history of calls, at different addresses, with
    values of up to 255 bytes; their applications store what they are asked to
    write. *)
Definition controlled s : Prop :=
  Forall (fun nd => library_node nd /\
    forall r o c v, obj_at nd r = Some o -> holds o c v -> (length v <= 255)%nat) (members s) /\
  Forall (fun h => storing (h_cb h)) (l_hosts s) /\
  NoDup (map n_addr (members s)) /\
  Forall (fun p => is_bytes (d_bytes (pk_datagram p))) (l_packets s).

(** Object [r] of member [i]. *)
Definition object_at s (i : nat) (r : objref) (o : object) : Prop :=
  exists nd, nth_error (members s) i = Some nd /\ obj_at nd r = Some o.

(** What an event writes to object [r] of the [j]-th node: its own application sets
    a property, or a request to write arrives that the node accepts. *)
Inductive writes_to s (j : nat) (r : objref) : ctl_event -> list pprop -> Prop :=
| WSet : forall d code v, r = DevRef d -> writes_to s j r (CLan (LSet (Datatypes.S j) d code v)) [mkPProp code v]
| WRequest : forall k p nd m o, nth_error (l_packets s) k = Some p -> pk_to p = Datatypes.S j ->
    nth_error (members s) (Datatypes.S j) = Some nd -> ReadMessage (pk_datagram p) = Ok m ->
    not_own nd m -> valid nd m r o -> writes (m_esv m) -> writes_to s j r (CLan (LDeliver k)) (m_ep m).

(** The writes to the object during a run, in their order. *)
Inductive write_log (conf : ctrl_conf) s (j : nat) (r : objref) : list ctl_event -> list pprop -> Prop :=
| LogNil : write_log conf s j r [] []
| LogWrite : forall es e log ps, write_log conf s j r es log -> writes_to (ctl_run conf s es) j r e ps ->
    write_log conf s j r (es ++ [e]) (log ++ ps)
| LogOther : forall es e log, write_log conf s j r es log -> (forall ps, ~ writes_to (ctl_run conf s es) j r e ps) ->
    write_log conf s j r (es ++ [e]) log.

End Vocabulary.

(** ** Lemmas *)

Section Lemmas.
Context {W : Type}.
Implicit Types s : lan W.

Lemma lookup_of m p : props_ok m -> In p m -> LookupProperty m (p_code p) = Some p.
Proof.
  induction m as [|q m IH]; intros HN HI; [destruct HI|]. cbn [LookupProperty]. inversion HN as [|? ? N1 N2]; subst.
  destruct HI as [->|HI]; [rewrite Z.eqb_refl; reflexivity|].
  destruct (Z.eqb_spec (p_code q) (p_code p)) as [E|E]; [|apply IH; assumption]. exfalso. apply N1. rewrite E. apply in_map, HI.
Qed.

Lemma controlled_ok s : controlled s -> net_ok s.
Proof.
  intros (H1 & H2 & _ & H3). split; [|split; assumption]. eapply Forall_impl; [|exact H1]. intros nd (HL & HV). cbn beta in HV.
  destruct (library_ok nd HL) as (HI & HT). split; [exact HI|]. split; [exact HT|].
  destruct HI as (I1 & I2 & _). cbn [core_of k_devs k_profs] in I1, I2.
  assert (G : forall o r, obj_ok o -> obj_at nd r = Some o -> short o).
  { intros o r (_ & HW) HO. apply Forall_forall. intros p Hp. apply (HV r o (p_code p)); [exact HO|]. exists p. split; [|reflexivity].
    apply lookup_of; [apply HW|exact Hp]. }
  rewrite Forall_forall in I1, I2. split; apply Forall_forall; intros o HO; apply In_nth_error in HO as (i & HO).
  - apply (G o (DevRef i)); [apply I1; eapply nth_error_In, HO|exact HO].
  - apply (G o (ProfRef i)); [apply I2; eapply nth_error_In, HO|exact HO].
Qed.

Lemma codes_find l : forall l' c, map o_codes l' = map o_codes l -> find_code l' c = find_code l c.
Proof.
  induction l as [|o l IH]; intros [|o' l'] c H; try discriminate H; [reflexivity|]. cbn [map] in H. injection H as H1 H2.
  cbn [find_code]. unfold Code. rewrite H1, (IH l' c H2). reflexivity.
Qed.

Lemma kept_lookup nd nd' c : kept nd nd' -> LookupObject nd' c = LookupObject nd c.
Proof.
  intros (K1 & K2 & _). unfold LookupObject, LookupDevice, LookupProfile. rewrite (codes_find _ _ c K1), (codes_find _ _ c K2). reflexivity.
Qed.

Lemma kept_at nd nd' r o' : kept nd nd' -> obj_at nd' r = Some o' -> exists o, obj_at nd r = Some o /\ o_codes o' = o_codes o.
Proof.
  intros (K1 & K2 & _) E.
  assert (G : forall (l l' : list object) i, map o_codes l' = map o_codes l -> nth_error l' i = Some o' ->
    exists o, nth_error l i = Some o /\ o_codes o' = o_codes o).
  { intros l l' i H H'. pose proof (map_nth_error o_codes i l' H') as X. rewrite H in X. rewrite nth_error_map in X.
    destruct (nth_error l i) as [o|]; [|discriminate X]. exists o. split; [reflexivity|]. cbn [option_map] in X. congruence. }
  destruct r as [i|i]; cbn [obj_at] in *; eapply G; eassumption.
Qed.

Lemma kept_sym nd nd' : kept nd nd' -> kept nd' nd.
Proof. intros (K1 & K2 & K3 & K4 & K5). unfold kept. auto 10. Qed.

Lemma kept_member (ms ms' : list node) i nd' : Forall2 kept ms ms' -> nth_error ms' i = Some nd' ->
  exists nd, nth_error ms i = Some nd /\ kept nd nd'.
Proof.
  intros H. revert i. induction H as [|x y l l' H _ IH]; intros [|i] E; cbn [nth_error] in *; try discriminate E.
  - injection E as <-. eauto.
  - apply IH, E.
Qed.
Lemma kept_member' (ms ms' : list node) i nd : Forall2 kept ms ms' -> nth_error ms i = Some nd ->
  exists nd', nth_error ms' i = Some nd' /\ kept nd nd'.
Proof.
  intros H. revert i. induction H as [|x y l l' H _ IH]; intros [|i] E; cbn [nth_error] in *; try discriminate E.
  - injection E as <-. eauto.
  - apply IH, E.
Qed.
Lemma kept_addrs (ms ms' : list node) : Forall2 kept ms ms' -> map n_addr ms' = map n_addr ms.
Proof. induction 1 as [|a b l l' (_ & _ & H & _) _ IH]; [reflexivity|]. cbn [map]. congruence. Qed.

Lemma owner_at ms a j : owner ms a = Some j -> exists nd, nth_error ms j = Some nd /\ n_addr nd = a.
Proof.
  revert j. induction ms as [|x ms IH]; intros j E; cbn [owner] in E; [discriminate E|]. destruct (addr_eqb (n_addr x) a) eqn:EA.
  - injection E as <-. exists x. split; [reflexivity|]. apply addr_eqb_iff, EA.
  - destruct (owner ms a) as [k|]; [|discriminate E]. injection E as <-. apply (IH k eq_refl).
Qed.

Lemma set_nth_there {A} (l : list A) i x y : nth_error l i = Some y -> nth_error (set_nth l i x) i = Some x.
Proof. revert i. induction l as [|z l IH]; intros [|i] E; cbn [nth_error set_nth] in *; try discriminate E; [reflexivity|]. apply IH, E. Qed.
Lemma set_nth_elsewhere {A} (l : list A) i j x : i <> j -> nth_error (set_nth l i x) j = nth_error l j.
Proof. revert i j. induction l as [|z l IH]; intros [|i] [|j] E; cbn [nth_error set_nth]; try reflexivity; [congruence|]. apply IH. congruence. Qed.

(** *** One step, seen from an object *)

Lemma core_keeps s i f nd j r o : nth_error (members s) i = Some nd -> core_of (f nd) = core_of nd ->
  object_at s j r o -> object_at (acts s i f) j r o.
Proof.
  intros E EC (ndj & Ej & Ho). destruct (acts_members s i f nd E) as (A & _).
  destruct (Nat.eq_dec i j) as [->|N].
  - exists (f nd). rewrite A. split; [eapply set_nth_there, E|]. rewrite (core_obj _ _ _ EC). congruence.
  - exists ndj. rewrite A, set_nth_elsewhere by exact N. auto.
Qed.

Lemma acts_keeps s i f j r o : (forall nd, core_of (f nd) = core_of nd) -> object_at s j r o -> object_at (acts s i f) j r o.
Proof.
  intros EC H. destruct (nth_error (members s) i) as [nd|] eqn:E; [|rewrite acts_none by exact E; exact H].
  eapply core_keeps; [exact E|apply EC|exact H].
Qed.

Definition writes_nothing s j r e : Prop := forall ps, ~ writes_to s j r e ps.

Lemma handled_at s conf j m nd' rep : handled conf s (Datatypes.S j) m = Some (nd', rep) ->
  exists h, nth_error (l_hosts s) j = Some h /\ nth_error (members s) (Datatypes.S j) = Some (h_node h) /\
    nd' = out_node (ProtocolMessageReceived (h_cb h) (h_app h) (h_node h) None m).
Proof.
  unfold handled. destruct (nth_error (l_hosts s) j) as [h|] eqn:E; [|discriminate]. intros X. injection X as <- _.
  exists h. split; [reflexivity|]. split; [|reflexivity]. cbn [members nth_error]. rewrite nth_error_map, E. reflexivity.
Qed.

Lemma step_object conf s e j r o : net_ok s -> event_ok e -> object_at s (Datatypes.S j) r o ->
  exists o' ps, object_at (ctl_step conf s e) (Datatypes.S j) r o' /\ after_writes o ps o' /\
    (writes_to s j r e ps \/ (writes_nothing s j r e /\ ps = [])).
Proof.
  intros HN HE HO. pose proof HN as (N1 & N2 & N3).
  assert (Q : forall s', object_at s' (Datatypes.S j) r o -> writes_nothing s j r e ->
    exists o' ps, object_at s' (Datatypes.S j) r o' /\ after_writes o ps o' /\ (writes_to s j r e ps \/ (writes_nothing s j r e /\ ps = []))).
  { intros s' H1 H2. exists o, []. split; [exact H1|]. split; [apply after_nil|]. right. auto. }
  destruct e as [[i esv| |i|i d code v|k|k|k]|i a obj esv qs|p]; cbn [event_ok ctl_step lan_step] in *.
  - apply Q; [|intros ps X; inversion X]. apply acts_keeps; [|exact HO]. intros nd. apply AnnounceMessage_core.
  - apply Q; [exact HO|intros ps X; inversion X].
  - apply Q; [|intros ps X; inversion X]. apply acts_keeps; [|exact HO]. apply Announce_core.
  - destruct (nth_error (members s) i) as [nd|] eqn:EN.
    2:{ rewrite acts_none by exact EN. apply Q; [exact HO|]. intros ps X. inversion X; subst. destruct HO as (nd & X1 & _). congruence. }
    set (f := fun nd => fst (on_object nd (DevRef d) (fun o => SetPropertyData o code v))).
    destruct (acts_members s i f nd EN) as (A & _).
    change (f nd) with (written (DevRef d) nd (mkPProp code v)) in A. destruct HO as (ndj & Ej & Ho).
    destruct (Nat.eq_dec i (Datatypes.S j)) as [->|NE].
    + assert (ndj = nd) by congruence. subst ndj.
      assert (DR : r = DevRef d \/ r <> DevRef d) by (destruct r as [x|x]; [destruct (Nat.eq_dec x d); [left|right]|right]; congruence).
      destruct DR as [->|DR].
      * exists (setd code v o), [mkPProp code v]. split; [|split; [apply (after_one o (mkPProp code v))|left; constructor; reflexivity]].
        eexists. rewrite A. split; [eapply set_nth_there, EN|]. apply (written_at (DevRef d) nd (mkPProp code v) o Ho).
      * apply Q; [|intros ps X; inversion X; congruence]. eexists. rewrite A. split; [eapply set_nth_there, EN|].
        rewrite (written_other (DevRef d) r nd _ DR). exact Ho.
    + apply Q; [|intros ps X; inversion X; congruence]. exists ndj. rewrite A, set_nth_elsewhere by exact NE. auto.
  - destruct (nth_error (l_packets s) k) as [p|] eqn:EP.
    2:{ apply Q; [exact HO|]. intros ps X. inversion X; congruence. }
    set (s1 := with_packets s (without (l_packets s) k)). pose proof HO as (ndj & Ej & Ho).
    assert (HB : is_bytes (d_bytes (pk_datagram p))) by (rewrite Forall_forall in N3; apply N3; eapply nth_error_In, EP).
    destruct (nth_error (members s) (pk_to p)) as [nd|] eqn:EN.
    2:{ rewrite receives_none by exact EN. apply Q; [exact HO|]. intros ps X. inversion X; subst. congruence. }
    destruct (receives_cases conf s1 p nd EN) as (_ & D).
    destruct (ReadMessage (pk_datagram p)) as [m| |] eqn:ER.
    2,3: destruct D as (D & _); apply Q; [exists ndj; rewrite D; auto|]; intros ps X; inversion X; subst; congruence.
    destruct D as (nd' & rep & EH & D & _). change (members s1) with (members s) in D.
    destruct (Nat.eq_dec (pk_to p) (Datatypes.S j)) as [ET|NE].
    2:{ apply Q; [exists ndj; rewrite D, set_nth_elsewhere by exact NE; auto|]. intros ps X. inversion X; subst. congruence. }
    rewrite ET in *. assert (ndj = nd) by congruence. subst ndj.
    destruct (handled_at s1 conf j _ _ _ EH) as (h & Eh & Em & EN'). change (members s1) with (members s) in Em.
    change (l_hosts s1) with (l_hosts s) in Eh. assert (h_node h = nd) by congruence. subst nd.
    assert (HS : storing (h_cb h)) by (rewrite Forall_forall in N2; apply N2; eapply nth_error_In, Eh).
    destruct (read_received _ _ (pk_type p) HB ER) as (HR & _).
    destruct (C81_writes (h_node h) r [SetPacketType m (pk_type p)]) as (ps & AW & _); [constructor; [exact HR|constructor]|].
    destruct (memory_one (h_cb h) HS (h_app h) (h_node h) (h_node h) None _ r o ps HR I (ConcurrentFacts.same_refl _) Ho AW) as (_ & o' & Ho' & AF).
    exists o', ps. split; [exists nd'; rewrite D; split; [eapply set_nth_there, Ej|rewrite EN'; exact Ho']|]. split; [exact AF|].
    inversion AW as [|m' ms' ps' W1 (ov & W2) W3 W4|m' ms' ps' W1 W4]; subst; inversion W4; subst.
    + left. rewrite app_nil_r. eapply (WRequest s j r k p (h_node h) m ov); eassumption.
    + right. split; [|reflexivity]. intros ps X. inversion X as [|k' p' nd2 m2 o2 Y1 Y2 Y3 Y4 Y5 Y6 Y7]; subst.
      assert (p' = p) by congruence. subst p'. assert (m2 = m) by congruence. subst m2. assert (nd2 = h_node h) by congruence. subst nd2.
      apply W1. split; [exact Y5|]. split; [exists o2; exact Y6|exact Y7].
  - apply Q; [exact HO|intros ps X; inversion X].
  - apply Q; [|intros ps X; inversion X]. destruct (nth_error (l_packets s) k); exact HO.
  - apply Q; [|intros ps X; inversion X]. apply acts_keeps; [|exact HO]. intros nd. apply send_core.
  - apply Q; [exact HO|intros ps X; inversion X].
Qed.

Lemma writes_unique s j r e ps ps' : writes_to s j r e ps -> writes_to s j r e ps' -> ps' = ps.
Proof.
  intros H H'. inversion H; subst; inversion H'; subst; [reflexivity|]. repeat match goal with A : ?x = _, B : ?x = _ |- _ => rewrite A in B; injection B as -> end. congruence.
Qed.

Lemma log_unique conf s j r es : forall log log', write_log conf s j r es log -> write_log conf s j r es log' -> log' = log.
Proof.
  induction es as [|e es IH] using rev_ind; intros log log' H H'.
  - inversion H; [|destruct es; discriminate..]. inversion H'; [congruence|destruct es; discriminate..].
  - inversion H as [X|es1 e1 l1 p1 L1 W1 X Y|es1 e1 l1 L1 W1 X Y]; [destruct es; discriminate X| |]; apply app_inj_tail in X as (-> & ->); subst;
    inversion H' as [X|es2 e2 l2 p2 L2 W2 X Y|es2 e2 l2 L2 W2 X Y]; try (destruct es; discriminate X); apply app_inj_tail in X as (-> & ->); subst.
    + rewrite (IH _ _ L1 L2), (writes_unique _ _ _ _ _ _ W1 W2). reflexivity.
    + exfalso. eapply W2, W1.
    + exfalso. eapply W1, W2.
    + apply (IH _ _ L1 L2).
Qed.

Lemma run_object conf s es j r o : net_ok s -> Forall event_ok es -> object_at s (Datatypes.S j) r o ->
  exists o' log, object_at (ctl_run conf s es) (Datatypes.S j) r o' /\ write_log conf s j r es log /\ after_writes o log o'.
Proof.
  intros HN. induction es as [|e es IH] using rev_ind; intros HE HO.
  - exists o, []. split; [exact HO|]. split; [constructor|apply after_nil].
  - apply Forall_app in HE as (HE & HE1). inversion HE1 as [|? ? H1 _]; subst. clear HE1. destruct (IH HE HO) as (o1 & log & O1 & L1 & A1).
    destruct (ctl_run_ok conf s es HN HE) as (HN1 & _).
    destruct (step_object conf _ e j r o1 HN1 H1 O1) as (o2 & ps & O2 & A2 & D). rewrite ctl_run_snoc.
    exists o2, (log ++ ps). split; [exact O2|]. split; [|eapply after_app; eassumption].
    destruct D as [D|(D & ->)]; [apply LogWrite; assumption|]. rewrite app_nil_r. apply LogOther; assumption.
Qed.

Lemma log_in conf s j r es log p : write_log conf s j r es log -> In p log ->
  exists es1 e es2 ps, es = es1 ++ e :: es2 /\ writes_to (ctl_run conf s es1) j r e ps /\ In p ps.
Proof.
  induction 1 as [|es e log ps _ IH W1|es e log _ IH W1]; intros HI; [destruct HI| |].
  - apply in_app_or in HI as [HI|HI].
    + destruct (IH HI) as (es1 & e1 & es2 & ps1 & -> & X). exists es1, e1, (es2 ++ [e]), ps1. rewrite <- app_assoc. auto.
    + exists es, e, [], ps. auto.
  - destruct (IH HI) as (es1 & e1 & es2 & ps1 & -> & X). exists es1, e1, (es2 ++ [e]), ps1. rewrite <- app_assoc. auto.
Qed.

(** What arrives of a request. *)
Lemma request_arrives nd obj esv qs m : 0 <= obj < 2 ^ 24 -> 0 <= esv < 256 -> sendable qs ->
  ReadMessage (mkDatagram (wire (request_of nd obj esv qs)) (n_addr nd)) = Ok m ->
  TID m = (n_lastTID nd + 1) mod 65536 /\ SEOJ m = 0x0EF001 /\ DEOJ m = obj /\ m_esv m = esv /\ m_ep m = qs /\ m_from m = n_addr nd.
Proof.
  intros H1 H2 H3 E.
  assert (HL : in_limits (request_of nd obj esv qs)) by (apply sendable_limits; try assumption; apply tid_small).
  assert (Hlen : (length (wire (request_of nd obj esv qs)) <= 1024)%nat).
  { rewrite PropsExchange.wire_length. unfold request_of. cbn [c_props]. rewrite map_map. apply H3. }
  destruct (wire_arrives _ (n_addr nd) HL Hlen) as (x & EX & FX & RX & _). assert (x = m) by congruence. subst x.
  destruct (represents_getters m _ RX HL) as (G1 & G2 & G3 & G4 & _ & G6). unfold request_of in *. cbn [c_tid c_seoj c_deoj c_esv c_props] in *.
  do 4 (split; [assumption|]). split; [|exact FX]. rewrite G6, map_map. rewrite <- (map_id qs) at 2. apply map_ext. intros []. reflexivity.
Qed.

Lemma spoken_read m b a x : spoken m -> Bytes m = Ok b -> ReadMessage (mkDatagram b a) = Ok x ->
  In (m_esv x) [0x62; 0x63; 0x73] /\ m_deoj x = [0x0E; 0xF0; 0x01].
Proof.
  intros ((HC & HE) & HD) EB ER. destruct (clean_frame m HC) as (b' & EB' & HF). assert (b' = b) by congruence. subst b'.
  destruct (framed_read _ _ _ _ _ HF ER) as (D & V). rewrite D, V. auto.
Qed.

End Lemmas.

(** ** C86: every node of the network is a memory *)

Section Statements.
Context {W : Type}.
Implicit Types s : lan W.

(** Every run has one log of writes to an object. *)
Theorem C86_log : forall conf s es j r o, controlled s -> Forall event_ok es -> object_at s (Datatypes.S j) r o ->
  exists log, write_log conf s j r es log /\ forall log', write_log conf s j r es log' -> log' = log.
Proof.
  intros conf s es j r o HC HE HO. destruct (run_object conf s es j r o (controlled_ok s HC) HE HO) as (_ & log & _ & L & _).
  exists log. split; [exact L|]. intros log' L'. eapply log_unique; eassumption.
Qed.

(** The objects stay, and each property has the value that was last written to it. *)
Theorem C86_memory : forall conf s es j r o log, controlled s -> Forall event_ok es ->
  object_at s (Datatypes.S j) r o -> write_log conf s j r es log ->
  exists o', object_at (ctl_run conf s es) (Datatypes.S j) r o' /\ o_codes o' = o_codes o /\
    (forall c v0, holds o c v0 -> exists v, holds o' c v /\ last_write log c v0 v) /\
    (forall c v, holds o' c v -> exists v0, holds o c v0 /\ last_write log c v0 v).
Proof.
  intros conf s es j r o log HC HE HO HL. pose proof (controlled_ok s HC) as HN.
  destruct (run_object conf s es j r o HN HE HO) as (o' & log' & O' & L' & A).
  assert (log' = log) by (eapply log_unique; eassumption). subst log'. exists o'. split; [exact O'|]. split.
  - destruct (ctl_run_ok conf s es HN HE) as (_ & K & _). destruct O' as (nd' & E' & Ho'). destruct HO as (nd & E & Ho).
    destruct (kept_member _ _ _ _ K E') as (nd0 & E0 & KK). assert (nd0 = nd) by congruence. subst nd0.
    destruct (kept_at _ _ _ _ KK Ho') as (o0 & E1 & E2). congruence.
  - split.
    + intros c v0 H. exists (overwrite log c v0). split; [eapply after_holds; eassumption|apply overwrite_last].
    + intros c v H. destruct (after_holds' _ _ _ _ _ A H) as (v0 & H0 & ->). exists v0. split; [exact H0|apply overwrite_last].
Qed.

(** No value from nowhere: a value in a property was there from the start, or the
    application of the node set it, or a member sent the node a request to write it
    to this object, or such a request came from outside. *)
Theorem C86_origin : forall conf s es j nd r o c v, controlled s -> Forall event_ok es ->
  nth_error (members s) (Datatypes.S j) = Some nd ->
  object_at (ctl_run conf s es) (Datatypes.S j) r o -> holds o c v ->
  (exists o0, obj_at nd r = Some o0 /\ holds o0 c v) \/
  (exists d, r = DevRef d /\ In (CLan (LSet (Datatypes.S j) d c v)) es) \/
  (exists i obj esv qs, In (CSend i (n_addr nd) obj esv qs) es /\ LookupObject nd obj = Some r /\ writes esv /\ In (mkPProp c v) qs) \/
  (exists p m, (In p (l_packets s) \/ In (CInject p) es) /\ pk_to p = Datatypes.S j /\ ReadMessage (pk_datagram p) = Ok m /\
     LookupObject nd (DEOJ m) = Some r /\ writes (m_esv m) /\ In (mkPProp c v) (m_ep m)).
Proof.
  intros conf s es j nd r o c v HC HE Hnd HO Hv. pose proof (controlled_ok s HC) as HN.
  destruct (ctl_run_ok conf s es HN HE) as (_ & K & _). destruct HO as (nd' & E' & Ho').
  destruct (kept_member _ _ _ _ K E') as (nd0 & E0 & KK). assert (nd0 = nd) by congruence. subst nd0.
  destruct (kept_at _ _ _ _ KK Ho') as (o0 & Ho0 & _).
  destruct (run_object conf s es j r o0 HN HE (ex_intro _ nd (conj Hnd Ho0))) as (o1 & log & (nd1 & E1 & Ho1) & L & A).
  assert (nd1 = nd') by congruence. subst nd1. assert (o1 = o) by congruence. subst o1.
  destruct (after_holds' _ _ _ _ _ A Hv) as (v0 & H0 & EV).
  destruct (overwrite_last log c v0) as [(l1 & p & l2 & El & Ec & Ed & _)|(_ & Ev)].
  2:{ left. exists o0. split; [exact Ho0|]. rewrite EV, Ev. exact H0. }
  rewrite <- EV in Ed. right.
  destruct (log_in conf s j r es log p L) as (es1 & e & es2 & ps & Ees & WT & Hp); [rewrite El; apply in_elt|].
  assert (EP : p = mkPProp c v) by (destruct p as [x y]; cbn [pp_code pp_data] in *; congruence). subst p. clear Ec Ed El.
  assert (HE1 : Forall event_ok es1) by (rewrite Ees in HE; apply Forall_app in HE; apply HE).
  destruct (ctl_run_ok conf s es1 HN HE1) as (_ & K1 & _ & OR).
  inversion WT as [d code v' Er|k q ndk m ok Q1 Q2 Q3 Q4 Q5 Q6 Q7]; subst e ps.
  - left. exists d. split; [exact Er|]. destruct Hp as [Hp|[]]. injection Hp as -> ->. rewrite Ees. apply in_elt.
  - right. destruct (kept_member _ _ _ _ K1 Q3) as (nd0 & E0' & KK1). assert (nd0 = nd) by congruence. subst nd0.
    pose proof Q6 as ((V1 & _) & _). rewrite (kept_lookup _ _ _ KK1) in V1.
    destruct (OR q (nth_error_In _ _ Q1)) as [H|H|x b a H1 H2 H3|f1 f2 i a obj esv qs ndi Ef H1 H2 H3 H4|f1 f2 k' p' m' ndi nd'' resp b Ef H1 H2 H3 H4 H5 H6 H7].
    + right. exists q, m. auto 10.
    + right. exists q, m. split; [right; rewrite Ees; apply in_or_app; left; exact H|]. auto 10.
    + exfalso. rewrite H3 in Q4. destruct (spoken_read _ _ _ _ H1 H2 Q4) as (X & _). unfold writes in Q7. cbn [In] in *. lia.
    + left. assert (HF : event_ok (CSend i a obj esv qs)).
      { rewrite Ef in HE1. rewrite Forall_forall in HE1. apply HE1, in_elt. }
      destruct HF as (F1 & F2 & F3). rewrite H4 in Q4. destruct (request_arrives _ _ _ _ _ F1 F2 F3 Q4) as (_ & _ & G3 & G4 & G5 & _).
      rewrite G3 in V1. rewrite G4 in Q7. rewrite G5 in Hp.
      rewrite Q2 in H3. apply owner_at in H3 as (ndo & X1 & X2).
      assert (HF1 : Forall event_ok f1) by (rewrite Ef in HE1; apply Forall_app in HE1; apply HE1).
      destruct (ctl_run_ok conf s f1 HN HF1) as (_ & K2 & _). destruct (kept_member _ _ _ _ K2 X1) as (nd0 & Y1 & (_ & _ & Y2 & _)).
      assert (nd0 = nd) by congruence. subst nd0. assert (EA : a = n_addr nd) by congruence. rewrite EA in Ef.
      exists i, obj, esv, qs. split; [rewrite Ees, Ef; apply in_or_app; left; apply in_elt|]. auto.
    + exfalso. assert (HF1 : Forall event_ok f1) by (rewrite Ef in HE1; apply Forall_app in HE1; apply HE1).
      destruct (ctl_run_ok conf s f1 HN HF1) as ((M1 & M2 & M3) & _).
      assert (HB : is_bytes (d_bytes (pk_datagram p'))) by (rewrite Forall_forall in M3; apply M3; eapply nth_error_In, H1).
      destruct (read_received _ _ (pk_type p') HB H3) as (HR & _).
      assert (HM : minv ndi) by (rewrite Forall_forall in M1; apply M1; eapply nth_error_In, H2).
      destruct (handled_facts conf _ _ _ ndi nd'' _ M2 HM HR H2 H4) as (_ & _ & X). destruct (X resp eq_refl) as (_ & (b' & de & ev & EB & HF & HNr) & _).
      assert (b' = b) by congruence. subst b'. rewrite H6 in Q4. destruct (framed_read _ _ _ _ _ HF Q4) as (_ & V). rewrite V in Q7.
      apply HNr. unfold writes in Q7. cbn [In spec_request] in *. tauto.
Qed.

(** ** C87: what a member reads *)

(** The members send requests only. *)
Definition asks_only (e : ctl_event) : Prop :=
  match e with CSend _ _ _ esv _ => In esv spec_request | CInject _ => False | _ => True end.

Lemma response_wire o m nd r : minv nd -> obj_at nd r = Some o -> received m ->
  let c := mkContent (TID m) (DEOJ m) (SEOJ m) (response_esv (m_esv m)) (map to_pair (flat_map (found o) (m_ep m))) in
  in_limits c /\ Bytes (response_for o m) = Ok (wire c).
Proof.
  intros HM HO HR c. pose proof (response_represents o m) as RR. rewrite (received_visited m HR) in RR. fold c in RR.
  destruct (received_header m HR) as (H1 & H2 & H3 & H4 & H5 & H6 & _).
  assert (HI := obj_in nd r o HO).
  assert (HL : in_limits c).
  { unfold in_limits, frame_in_limits. cbn [c c_tid c_seoj c_deoj c_esv c_props]. do 3 (split; [assumption|]). split.
    - unfold response_esv. repeat match goal with |- context [if ?c then _ else _] => destruct c end; vm_compute; intuition discriminate.
    - split.
      + rewrite map_length. assert (X : (length (flat_map (found o) (m_ep m)) <= length (m_ep m))%nat).
        { clear. induction (m_ep m) as [|p l IH]; [cbn; lia|]. cbn [flat_map length]. rewrite app_length.
          assert (Y : (length (found o p) <= 1)%nat) by (unfold found; destruct (LookupProperty _ _); cbn; lia). lia. }
        lia.
      + apply Forall_map, Forall_forall. intros p Hp. apply in_flat_map in Hp as (q & _ & Hp). unfold found in Hp.
        destruct (LookupProperty _ _) as [x|] eqn:EL; [|destruct Hp]. destruct Hp as [<-|[]].
        pose proof HM as ((I1 & I2 & _) & _ & S1 & S2). cbn [core_of k_devs k_profs] in I1, I2. rewrite Forall_forall in I1, I2, S1, S2.
        assert (OK : obj_ok o /\ short o) by (apply in_app_or in HI as [HI|HI]; auto). destruct OK as ((_ & OW) & OS).
        pose proof (wf_lookup _ _ _ OW EL) as (W1 & W2). unfold short in OS. rewrite Forall_forall in OS.
        cbn [to_pair fst snd ToProtocol pp_code pp_data]. split; [exact W1|]. split; [|exact W2].
        apply OS. eapply Lookup_In, EL. }
  split; [exact HL|]. apply represents_Bytes; assumption.
Qed.

(** The answer of a member to a message. *)
Lemma answer_arrives conf s i m nd nd' resp b a x : Forall (fun h => storing (h_cb h)) (l_hosts s) -> minv nd -> received m ->
  nth_error (members s) i = Some nd -> handled conf s i m = Some (nd', Ok (Some resp)) ->
  Bytes resp = Ok b -> ReadMessage (mkDatagram b a) = Ok x -> In (m_esv x) [0x71; 0x72; 0x7E] -> (length b <= 1024)%nat ->
  exists r o, LookupObject nd' (DEOJ m) = Some r /\ obj_at nd' r = Some o /\ In (m_esv m, m_esv x) spec_answer /\
    (exists o0, valid nd m r o0) /\ TID x = TID m /\ SEOJ x = DEOJ m /\ DEOJ x = SEOJ m /\ m_ep x = flat_map (found o) (m_ep m).
Proof.
  intros HS HM HR EN EH EB ER HE Hlen. destruct (handled_facts conf s i m nd nd' _ HS HM HR EN EH) as (G & _ & A).
  destruct (A resp eq_refl) as (_ & _ & [(r & o & r' & o' & HV & E1 & E2 & HQ & ->)|EI]).
  - assert (r' = r). { rewrite (kept_lookup nd nd') in E1 by apply G. destruct HV as ((X & _) & _). congruence. } subst r'.
    destruct (response_wire o' m nd' r (proj1 G) E2 HR) as (HL & EW). assert (b = wire _) by (rewrite EW in EB; injection EB as <-; reflexivity).
    subst b. destruct (wire_arrives _ a HL Hlen) as (y & EY & _ & RY & _). assert (y = x) by congruence. subst y.
    destruct (represents_getters x _ RY HL) as (G1 & G2 & G3 & G4 & _ & G6). cbn [c_tid c_seoj c_deoj c_esv c_props] in *.
    exists r, o'. do 2 (split; [assumption|]). split.
    { rewrite G4. cbn [spec_answer map fst In] in HQ. destruct HQ as [<-|[<-|[<-|[<-|[<-|[]]]]]]; vm_compute; tauto. }
    split; [eauto|]. do 3 (split; [assumption|]). rewrite G6, map_map. rewrite <- (map_id (flat_map _ _)) at 2. apply map_ext. intros []. reflexivity.
  - exfalso. destruct (impossible_bytes m resp HR EI) as (HL & EW). rewrite EW in EB. injection EB as <-.
    pose proof (wire_framed _ HL) as HF. destruct (framed_read _ _ _ _ _ HF ER) as (_ & V). cbn [c_esv] in V. rewrite V in HE.
    revert HE. unfold impossible_esv. repeat match goal with |- context [if ?c then _ else _] => destruct c end; vm_compute; intuition discriminate.
Qed.

Lemma found_codes o esv ps : Forall (accepts o esv) ps -> map pp_code (flat_map (found o) ps) = map pp_code ps.
Proof.
  induction 1 as [|p ps (q & E & _) _ IH]; [reflexivity|]. cbn [flat_map map]. rewrite map_app, IH. unfold found at 1. rewrite E.
  cbn [map ToProtocol app pp_code]. rewrite (Lookup_code _ _ _ E). reflexivity.
Qed.

Lemma found_holds o ps : Forall (fun q => holds o (pp_code q) (pp_data q)) (flat_map (found o) ps).
Proof.
  apply Forall_forall. intros q Hq. apply in_flat_map in Hq as (p & _ & Hq). unfold found in Hq.
  destruct (LookupProperty (o_props o) (pp_code p)) as [x|] eqn:E; [|destruct Hq]. destruct Hq as [<-|[]].
  exists x. cbn [ToProtocol pp_code pp_data]. rewrite (Lookup_code _ _ _ E). auto.
Qed.

(** A response that a member gets to a request to write, to read, or to write and
    read comes from a node it sent such a request to, under its transaction number
    and with the properties it asked for; and at one moment after that request was
    sent, all the values of the response were together in the object.  If it was a
    request to write to a node, the values are the ones last written by it.
    Assumed: the response has at most 1024 bytes (a longer one is cut, C65); it is
    not the answer of a node profile to a search. *)
Theorem C87_response : forall conf s es k p m, controlled s -> l_packets s = [] -> Forall event_ok es -> Forall asks_only es ->
  nth_error (l_packets (ctl_run conf s es)) k = Some p -> ReadMessage (pk_datagram p) = Ok m ->
  In (m_esv m) [0x71; 0x72; 0x7E] -> (length (d_bytes (pk_datagram p)) <= 1024)%nat -> (m_esv m = 0x72 -> SEOJ m <> 0x0EF001) ->
  exists es1 obj esv qs es2 es3 ndi j nd r o,
    es = es1 ++ CSend (pk_to p) (m_from m) obj esv qs :: es2 ++ es3 /\
    In (esv, m_esv m) spec_answer /\ SEOJ m = obj /\ map pp_code (m_ep m) = map pp_code qs /\
    nth_error (members (ctl_run conf s es1)) (pk_to p) = Some ndi /\ TID m = (n_lastTID ndi + 1) mod 65536 /\
    nth_error (members (ctl_run conf s (es1 ++ CSend (pk_to p) (m_from m) obj esv qs :: es2))) j = Some nd /\ n_addr nd = m_from m /\
    LookupObject nd obj = Some r /\ obj_at nd r = Some o /\
    Forall (fun q => holds o (pp_code q) (pp_data q)) (m_ep m) /\
    (writes esv -> j <> O -> Forall (fun q => exists qs1 qs2, qs = qs1 ++ q :: qs2 /\ Forall (fun x => pp_code x <> pp_code q) qs2) (m_ep m)).
Proof.
  intros conf s es k p m HC HP0 HE HA Hp HR He Hlen Hnp. pose proof (controlled_ok s HC) as HN.
  assert (HD : NoDup (map n_addr (members s))) by apply HC.
  destruct (ctl_run_ok conf s es HN HE) as (_ & _ & _ & OR).
  destruct (OR p (nth_error_In _ _ Hp)) as [H|H|x b a H1 H2 H3|f1 f2 i a obj esv qs ndi Ef H1 H2 H3 H4|f1 f2 k' p' m' ndj nd' resp b Ef H1 H2 H3 H4 H5 H6 H7].
  { rewrite HP0 in H. destruct H. }
  { exfalso. rewrite Forall_forall in HA. apply (HA _ H). }
  { exfalso. rewrite H3 in HR. destruct (spoken_read _ _ _ _ H1 H2 HR) as (X & _). cbn [In] in *. lia. }
  { exfalso. assert (HF : event_ok (CSend i a obj esv qs)) by (rewrite Ef in HE; rewrite Forall_forall in HE; apply HE, in_elt).
    assert (HQ : asks_only (CSend i a obj esv qs)) by (rewrite Ef in HA; rewrite Forall_forall in HA; apply HA, in_elt).
    destruct HF as (F1 & F2 & F3). rewrite H4 in HR. destruct (request_arrives _ _ _ _ _ F1 F2 F3 HR) as (_ & _ & _ & G4 & _).
    cbn [asks_only spec_request In] in *. lia. }
  assert (HE1 : Forall event_ok f1) by (rewrite Ef in HE; apply Forall_app in HE; apply HE).
  assert (HA1 : Forall asks_only f1) by (rewrite Ef in HA; apply Forall_app in HA; apply HA).
  destruct (ctl_run_ok conf s f1 HN HE1) as ((M1 & M2 & M3) & K1 & _ & OR1).
  assert (HB : is_bytes (d_bytes (pk_datagram p'))) by (rewrite Forall_forall in M3; apply M3; eapply nth_error_In, H1).
  destruct (read_received _ _ (pk_type p') HB H3) as (HR' & HF').
  assert (HM : minv ndj) by (rewrite Forall_forall in M1; apply M1; eapply nth_error_In, H2).
  rewrite H6 in HR, Hlen. cbn [d_bytes] in Hlen.
  destruct (answer_arrives conf _ _ _ ndj nd' resp b _ m M2 HM HR' H2 H4 H5 HR He Hlen) as (r & o & L1 & L2 & L3 & (o0 & L4) & L5 & L6 & L7 & L8).
  change (m_ep (SetPacketType m' (pk_type p'))) with (m_ep m') in *. change (DEOJ (SetPacketType m' (pk_type p'))) with (DEOJ m') in *.
  change (m_esv (SetPacketType m' (pk_type p'))) with (m_esv m') in *. change (TID (SetPacketType m' (pk_type p'))) with (TID m') in *.
  assert (FM : m_from m = n_addr ndj).
  { unfold ReadMessage in HR. destruct (NewMessageWithBytes _); cbn [bind] in HR; try discriminate HR. injection HR as <-. reflexivity. }
  assert (RW : reads (m_esv m') \/ writes (m_esv m')).
  { unfold reads, writes. cbn [spec_answer In] in L3. cbn [In] in He. cbn [In].
    destruct L3 as [L3|[L3|[L3|[L3|[L3|[]]]]]]; injection L3 as L3 L3'; rewrite <- L3, <- L3' in *; intuition discriminate. }
  destruct (OR1 p' (nth_error_In _ _ H1)) as [H|H|x b' a H1' H2' H3'|g1 g2 i a obj esv qs ndi Eg Q1 Q2 Q3 Q4|g1 g2 k'' p'' m'' ndx nd'' resp' b' Eg Q1 Q2 Q3 Q4 Q5 Q6 Q7].
  { rewrite HP0 in H. destruct H. }
  { exfalso. rewrite Forall_forall in HA1. apply (HA1 _ H). }
  { exfalso. rewrite H3' in H3. destruct (spoken_read _ _ _ _ H1' H2' H3) as (X & Y). unfold reads, writes in RW.
    assert (E62 : m_esv m' = 0x62) by (cbn [In] in *; lia). rewrite E62 in L3. cbn [spec_answer In] in L3.
    assert (E72 : m_esv m = 0x72) by (destruct L3 as [L3|[L3|[L3|[L3|[L3|[]]]]]]; injection L3; congruence).
    apply (Hnp E72). rewrite L6. unfold DEOJ. rewrite Y. vm_compute. reflexivity. }
  2:{ exfalso. assert (HF1 : Forall event_ok g1) by (rewrite Eg in HE1; apply Forall_app in HE1; apply HE1).
      destruct (ctl_run_ok conf s g1 HN HF1) as ((X1 & X2 & X3) & _).
      assert (HB' : is_bytes (d_bytes (pk_datagram p''))) by (rewrite Forall_forall in X3; apply X3; eapply nth_error_In, Q1).
      destruct (read_received _ _ (pk_type p'') HB' Q3) as (HR2 & _).
      assert (HM' : minv ndx) by (rewrite Forall_forall in X1; apply X1; eapply nth_error_In, Q2).
      destruct (handled_facts conf _ _ _ ndx nd'' _ X2 HM' HR2 Q2 Q4) as (_ & _ & X). destruct (X resp' eq_refl) as (_ & (b2 & de & ev & EB & HF2 & HNr) & _).
      assert (b2 = b') by congruence. subst b2. rewrite Q6 in H3. destruct (framed_read _ _ _ _ _ HF2 H3) as (_ & V). rewrite V in RW.
      apply HNr. unfold reads, writes in RW. cbn [In spec_request] in *. tauto. }
  assert (HF : event_ok (CSend i a obj esv qs)) by (rewrite Eg in HE1; rewrite Forall_forall in HE1; apply HE1, in_elt).
  destruct HF as (F1 & F2 & F3). rewrite Q4 in H3. destruct (request_arrives _ _ _ _ _ F1 F2 F3 H3) as (G1 & G2 & G3 & G4 & G5 & G6).
  assert (HG1 : Forall event_ok g1) by (rewrite Eg in HE1; apply Forall_app in HE1; apply HE1).
  destruct (ctl_run_ok conf s g1 HN HG1) as (_ & K2 & _).
  (* who asked *)
  assert (EI : i = pk_to p).
  { assert (HD1 : NoDup (map n_addr (members (ctl_run conf s f1)))) by (rewrite (kept_addrs _ _ K1); exact HD).
    destruct (kept_member _ _ _ _ K2 Q1) as (x0 & X1 & X2). destruct (kept_member' _ _ _ _ K1 X1) as (x1 & X3 & X4).
    pose proof (owner_of _ HD1 i x1 X3) as OW. rewrite G6 in H7.
    assert (n_addr x1 = n_addr ndi) by (destruct X2 as (_ & _ & X2 & _), X4 as (_ & _ & X4 & _); congruence). congruence. }
  subst i.
  (* whom *)
  assert (EA : a = m_from m).
  { apply owner_at in Q3 as (x & X1 & <-). destruct (kept_member _ _ _ _ K2 X1) as (x0 & X2 & X3).
    destruct (kept_member' _ _ _ _ K1 X2) as (x1 & X4 & X5). assert (x1 = ndj) by congruence. subst x1.
    destruct X3 as (_ & _ & X3 & _), X5 as (_ & _ & X5 & _). congruence. }
  subst a. rewrite G3 in *. rewrite G4 in *. rewrite G5 in *.
  exists g1, obj, esv, qs, (g2 ++ [CLan (LDeliver k')]), f2, ndi, (pk_to p'), nd', r, o.
  split; [rewrite Ef, Eg, <- !app_assoc; reflexivity|].
  split; [exact L3|]. split; [exact L6|].
  assert (ST : ctl_run conf s (g1 ++ CSend (pk_to p) (m_from m) obj esv qs :: g2 ++ [CLan (LDeliver k')]) = ctl_step conf (ctl_run conf s f1) (CLan (LDeliver k'))).
  { rewrite <- ctl_run_snoc, Eg, <- app_assoc. reflexivity. }
  assert (NE : nth_error (members (ctl_step conf (ctl_run conf s f1) (CLan (LDeliver k')))) (pk_to p') = Some nd').
  { cbn [ctl_step lan_step]. rewrite H1. set (s1 := with_packets (ctl_run conf s f1) (without (l_packets (ctl_run conf s f1)) k')).
    destruct (receives_cases conf s1 p' ndj H2) as (_ & D). rewrite Q4, H3 in D. destruct D as (nd2 & rep & D1 & D2 & _).
    change (handled conf s1) with (handled conf (ctl_run conf s f1)) in D1. rewrite H4 in D1. injection D1 as <- _.
    rewrite D2. eapply set_nth_there, H2. }
  destruct (handled_facts conf _ _ _ ndj nd' _ M2 HM HR' H2 H4) as (GO & _).
  pose proof L4 as ((V1 & V2) & _ & V3). change (m_esv (SetPacketType m' (pk_type p'))) with (m_esv m') in V3. rewrite G4 in V3. specialize (V3 RW).
  change (m_ep (SetPacketType m' (pk_type p'))) with (m_ep m') in V3. rewrite G5 in V3.
  (* the object after the request *)
  assert (AO : Forall (fun q => exists y, LookupProperty (o_props o) (pp_code q) = Some y) qs /\
    (writes esv -> pk_to p' <> O -> after_writes o0 qs o)).
  { destruct (Nat.eq_dec (pk_to p') O) as [EZ|NZ].
    - assert (nd' = ndj).
      { unfold handled in H4. rewrite EZ in H4. rewrite EZ in H2. cbn [members nth_error] in H2. injection H2 as <-. injection H4 as <- _.
        apply C29_no_change, ctrl_keeps. }
      subst nd'. assert (o0 = o) by congruence. subst o0. split; [|intros _ X; contradiction].
      eapply Forall_impl; [|exact V3]. intros q (y & Y & _). eauto.
    - destruct (pk_to p') as [|jj] eqn:EJ; [contradiction|]. destruct (handled_at _ conf jj _ _ _ H4) as (h & Eh & Em & EN').
      assert (h_node h = ndj) by congruence. subst ndj.
      assert (HSt : storing (h_cb h)) by (rewrite Forall_forall in M2; apply M2; eapply nth_error_In, Eh).
      destruct (C81_writes (h_node h) r [SetPacketType m' (pk_type p')]) as (ps & AW & _); [constructor; [exact HR'|constructor]|].
      destruct (memory_one (h_cb h) HSt (h_app h) (h_node h) (h_node h) None _ r o0 ps HR' I (ConcurrentFacts.same_refl _) V2 AW) as (_ & o2 & Ho2 & AF).
      rewrite <- EN' in Ho2. assert (o2 = o) by congruence. subst o2. split.
      + eapply Forall_impl; [|exact V3]. intros q (y & Y & _). rewrite (AF (pp_code q)), Y. cbn [option_map]. eauto.
      + intros HW _. inversion AW as [|m0 ms' ps' W1 W2 W3 W4|m0 ms' ps' W1 W4]; subst; inversion W4; subst.
        * rewrite app_nil_r in AF. exact AF.
        * exfalso. apply W1.
          destruct (handled_facts conf _ _ _ _ _ _ M2 HM HR' Em H4) as (_ & _ & X). destruct (X resp eq_refl) as (Y & _).
          split; [exact Y|]. split; [eauto|exact HW]. }
  destruct AO as (AO1 & AO2).
  split.
  { rewrite L8. clear -AO1. induction AO1 as [|q l (y & Y) _ IH]; [reflexivity|]. cbn [flat_map map]. rewrite map_app, IH. unfold found at 1. rewrite Y.
    cbn [map app ToProtocol pp_code]. rewrite (Lookup_code _ _ _ Y). reflexivity. }
  split; [exact Q1|]. split; [rewrite L5; exact G1|]. split; [rewrite ST; exact NE|].
  split; [rewrite FM; apply GO|]. split; [exact L1|]. split; [exact L2|]. split; [rewrite L8; apply found_holds|].
  intros HW HJ. specialize (AO2 HW HJ). rewrite L8. apply Forall_forall. intros q Hq. apply in_flat_map in Hq as (x & Hx & Hq). unfold found in Hq.
  destruct (LookupProperty (o_props o) (pp_code x)) as [y|] eqn:EY; [|destruct Hq]. destruct Hq as [<-|[]].
  pose proof (Lookup_code _ _ _ EY) as EC. unfold ToProtocol. cbn [pp_code pp_data]. rewrite EC. rewrite (AO2 (pp_code x)) in EY.
  destruct (LookupProperty (o_props o0) (pp_code x)) as [y0|]; [|discriminate EY]. cbn [option_map] in EY. injection EY as <-. cbn [with_data p_data p_code].
  destruct (overwrite_last qs (pp_code x) (p_data y0)) as [(l1 & z & l2 & Z1 & Z2 & Z3 & Z4)|(Z1 & _)].
  - exists l1, l2. split; [|exact Z4]. match goal with |- _ = _ ++ ?q :: _ => assert (EZ : z = q) by (destruct z as [zc zd]; cbn [pp_code pp_data] in *; congruence) end.
    rewrite <- EZ. exact Z1.
  - exfalso. rewrite Forall_forall in Z1. apply (Z1 x Hx). reflexivity.
Qed.

End Statements.

(** ** A network *)

(** A controller at address 5 and nodes with a light at addresses 7 and 9. *)
Definition ex_ops : list node_op := [NAddDevice PropsNode.ex_dev; NStart None].
Definition ex_ctl : lan unit :=
  mkLan (PropsLan.ex_node [NStart None] 5) newCtrl
    [mkHost (PropsLan.ex_node ex_ops 7) tt store_app; mkHost (PropsLan.ex_node ex_ops 9) tt store_app] [].

Lemma ex_controlled_node ops ip : Forall node_op_ok ops ->
  match node_after ops with
  | Ok nd => forallb (fun o => forallb (fun p => (length (p_data p) <=? 255)%nat) (o_props o)) (n_devices nd ++ n_profiles nd)
  | _ => false
  end = true ->
  library_node (PropsLan.ex_node ops ip) /\
  forall r o c v, obj_at (PropsLan.ex_node ops ip) r = Some o -> holds o c v -> (length v <= 255)%nat.
Proof.
  unfold PropsLan.ex_node. intros HO H. destruct (node_after ops) as [nd| |] eqn:E; [|discriminate H|discriminate H].
  split; [exists ops, nd, (mkAddress ip 3610), false; auto|]. intros r o c v Ho (q & Hq & <-).
  rewrite forallb_forall in H. pose proof (H o (obj_in _ _ _ Ho)) as H'. rewrite forallb_forall in H'.
  apply Nat.leb_le, H'. eapply Lookup_In, Hq.
Qed.

Example ex_controlled : controlled ex_ctl.
Proof.
  destruct PropsNode.ex_dev_ok as (D1 & _). split; [|split; [|split]].
  - unfold members, ex_ctl. cbn [l_node l_hosts map h_node].
    apply Forall_cons; [|apply Forall_cons; [|apply Forall_cons; [|apply Forall_nil]]]; apply ex_controlled_node;
      try (vm_compute; reflexivity); repeat (apply Forall_cons || apply Forall_nil); auto; exact I.
  - apply Forall_cons; [|apply Forall_cons; [|apply Forall_nil]]; apply store_storing.
  - replace (map n_addr (members ex_ctl)) with [mkAddress 5 3610; mkAddress 7 3610; mkAddress 9 3610] by (vm_compute; reflexivity).
    repeat constructor; cbn [In]; intuition discriminate.
  - apply Forall_nil.
Qed.

(** The values of property 0x80 of the lights. *)
Definition lights (s : lan unit) : list (list (res (list Z))) :=
  map (fun h => map (fun o => LookupPropertyData (o_props o) 0x80) (n_devices (h_node h))) (l_hosts s).

(** The controller asks the light at address 7 to store 0x31 and the one at
    address 9 asks it to store 0x35; a request for two bytes is refused; a request
    from outside goes to the light at address 9. *)
Definition ex_events : list ctl_event :=
  [CSend 0 (mkAddress 7 3610) 0x029001 0x61 [mkPProp 0x80 [0x31]];
   CSend 2 (mkAddress 7 3610) 0x029001 0x60 [mkPProp 0x80 [0x35]];
   CSend 2 (mkAddress 7 3610) 0x029001 0x60 [mkPProp 0x80 [0x36; 0x37]];
   CInject (mkPacket 2 UDPUnicastPacket (mkDatagram [0x10; 0x81; 0; 1; 0x05; 0xFF; 1; 2; 0x90; 1; 0x60; 1; 0x80; 1; 0x33] (mkAddress 99 3610)))].

Lemma ex_events_ok : Forall event_ok ex_events.
Proof.
  unfold ex_events. apply Forall_cons; [|apply Forall_cons; [|apply Forall_cons; [|apply Forall_cons; [|apply Forall_nil]]]]; cbn [event_ok pk_datagram d_bytes].
  1-3: split; [lia|]; split; [lia|]; split; [cbn; lia|]; split; [|cbn; lia]; repeat constructor; cbn; try lia; unfold is_byte; lia.
  unfold is_bytes, is_byte. repeat constructor; lia.
Qed.

Example C86_example :
  lights (ctl_run PropsLan.ex_conf ex_ctl ex_events) = [[Ok [0x30]]; [Ok [0x30]]] /\
  lights (ctl_run PropsLan.ex_conf ex_ctl (ex_events ++ [CLan (LDeliver 1); CLan (LDeliver 0)])) = [[Ok [0x31]]; [Ok [0x30]]] /\
  lights (ctl_run PropsLan.ex_conf ex_ctl (ex_events ++ repeat (CLan (LDeliver 0)) 12)) = [[Ok [0x35]]; [Ok [0x33]]].
Proof. split; [|split]; vm_compute; reflexivity. Qed.

(** The requests that are delivered are in the log, the refused one is not. *)
Example C86_log_example : exists log,
  write_log PropsLan.ex_conf ex_ctl 0 (DevRef 0) (ex_events ++ [CLan (LDeliver 1); CLan (LDeliver 0); CLan (LSet 1 0 0x80 [0x41])]) log /\
  overwrite log 0x80 [0x30] = [0x41].
Proof.
  destruct (nth_error (members ex_ctl) 1) as [nd|] eqn:EN; [|vm_compute in EN; discriminate EN].
  destruct (obj_at nd (DevRef 0)) as [o|] eqn:EO; [|exfalso; vm_compute in EN; injection EN as <-; vm_compute in EO; discriminate EO].
  set (es := ex_events ++ _).
  assert (HE : Forall event_ok es).
  { apply Forall_app. split; [apply ex_events_ok|]. repeat (apply Forall_cons; [|]); try apply Forall_nil; try exact I.
    split; [cbn; lia|]. repeat constructor; lia. }
  destruct (run_object PropsLan.ex_conf ex_ctl es 0 (DevRef 0) o (controlled_ok _ ex_controlled) HE) as (o' & log & (nd' & E' & Ho') & L & A).
  { exists nd. auto. }
  exists log. split; [exact L|].
  assert (L0 : option_map p_data (LookupProperty (o_props o) 0x80) = Some [0x30]).
  { vm_compute in EN. injection EN as <-. vm_compute in EO. injection EO as <-. vm_compute. reflexivity. }
  assert (L1 : option_map p_data (LookupProperty (o_props o') 0x80) = Some [0x41]).
  { assert (X : match nth_error (members (ctl_run PropsLan.ex_conf ex_ctl es)) 1 with
      | Some x => match obj_at x (DevRef 0) with Some y => option_map p_data (LookupProperty (o_props y) 0x80) | None => None end
      | None => None end = Some [0x41]) by (vm_compute; reflexivity).
    rewrite E', Ho' in X. exact X. }
  rewrite (A 0x80) in L1. destruct (LookupProperty (o_props o) 0x80) as [q|]; [|discriminate L0]. cbn [option_map with_data p_data] in *.
  injection L0 as E0. rewrite E0 in L1. injection L1 as L1. exact L1.
Qed.

(** The response to the first request, on its way to the controller: it has what
    the request wrote, and not what another member had written before. *)
Example C87_example :
  let s := ctl_run PropsLan.ex_conf ex_ctl (firstn 3 ex_events ++ [CLan (LDeliver 1); CLan (LDeliver 0)]) in
  map (fun p => (pk_to p, d_bytes (pk_datagram p), d_from (pk_datagram p))) (filter (fun p => pk_type p =? UDPUnicastPacket) (tl (l_packets s))) =
  [(O, [0x10; 0x81; 0; 2; 0x02; 0x90; 0x01; 0x0E; 0xF0; 0x01; 0x71; 1; 0x80; 1; 0x31], mkAddress 7 3610)].
Proof. vm_compute. reflexivity. Qed.

Print Assumptions C86_log.
Print Assumptions C86_memory.
Print Assumptions C86_origin.
Print Assumptions C87_response.

(** C81: a device as a memory. *)

From Verif Require Import Go GoFacts Encoding EncodingFacts Protocol Parser MessageFacts ParserFacts
  ProtocolFacts Reader StdDB Property PropertyFacts Object ObjectFacts Spec Node NodeFacts
  Handler HandlerFacts PropsHandler Remote Transport TransportFacts Exchange ExchangeFacts
  PropsRemote PropsExchange Concurrent ConcurrentFacts PropsConcurrent.
From Verif Require PropsProtocol PropsNode.
From Coq Require Import ZifyBool ZifyNat.
Local Open Scope Z_scope.

(** ** Statement vocabulary *)

(** The application sets the data of the property. *)
Definition written (r : objref) (nd : node) (p : pprop) : node :=
  fst (on_object nd r (fun o => SetPropertyData o (pp_code p) (pp_data p))).

(** An application whose objects store what they are asked to write, and that
    otherwise may count, log or ignore what it is told. *)
Definition storing {W : Type} (cb : callbacks W) : Prop :=
  (forall g w nd m, cb_node cb = Some g -> snd (fst (g w nd m)) = nd /\ snd (g w nd m) = false) /\
  (forall r, exists g, cb_listener cb r = Some g /\ forall w nd esv p, snd (g w nd esv p) = false /\
     (writes esv -> snd (fst (g w nd esv p)) = written r nd p) /\ (~ writes esv -> snd (fst (g w nd esv p)) = nd)) /\
  (forall r g w nd esv p, cb_handler cb r = Some g -> snd (fst (g w nd esv p)) = nd /\ snd (g w nd esv p) = false).

(** The node handles messages one after the other. *)
Definition handle_all {W : Type} (cb : callbacks W) (w : W) (nd : node) (ms : list message) : W * node :=
  fold_left (fun s m => let out := ProtocolMessageReceived cb (fst s) (snd s) None m in (out_world out, out_node out)) ms (w, nd).

(** The writes among the messages that the node [nd] accepts for its object [r]. *)
Inductive accepted_writes (nd : node) (r : objref) : list message -> list pprop -> Prop :=
| AWNil : accepted_writes nd r [] []
| AWWrite : forall m ms ps, not_own nd m -> (exists o, valid nd m r o) -> writes (m_esv m) ->
    accepted_writes nd r ms ps -> accepted_writes nd r (m :: ms) (m_ep m ++ ps)
| AWOther : forall m ms ps, ~ (not_own nd m /\ (exists o, valid nd m r o) /\ writes (m_esv m)) ->
    accepted_writes nd r ms ps -> accepted_writes nd r (m :: ms) ps.

(** The value of a property after writes. *)
Definition overwrite (ps : list pprop) (code : Z) (v : list Z) : list Z :=
  fold_left (fun v p => if pp_code p =? code then pp_data p else v) ps v.

(** ** The handler with such an application *)

Section Storing.
Context {W : Type}.
Variable cb : callbacks W.
Hypothesis HC : storing cb.

Definition after (r : objref) (esv : Z) (nd : node) (ps : list pprop) : node :=
  if ESV_IsWriteRequest esv then fold_left (written r) ps nd else nd.

Lemma notify_storing r esv (st : run W) p :
  r_node (notify cb r esv st p) = (if ESV_IsWriteRequest esv then written r (r_node st) p else r_node st) /\
  r_err (notify cb r esv st p) = r_err st.
Proof.
  destruct HC as (_ & H2 & H3). destruct (H2 r) as (g & Eg & Hg). unfold notify, notifyPropertyRequest.
  rewrite Eg. cbn [option_map call_back]. destruct (Hg (r_world st) (r_node st) esv p) as (G1 & G2 & G3).
  destruct (g (r_world st) (r_node st) esv p) as [[w1 n1] e1]. cbn [fst snd] in *. subst e1.
  assert (E1 : n1 = if ESV_IsWriteRequest esv then written r (r_node st) p else r_node st).
  { destruct (ESV_IsWriteRequest esv) eqn:EW; [apply G2, byte_writes, EW|]. apply G3. intros X. apply byte_writes in X. congruence. }
  destruct (cb_handler cb r) as [h|] eqn:Eh; cbn [option_map call_back r_world r_node].
  - destruct (H3 r h w1 n1 esv p Eh) as (K1 & K2). destruct (h w1 n1 esv p) as [[w2 n2] e2]. cbn [fst snd] in *. subst e2 n2.
    cbn [set_err r_node r_err orb]. rewrite Bool.orb_false_r. auto.
  - cbn [set_err r_node r_err orb]. rewrite Bool.orb_false_r. auto.
Qed.

Lemma notify_all r esv ps : forall st : run W,
  let st' := fold_left (notify cb r esv) ps st in r_node st' = after r esv (r_node st) ps /\ r_err st' = r_err st.
Proof.
  unfold after. induction ps as [|p ps IH]; intros st; cbn [fold_left]; [destruct (ESV_IsWriteRequest esv); auto|].
  destruct (IH (notify cb r esv st p)) as (A & B). destruct (notify_storing r esv st p) as (N1 & N2).
  cbv zeta in *. rewrite A, B, N1, N2. destruct (ESV_IsWriteRequest esv); auto.
Qed.

Lemma exec_storing w nd m r st : LookupObject nd (DEOJ m) = Some r -> executeMessageListeners cb w nd m = Ok st ->
  r_node st = after r (m_esv m) nd (visited m) /\ r_err st = false.
Proof.
  intros EL E. pose proof (exec_eq cb m w nd r EL) as X.
  assert (HCN : let '(w1, n1, e1) := call (option_map (fun g w nd => g w nd m) (cb_node cb)) w nd in n1 = nd /\ e1 = false).
  { destruct HC as (H1 & _). destruct (cb_node cb) as [g|] eqn:Eg; cbn [option_map call]; [|auto].
    destruct (H1 g w nd m eq_refl) as (A & B). destruct (g w nd m) as [[w1 n1] e1]. auto. }
  destruct (call _ w nd) as [[w1 n1] e1]. destruct HCN as (-> & ->). destruct X as (cs & X). rewrite X in E. injection E as <-.
  apply (notify_all r (m_esv m) (visited m) (mkRun w1 nd cs false)).
Qed.

(** One message. *)
Lemma handle_one w nd pending m : received m -> pending_ok pending ->
  let nd' := out_node (ProtocolMessageReceived cb w nd pending m) in
  (exists r o, not_own nd m /\ valid nd m r o /\ nd' = after r (m_esv m) nd (m_ep m) /\
     forall k e, In (k, e) (out_calls (ProtocolMessageReceived cb w nd pending m)) -> e = false) \/
  (nd' = nd /\ (~ not_own nd m \/ ~ exists r o, valid nd m r o)).
Proof.
  intros HR HP nd'. destruct (negb (n_self nd) && addr_eqb (m_from m) (n_addr nd)) eqn:EO.
  - right. unfold nd', ProtocolMessageReceived. rewrite EO. split; [reflexivity|]. left. intros [H|H].
    + rewrite H in EO. discriminate EO.
    + apply andb_prop in EO. destruct EO as (_ & EO). apply addr_eqb_iff in EO. contradiction.
  - assert (HO : not_own nd m).
    { unfold not_own. destruct (n_self nd); [left; reflexivity|]. right. intros X. cbn [negb andb] in EO.
      rewrite (proj2 (addr_eqb_iff _ _) X) in EO. discriminate EO. }
    destruct (valid_dec nd m HR) as [(r & o & HV)|HV].
    + left. exists r, o. split; [exact HO|]. split; [exact HV|].
      destruct (handle_valid cb w nd pending m r o HR HP HO HV) as (d & st & E & RO & _ & EQ).
      pose proof (proj1 (proj1 HV)) as EL. destruct (exec_storing w nd m r st EL E) as (A & B).
      unfold nd'. rewrite EQ. cbn [out_node out_calls]. rewrite <- (received_visited m HR). split; [exact A|].
      intros k e I. unfold run_ok in RO. rewrite B in RO. destruct e; [|reflexivity]. exfalso.
      assert (X : existsb snd (r_calls st) = true) by (apply existsb_exists; exists (k, true); auto). congruence.
    + right. split; [|right; exact HV].
      destruct (handle_invalid cb w nd pending m HR HP HO HV) as (d & resp & EQ & _). unfold nd'. rewrite EQ. reflexivity.
Qed.

(** *** What a write does to the objects *)

Lemma written_shape r nd p o : obj_at nd r = Some o ->
  (forall q, LookupProperty (o_props o) (pp_code p) = Some q -> length (pp_data p) = length (p_data q)) ->
  same_shape nd (written r nd p).
Proof.
  intros Ho HL. unfold written, on_object. rewrite Ho.
  assert (OS : forall o', fst (fst (SetPropertyData o (pp_code p) (pp_data p))) = o' -> obj_shape o' = obj_shape o).
  { intros o' <-. rewrite SetPropertyData_setd. unfold obj_shape, setd. cbn. f_equal. apply set_data_shape, HL. }
  destruct (SetPropertyData o (pp_code p) (pp_data p)) as [[o' evs] e]. cbn [fst] in *. specialize (OS o' eq_refl).
  unfold commit. eapply same_trans; [|apply announce_same].
  unfold same_shape, node_shape. destruct r as [i|i]; cbn [put_at with_objects n_devices n_profiles n_addr n_self obj_at] in *;
    rewrite (put_shape _ _ _ _ Ho OS); reflexivity.
Qed.

Lemma core_obj nd nd' r : core_of nd' = core_of nd -> obj_at nd' r = obj_at nd r.
Proof.
  intros H. destruct r as [i|i]; cbn [obj_at]; [pose proof (f_equal k_devs H) as X|pose proof (f_equal k_profs H) as X];
    cbn [core_of k_devs k_profs] in X; rewrite X; reflexivity.
Qed.

Lemma written_at r nd p o : obj_at nd r = Some o -> obj_at (written r nd p) r = Some (setd (pp_code p) (pp_data p) o).
Proof.
  intros Ho. pose proof (on_object_core nd r (fun o => SetPropertyData o (pp_code p) (pp_data p))) as X.
  fold (written r nd p) in X. destruct r as [i|i]; cbn [obj_at] in *.
  - apply (f_equal k_devs) in X. cbn [core_of k_devs put_core] in X. rewrite X. unfold put_list. rewrite Ho.
    rewrite (PropsConcurrent.set_nth_same _ _ _ _ Ho). rewrite SetPropertyData_setd. reflexivity.
  - apply (f_equal k_profs) in X. cbn [core_of k_profs put_core] in X. rewrite X. unfold put_list. rewrite Ho.
    rewrite (PropsConcurrent.set_nth_same _ _ _ _ Ho). rewrite SetPropertyData_setd. reflexivity.
Qed.

Lemma written_other r r' nd p : r' <> r -> obj_at (written r nd p) r' = obj_at nd r'.
Proof.
  intros N. pose proof (on_object_core nd r (fun o => SetPropertyData o (pp_code p) (pp_data p))) as X.
  fold (written r nd p) in X.
  destruct r as [i|i], r' as [j|j]; cbn [obj_at];
    [apply (f_equal k_devs) in X|apply (f_equal k_profs) in X|apply (f_equal k_devs) in X|apply (f_equal k_profs) in X];
    cbn [core_of k_devs k_profs put_core] in X; rewrite X; try reflexivity; unfold put_list;
    destruct (nth_error _ i); try reflexivity; apply set_nth_diff; congruence.
Qed.

Definition fits_in (o : object) (p : pprop) : Prop :=
  forall q, LookupProperty (o_props o) (pp_code p) = Some q -> length (pp_data p) = length (p_data q).

Lemma accepts_fits o esv p : writes esv -> accepts o esv p -> fits_in o p.
Proof. intros HW (q & Hq & _ & H) q' Hq'. destruct (H HW) as (_ & HL). congruence. Qed.

Lemma shape_fits o o' p : obj_shape o' = obj_shape o -> fits_in o p -> fits_in o' p.
Proof.
  intros H HF q' Hq'. assert (A : map prop_shape (o_props o') = map prop_shape (o_props o)) by (unfold obj_shape in H; congruence).
  pose proof (shape_props _ _ (pp_code p) A) as B. rewrite Hq' in B.
  destruct (LookupProperty (o_props o) (pp_code p)) as [q|] eqn:Eq; [|contradiction].
  rewrite (HF q Eq). unfold prop_shape in B. congruence.
Qed.

Lemma shape_accepts o o' esv p : obj_shape o' = obj_shape o -> accepts o esv p -> accepts o' esv p.
Proof.
  intros H (q & Hq & H1 & H2). assert (A : map prop_shape (o_props o') = map prop_shape (o_props o)) by (unfold obj_shape in H; congruence).
  pose proof (shape_props _ _ (pp_code p) A) as B. rewrite Hq in B.
  destruct (LookupProperty (o_props o') (pp_code p)) as [q'|] eqn:Eq; [|contradiction].
  exists q'. unfold prop_shape in B. split; [exact Eq|]. replace (p_get q') with (p_get q) by congruence.
  replace (p_set q') with (p_set q) by congruence. replace (length (p_data q')) with (length (p_data q)) by congruence. auto.
Qed.

(** The object [o'] is [o] after the writes [ps]. *)
Definition after_writes (o : object) (ps : list pprop) (o' : object) : Prop :=
  forall c, LookupProperty (o_props o') c =
    option_map (fun q => with_data q (overwrite ps c (p_data q))) (LookupProperty (o_props o) c).

Lemma after_nil o : after_writes o [] o.
Proof. intros c. destruct (LookupProperty (o_props o) c) as [[]|]; reflexivity. Qed.

Lemma after_app o ps o' ps' o'' : after_writes o ps o' -> after_writes o' ps' o'' -> after_writes o (ps ++ ps') o''.
Proof.
  intros H H' c. rewrite (H' c), (H c). destruct (LookupProperty (o_props o) c) as [q|]; [|reflexivity].
  cbn [option_map]. f_equal. unfold overwrite. rewrite fold_left_app. destruct q; reflexivity.
Qed.

Lemma after_one o p : after_writes o [p] (setd (pp_code p) (pp_data p) o).
Proof.
  intros c. unfold setd. cbn [Object.with_props o_props]. rewrite Lookup_set. cbn [overwrite fold_left].
  destruct (LookupProperty (o_props o) c) as [q|] eqn:E; cbn [option_map]; [|destruct (_ =? _); reflexivity].
  destruct (pp_code p =? c); [reflexivity|]. destruct q; reflexivity.
Qed.

Lemma written_all r ps : forall nd o, obj_at nd r = Some o -> Forall (fits_in o) ps ->
  let nd' := fold_left (written r) ps nd in
  same_shape nd nd' /\ (exists o', obj_at nd' r = Some o' /\ after_writes o ps o') /\
  (forall r', r' <> r -> obj_at nd' r' = obj_at nd r').
Proof.
  induction ps as [|p ps IH]; intros nd o Ho HF; cbn [fold_left].
  - split; [apply same_refl|]. split; [exists o; split; [exact Ho|apply after_nil]|auto].
  - inversion HF as [|? ? H1 H2]; subst. pose proof (written_shape r nd p o Ho H1) as SS.
    pose proof (written_at r nd p o Ho) as Ho1. set (o1 := setd (pp_code p) (pp_data p) o) in *.
    assert (S1 : obj_shape o1 = obj_shape o).
    { unfold o1, obj_shape, setd. cbn [Object.with_props o_codes o_props]. f_equal. apply set_data_shape, H1. }
    destruct (IH (written r nd p) o1 Ho1) as (A & (o' & B & C) & D).
    { eapply Forall_impl; [|exact H2]. intros q. apply shape_fits, S1. }
    split; [exact (same_trans _ _ _ SS A)|]. split.
    + exists o'. split; [exact B|]. change (p :: ps) with ([p] ++ ps). eapply after_app; [apply after_one|exact C].
    + intros r' N. rewrite (D r' N). apply written_other, N.
Qed.

(** *** The history *)

Lemma same_not_own nd nd' m : same_shape nd nd' -> not_own nd' m <-> not_own nd m.
Proof.
  unfold same_shape, node_shape. intros H. unfold not_own. replace (n_self nd') with (n_self nd) by congruence.
  replace (n_addr nd') with (n_addr nd) by congruence. reflexivity.
Qed.

Lemma same_valid_at nd nd' m r : same_shape nd nd' -> (exists o, valid nd' m r o) -> exists o, valid nd m r o.
Proof.
  intros H (o & (A & B) & C & D). destruct (same_at _ _ _ _ (same_sym _ _ H) B) as (o' & B' & S).
  exists o'. split; [split; [rewrite <- (same_lookup _ _ _ H); exact A|exact B']|]. split; [exact C|].
  intros X. eapply Forall_impl; [|exact (D X)]. intros p. apply shape_accepts, S.
Qed.

(** One message, seen from the object [r]. *)
Lemma memory_one w nd nd1 pending m r o ps : received m -> pending_ok pending -> same_shape nd nd1 ->
  obj_at nd1 r = Some o -> accepted_writes nd r [m] ps ->
  let nd2 := out_node (ProtocolMessageReceived cb w nd1 pending m) in
  same_shape nd nd2 /\ exists o', obj_at nd2 r = Some o' /\ after_writes o ps o'.
Proof.
  intros HR HP SS Ho HA nd2. destruct (handle_one w nd1 pending m HR HP) as [(r1 & o1 & HO & HV & EN & _)|(EN & HN)]; fold nd2 in EN; clearbody nd2.
  - unfold after in EN. destruct (ESV_IsWriteRequest (m_esv m)) eqn:EW.
    + apply byte_writes in EW. pose proof HV as ((A1 & A2) & _ & A3).
      destruct (written_all r1 (m_ep m) nd1 o1 A2) as (B & (o' & C & D) & E).
      { eapply Forall_impl; [|exact (A3 (or_intror EW))]. intros p. apply accepts_fits, EW. }
      rewrite <- EN in B, C, E. clear EN. split; [exact (same_trans _ _ _ SS B)|].
      inversion HA as [|? ? ps' W1 W2 W3 W4|? ? ps' W1 W2]; subst.
      * inversion W4; subst. destruct W2 as (o2 & (W2 & _) & _). rewrite <- (same_lookup _ _ _ SS) in W2.
        assert (r1 = r) by congruence. subst r1. assert (o1 = o) by congruence. subst o1.
        exists o'. split; [exact C|]. rewrite app_nil_r. exact D.
      * inversion W2; subst. assert (N : r <> r1).
        { intros ->. apply W1. split; [apply (same_not_own _ _ _ SS), HO|]. split; [|exact EW].
          apply (same_valid_at _ _ _ _ SS). eauto. }
        exists o. split; [rewrite (E r N); exact Ho|apply after_nil].
    + rewrite EN. split; [exact SS|]. exists o. split; [exact Ho|].
      inversion HA as [|? ? ps' W1 W2 W3 W4|? ? ps' W1 W2]; subst.
      * exfalso. apply byte_writes in W3. congruence.
      * inversion W2; subst. apply after_nil.
  - rewrite EN. split; [exact SS|]. exists o. split; [exact Ho|].
    inversion HA as [|? ? ps' W1 W2 W3 W4|? ? ps' W1 W2]; subst.
    + exfalso. destruct HN as [HN|HN]; apply HN; [apply (same_not_own _ _ _ SS), W1|].
      exists r. apply (same_valid_at _ _ _ _ (same_sym _ _ SS)), W2.
    + inversion W2; subst. apply after_nil.
Qed.

Lemma accepted_cons nd r m ms ps : accepted_writes nd r (m :: ms) ps ->
  exists ps1 ps2, ps = ps1 ++ ps2 /\ accepted_writes nd r [m] ps1 /\ accepted_writes nd r ms ps2.
Proof.
  intros H. inversion H as [|? ? ps' W1 W2 W3 W4|? ? ps' W1 W2]; subst.
  - exists (m_ep m), ps'. split; [reflexivity|]. split; [|exact W4]. rewrite <- (app_nil_r (m_ep m)). apply AWWrite; try assumption. constructor.
  - exists [], ps. split; [reflexivity|]. split; [|exact W2]. apply AWOther; [exact W1|constructor].
Qed.

Lemma memory_all nd r ms : forall w nd1 o ps, Forall received ms -> same_shape nd nd1 -> obj_at nd1 r = Some o ->
  accepted_writes nd r ms ps ->
  let nd2 := snd (handle_all cb w nd1 ms) in
  same_shape nd nd2 /\ exists o', obj_at nd2 r = Some o' /\ after_writes o ps o'.
Proof.
  induction ms as [|m ms IH]; intros w nd1 o ps HR SS Ho HA.
  - inversion HA; subst. cbn. split; [exact SS|]. exists o. split; [exact Ho|apply after_nil].
  - inversion HR; subst. destruct (accepted_cons _ _ _ _ _ HA) as (ps1 & ps2 & -> & A1 & A2).
    destruct (memory_one w nd nd1 None m r o ps1) as (B & o1 & B1 & B2); try assumption; [exact I|].
    destruct (IH (out_world (ProtocolMessageReceived cb w nd1 None m)) _ o1 ps2 ltac:(assumption) B B1 A2) as (C & o2 & C1 & C2).
    split; [exact C|]. exists o2. split; [exact C1|]. eapply after_app; eassumption.
Qed.

End Storing.

(** *** The exchange *)

Lemma after_holds o ps o' c v : after_writes o ps o' -> holds o c v -> holds o' c (overwrite ps c v).
Proof.
  intros H (q & Hq & <-). exists (with_data q (overwrite ps c (p_data q))). rewrite (H c), Hq. split; reflexivity.
Qed.

Lemma after_holds' o ps o' c v : after_writes o ps o' -> holds o' c v -> exists v0, holds o c v0 /\ v = overwrite ps c v0.
Proof.
  intros H (q & Hq & <-). rewrite (H c) in Hq. destruct (LookupProperty (o_props o) c) as [q0|] eqn:E; [|discriminate Hq].
  cbn [option_map] in Hq. injection Hq as <-. exists (p_data q0). split; [exists q0; auto|reflexivity].
Qed.

Lemma stored_exchange (W : Type) (cb : callbacks W) w cl nd r o pending pt ca sa obj esv aesv qs vs post a rest :
  storing cb -> library_node cl -> n_running cl = true -> pending_ok pending -> hears nd ca ->
  In (esv, aesv) spec_answer -> 0 <= obj < 2 ^ 24 -> sendable qs ->
  LookupObject nd obj = Some r -> obj_at nd r = Some o -> (reads esv \/ writes esv) -> Forall (accepts o esv) qs ->
  Forall2 (fun p v => exists v0, holds o (pp_code p) v0 /\
    v = overwrite (if ESV_IsWriteRequest esv then qs else []) (pp_code p) v0) qs vs ->
  Forall value vs -> (message_size vs <= 1024)%nat ->
  exists m cl' b b' resp,
    Node_PostMessage cl sa (new_request obj esv qs) (udp_net post a rest) = Ok (cl', [SentUDP 0 b], PostWaits m) /\
    snd (serve_datagram cb w nd pending pt sa (mkDatagram b ca)) = Ok (Some (ca, mkDatagram b' sa)) /\
    ReadMessage (mkDatagram b' sa) = Ok resp /\ m_from resp = sa /\ TID resp = TID m /\
    SEOJ resp = obj /\ DEOJ resp = 0x0EF001 /\ m_esv resp = aesv /\ m_ep resp = with_values qs vs /\
    (hears cl sa -> forall (W' : Type) (cb' : callbacks W') w' pt',
       let s' := serve_datagram cb' w' cl' (Some m) pt' ca (mkDatagram b' sa) in
       out_delivered (fst s') = true /\ snd s' = Ok None).
Proof.
  intros HC Hcl Hrun HP HO HE Hobj HS HL HOb HRW HA HF Hvs Hsize.
  destruct (library_ok cl Hcl) as (HI & HT).
  set (t := (n_lastTID cl + 1) mod 65536).
  set (c := mkContent t 0x0EF001 obj esv (map to_pair qs)).
  set (m := SetSEOJ (SetTID (new_request obj esv qs) t) 0x0EF001).
  assert (RM : represents m c) by apply request_represents.
  assert (HLc : in_limits c).
  { apply sendable_limits; try assumption; [apply tid_small|].
    cbn [spec_answer In] in HE. repeat destruct HE as [HE|HE]; try contradiction; injection HE as <- _; lia. }
  assert (Hlen : (length (wire c) <= 1024)%nat).
  { rewrite wire_length. cbn [c c_props]. rewrite map_map. cbn [to_pair snd]. apply HS. }
  assert (HAc : reads (c_esv c) \/ writes (c_esv c) -> Forall (accepts o (c_esv c)) (map of_pair (c_props c))).
  { intros _. cbn [c c_esv c_props]. rewrite of_to_pair. exact HA. }
  destruct (serves cb w nd pending pt ca sa c aesv r o HLc Hlen HP HO HE HL HOb HAc)
    as (req & HR & RR & NO & EF & E1 & E2 & E3).
  destruct (represents_getters req c RR HLc) as (G1 & G2 & G3 & G4 & _ & G6).
  assert (EPs : m_ep req = qs) by (rewrite G6; cbn [c c_props]; apply of_to_pair).
  cbn [c c_tid c_seoj c_deoj c_esv] in G1, G2, G3, G4.
  assert (HV : valid nd req r o).
  { split; [split; [rewrite G3; exact HL|exact HOb]|]. rewrite G4, EPs. split; [|intros _; exact HA].
    unfold known_esv, spec_request, spec_response, spec_notification. cbn [spec_answer In app] in *.
    repeat destruct HE as [HE|HE]; try contradiction; injection HE as <- <-; tauto. }
  destruct (handle_one cb HC w nd pending req HR HP) as [(r1 & o1 & _ & HV1 & EN & Hok)|(_ & [N|N])];
    [|contradiction|exfalso; apply N; eauto].
  assert (r1 = r) by (destruct HV as ((X & _) & _), HV1 as ((Y & _) & _); congruence). subst r1.
  rewrite G4, EPs in EN.
  assert (HN : LookupObject (out_node (ProtocolMessageReceived cb w nd pending req)) obj = Some r /\
    exists o', obj_at (out_node (ProtocolMessageReceived cb w nd pending req)) r = Some o' /\
      after_writes o (if ESV_IsWriteRequest esv then qs else []) o').
  { rewrite EN. unfold after. destruct (ESV_IsWriteRequest esv) eqn:EW.
    - apply byte_writes in EW. destruct (written_all r qs nd o HOb) as (B & B1 & _).
      + eapply Forall_impl; [|exact HA]. intros p. apply accepts_fits, EW.
      + split; [rewrite (same_lookup _ _ _ B); exact HL|exact B1].
    - split; [exact HL|]. exists o. split; [exact HOb|apply after_nil]. }
  destruct HN as (L' & o' & O' & AW).
  assert (Ec : map fst (c_props c) = map pp_code qs) by (cbn [c c_props]; rewrite map_map; reflexivity).
  assert (F : Forall2 (holds o') (map pp_code qs) vs).
  { clear - HF AW. set (l := if ESV_IsWriteRequest esv then qs else []) in *. clearbody l.
    assert (G : forall qs vs, Forall2 (fun p v => exists v0, holds o (pp_code p) v0 /\ v = overwrite l (pp_code p) v0) qs vs ->
      Forall2 (holds o') (map pp_code qs) vs).
    { induction 1 as [|p v ps us (v0 & H1 & ->) _ IH]; constructor; [apply (after_holds _ _ _ _ _ AW H1)|exact IH]. }
    apply G. exact HF. }
  destruct (E3 Hok r o' vs L' O') as (HLa & Es); [rewrite Ec; exact F|exact Hvs|].
  assert (EL : length (map pp_code qs) = length vs) by (exact (Forall2_len _ _ _ F)).
  assert (Hlen' : (length (wire (answer_content c aesv vs)) <= 1024)%nat).
  { rewrite wire_length. cbn [answer_content c_props]. rewrite Ec, map_snd_combine by exact EL. exact Hsize. }
  destruct (wire_arrives _ sa HLa Hlen') as (x & EX & FX & RX & VX).
  destruct (represents_getters x _ RX HLa) as (K1 & K2 & K3 & K4 & _ & K6).
  destruct (represents_getters m c RM HLc) as (M1 & _ & _ & M4 & _).
  cbn [answer_content c c_tid c_seoj c_deoj c_esv] in K1, K2, K3, K4, M1, M4.
  exists m, (hand_over (with_lastTID cl t) (Unicast sa m)), (wire c), (wire (answer_content c aesv vs)), x.
  split; [apply post_udp; assumption|]. split; [exact Es|]. split; [exact EX|]. split; [exact FX|]. split; [congruence|].
  do 3 (split; [assumption|]). split; [rewrite K6; cbn [answer_content c_props]; rewrite Ec; apply with_values_pairs|].
  intros HH W' cb' w' pt'. cbv zeta.
  apply (client_hears cb' w' _ m pt' ca _ x); try assumption.
  - exact (pending_shape m c RM).
  - apply VX.
  - unfold hears. rewrite FX. exact HH.
  - congruence.
  - rewrite M4, K4. apply (answer_esv _ _ HE).
  - rewrite K4. apply (answer_esv _ _ HE).
Qed.

(** ** C81: what was written is read *)

(** [v] is what was last written to property [c], or [v0] if nothing was. *)
Definition last_write (ps : list pprop) (c : Z) (v0 v : list Z) : Prop :=
  (exists ps1 p ps2, ps = ps1 ++ p :: ps2 /\ pp_code p = c /\ pp_data p = v /\ Forall (fun q => pp_code q <> c) ps2) \/
  (Forall (fun q => pp_code q <> c) ps /\ v = v0).

Lemma overwrite_last ps c v0 : last_write ps c v0 (overwrite ps c v0).
Proof.
  revert v0. induction ps as [|p ps IH]; intros v0; [right; split; [constructor|reflexivity]|].
  change (overwrite (p :: ps) c v0) with (overwrite ps c (if pp_code p =? c then pp_data p else v0)).
  destruct (IH (if pp_code p =? c then pp_data p else v0)) as [(ps1 & q & ps2 & E1 & E2 & E3 & E4)|(E1 & E2)].
  - left. exists (p :: ps1), q, ps2. split; [rewrite E1; reflexivity|auto].
  - rewrite E2. destruct (Z.eqb_spec (pp_code p) c) as [E|E].
    + left. exists [], p, ps. auto.
    + right. split; [constructor; assumption|reflexivity].
Qed.

(** Every history has one list of accepted writes. *)
Theorem C81_writes : forall nd r ms, Forall received ms ->
  exists ps, accepted_writes nd r ms ps /\ forall ps', accepted_writes nd r ms ps' -> ps' = ps.
Proof.
  intros nd r. induction 1 as [|m ms HR _ (ps & A & U)].
  - exists []. split; [constructor|]. intros ps' H. inversion H. reflexivity.
  - assert (D : (not_own nd m /\ (exists o, valid nd m r o) /\ writes (m_esv m)) \/
               ~ (not_own nd m /\ (exists o, valid nd m r o) /\ writes (m_esv m))).
    { destruct (ESV_IsWriteRequest (m_esv m)) eqn:EW.
      2:{ right. intros (_ & _ & X). apply byte_writes in X. congruence. }
      apply byte_writes in EW. destruct (valid_dec nd m HR) as [(r1 & o & HV)|N]; [|right; intros (_ & (o & X) & _); apply N; eauto].
      assert (DR : r1 = r \/ r1 <> r) by (destruct r1 as [i|i], r as [j|j]; try (right; discriminate);
        destruct (Nat.eq_dec i j); [left|right|left|right]; congruence).
      destruct DR as [-> |N].
      2:{ right. intros (_ & (o' & (X & _) & _) & _). destruct HV as ((Y & _) & _). congruence. }
      unfold not_own. destruct (n_self nd); [left; split; [auto|]; split; [eauto|exact EW]|].
      destruct (address_dec (m_from m) (n_addr nd)); [right; intros ([X|X] & _); [discriminate X|contradiction]|].
      left. split; [auto|]. split; [eauto|exact EW]. }
    destruct D as [(D1 & D2 & D3)|D].
    + exists (m_ep m ++ ps). split; [apply AWWrite; assumption|]. intros ps' H.
      inversion H as [|? ? ? W1 W2 W3 W4|? ? ? W1 W2]; subst; [f_equal; apply U; assumption|]. exfalso. apply W1. auto.
    + exists ps. split; [apply AWOther; assumption|]. intros ps' H.
      inversion H as [|? ? ? W1 W2 W3 W4|? ? ? W1 W2]; subst; [exfalso; apply D; auto|apply U; assumption].
Qed.

(** The object has the properties it had, each with what was last written to it. *)
Theorem C81_memory : forall (W : Type) (cb : callbacks W) w nd ms r o ps,
  storing cb -> Forall received ms -> obj_at nd r = Some o -> accepted_writes nd r ms ps ->
  exists o', obj_at (snd (handle_all cb w nd ms)) r = Some o' /\ o_codes o' = o_codes o /\
    (forall c v0, holds o c v0 -> exists v, holds o' c v /\ last_write ps c v0 v /\ length v = length v0) /\
    (forall c v, holds o' c v -> exists v0, holds o c v0).
Proof.
  intros W cb w nd ms r o ps HC HR Ho HA.
  destruct (memory_all cb HC nd r ms w nd o ps HR (same_refl nd) Ho HA) as (SS & o' & Ho' & AW).
  exists o'. split; [exact Ho'|]. destruct (same_at _ _ _ _ SS Ho) as (o2 & Ho2 & S2).
  assert (o2 = o') by congruence. subst o2. split; [unfold obj_shape in S2; congruence|]. split.
  - intros c v0 H. exists (overwrite ps c v0). pose proof (after_holds _ _ _ _ _ AW H) as X.
    split; [exact X|]. split; [apply overwrite_last|].
    destruct H as (q & Hq & Ev), X as (q' & Hq' & Ev').
    assert (A : map prop_shape (o_props o') = map prop_shape (o_props o)) by (unfold obj_shape in S2; congruence).
    pose proof (shape_props _ _ c A) as B. rewrite Hq, Hq' in B. unfold prop_shape in B. rewrite <- Ev', <- Ev. congruence.
  - intros c v H. destruct (after_holds' _ _ _ _ _ AW H) as (v0 & H0 & _). eauto.
Qed.

Lemma accepted_bytes nd r ms ps : Forall received ms -> accepted_writes nd r ms ps -> Forall (fun p => is_bytes (pp_data p)) ps.
Proof.
  intros HR HA. revert HR. induction HA as [|m ms ps _ _ _ _ IH|m ms ps _ _ IH]; intros HR; [constructor| |]; inversion HR; subst; [|auto].
  apply Forall_app. split; [|auto]. eapply Forall_impl; [|apply received_props; assumption]. intros p (_ & H). exact H.
Qed.

Lemma overwrite_value ps c v0 : Forall (fun p => is_bytes (pp_data p)) ps -> length (overwrite ps c v0) = length v0 ->
  value v0 -> value (overwrite ps c v0).
Proof.
  intros HB HL (H1 & H2). split; [lia|]. destruct (overwrite_last ps c v0) as [(ps1 & p & ps2 & E & _ & <- & _)|(_ & ->)]; [|exact H2].
  rewrite Forall_forall in HB. apply (HB p). rewrite E. apply in_or_app. right. left. reflexivity.
Qed.

Section Reading.
Context {W : Type}.
Variables (cb : callbacks W) (w : W) (cl nd : node) (ms : list message) (r : objref) (o : object) (ps qs : list pprop).
Variables (vs0 : list (list Z)) (obj : Z) (ca sa : address).
Hypothesis HC : storing cb.
Hypothesis HR : Forall received ms.
Hypothesis HA : accepted_writes nd r ms ps.
Hypothesis Ho : obj_at nd r = Some o.
Hypothesis HL : LookupObject nd obj = Some r.
Hypothesis HO : hears nd ca.
Hypothesis HF : Forall2 (holds o) (map pp_code qs) vs0.
Hypothesis Hvs : Forall value vs0.
Hypothesis Hsize : (message_size vs0 <= 1024)%nat.

Lemma history_facts esv : (reads esv \/ writes esv) -> Forall (accepts o esv) qs -> sendable qs ->
  let nd1 := snd (handle_all cb w nd ms) in
  exists o1, obj_at nd1 r = Some o1 /\ after_writes o ps o1 /\ LookupObject nd1 obj = Some r /\ hears nd1 ca /\
    Forall (accepts o1 esv) qs /\
    exists vs, Forall value vs /\ message_size vs = message_size vs0 /\
      Forall2 (fun p v => exists v0, holds o1 (pp_code p) v0 /\
        v = overwrite (if ESV_IsWriteRequest esv then qs else []) (pp_code p) v0) qs vs /\
      Forall2 (fun p v => exists v0, holds o (pp_code p) v0 /\
        v = overwrite (ps ++ (if ESV_IsWriteRequest esv then qs else [])) (pp_code p) v0) qs vs.
Proof.
  intros HRW HQ HS nd1.
  destruct (memory_all cb HC nd r ms w nd o ps HR (same_refl nd) Ho HA) as (SS & o1 & Ho1 & AW). fold nd1 in SS, Ho1.
  destruct (same_at _ _ _ _ SS Ho) as (o2 & Ho2 & S2). assert (o2 = o1) by congruence. subst o2.
  exists o1. split; [exact Ho1|]. split; [exact AW|]. split; [rewrite (same_lookup _ _ _ SS); exact HL|]. split.
  { unfold hears in *. unfold same_shape, node_shape in SS. replace (n_self nd1) with (n_self nd) by congruence.
    replace (n_addr nd1) with (n_addr nd) by congruence. exact HO. }
  split; [eapply Forall_impl; [|exact HQ]; intros p; apply shape_accepts, S2|].
  set (l := if ESV_IsWriteRequest esv then qs else []).
  (* lengths and bytes after further writes that fit *)
  assert (HLn : forall c v0, holds o c v0 -> length (overwrite (ps ++ l) c v0) = length v0).
  { assert (X : exists o3, after_writes o1 l o3 /\ obj_shape o3 = obj_shape o1).
    { unfold l. destruct (ESV_IsWriteRequest esv) eqn:EW.
      - apply byte_writes in EW. destruct (written_all r qs nd1 o1 Ho1) as (B & (o3 & C & D) & _).
        + rewrite Forall_forall in HQ |- *. intros p Hp. apply (shape_fits _ _ _ S2), (accepts_fits _ _ _ EW), HQ, Hp.
        + exists o3. split; [exact D|]. destruct (same_at _ _ _ _ B Ho1) as (o4 & E4 & S4). congruence.
      - exists o1. split; [apply after_nil|reflexivity]. }
    destruct X as (o3 & D & S3). intros c v0 H. pose proof (after_app _ _ _ _ _ AW D) as AW3.
    pose proof (after_holds _ _ _ _ _ AW3 H) as (q' & Hq' & Ev'). destruct H as (q & Hq & Ev).
    assert (A : map prop_shape (o_props o3) = map prop_shape (o_props o)) by (unfold obj_shape in S2, S3; congruence).
    pose proof (shape_props _ _ c A) as B. rewrite Hq, Hq' in B. unfold prop_shape in B. rewrite <- Ev', <- Ev. congruence. }
  assert (HBy : Forall (fun p => is_bytes (pp_data p)) (ps ++ l)).
  { apply Forall_app. split; [exact (accepted_bytes _ _ _ _ HR HA)|]. unfold l. destruct (ESV_IsWriteRequest esv); [|constructor].
    destruct HS as (_ & HS & _). eapply Forall_impl; [|exact HS]. intros p (_ & _ & X). exact X. }
  exists (map (fun pv => overwrite (ps ++ l) (pp_code (fst pv)) (snd pv)) (combine qs vs0)).
  clearbody l. clear HQ HS HRW Ho1 Ho2 SS. clear HL HO HR HA.
  enough (G : forall qs vs0, Forall2 (holds o) (map pp_code qs) vs0 -> Forall value vs0 ->
    let vs := map (fun pv => overwrite (ps ++ l) (pp_code (fst pv)) (snd pv)) (combine qs vs0) in
    Forall value vs /\ message_size vs = message_size vs0 /\
    Forall2 (fun p v => exists v0, holds o1 (pp_code p) v0 /\ v = overwrite l (pp_code p) v0) qs vs /\
    Forall2 (fun p v => exists v0, holds o (pp_code p) v0 /\ v = overwrite (ps ++ l) (pp_code p) v0) qs vs)
    by (exact (G qs vs0 HF Hvs)).
  clear HF Hvs Hsize qs vs0. intros l1. induction l1 as [|p l1 IH]; intros vs1' H1 H2; inversion H1 as [|? v0 ? vs1 K1 K2]; subst; cbn [combine map].
  - repeat split; constructor.
  - inversion H2 as [|? ? V1 V2]; subst. destruct (IH vs1 K2 V2) as (A & B & C & D). cbn [fst snd].
    split; [constructor; [|exact A]; apply overwrite_value; [exact HBy|apply HLn, K1|exact V1]|].
    split; [unfold message_size in *; cbn [fold_right]; rewrite B, (HLn _ _ K1); reflexivity|].
    split; (constructor; [|assumption]).
    + exists (overwrite ps (pp_code p) v0). split; [apply (after_holds _ _ _ _ _ AW K1)|]. unfold overwrite. rewrite fold_left_app. reflexivity.
    + exists v0. split; [exact K1|reflexivity].
Qed.
End Reading.

(** Full statement: a read of a device after any history of messages returns,
    for each property asked for, what was last written to it by an accepted
    write, or what it held before. Proved for values that fit into a datagram of
    1024 bytes together. *)
Theorem C81_read_partial : forall (W : Type) (cb : callbacks W) w cl nd ms r o ps qs vs0 pending pt ca sa obj post a rest,
  storing cb -> Forall received ms -> accepted_writes nd r ms ps ->
  library_node cl -> n_running cl = true -> pending_ok pending -> hears nd ca ->
  0 <= obj < 2 ^ 24 -> sendable qs -> LookupObject nd obj = Some r -> obj_at nd r = Some o -> Forall (accepts o 0x62) qs ->
  Forall2 (holds o) (map pp_code qs) vs0 -> Forall value vs0 -> (message_size vs0 <= 1024)%nat ->
  let s := handle_all cb w nd ms in
  exists m cl' b b' resp vs,
    Node_PostMessage cl sa (new_request obj 0x62 qs) (udp_net post a rest) = Ok (cl', [SentUDP 0 b], PostWaits m) /\
    snd (serve_datagram cb (fst s) (snd s) pending pt sa (mkDatagram b ca)) = Ok (Some (ca, mkDatagram b' sa)) /\
    ReadMessage (mkDatagram b' sa) = Ok resp /\ m_from resp = sa /\ TID resp = TID m /\
    SEOJ resp = obj /\ DEOJ resp = 0x0EF001 /\ m_esv resp = 0x72 /\ m_ep resp = with_values qs vs /\
    Forall2 (fun q v => exists v0, holds o (pp_code q) v0 /\ last_write ps (pp_code q) v0 v) qs vs /\
    (hears cl sa -> forall (W' : Type) (cb' : callbacks W') w' pt',
       let s' := serve_datagram cb' w' cl' (Some m) pt' ca (mkDatagram b' sa) in
       out_delivered (fst s') = true /\ snd s' = Ok None).
Proof.
  intros W cb w cl nd ms r o ps qs vs0 pending pt ca sa obj post a rest HC HR HA Hcl Hrun HP HO Hobj HS HL Ho HQ HF Hvs Hsize s.
  assert (RW : reads 0x62 \/ writes 0x62) by (left; left; reflexivity).
  destruct (history_facts cb w nd ms r o ps qs vs0 obj ca HC HR HA Ho HL HO HF Hvs 0x62 RW HQ HS)
    as (o1 & Ho1 & _ & HL1 & HO1 & HQ1 & vs & V1 & V2 & V3 & V4). fold s in Ho1, HL1, HO1.
  destruct (stored_exchange W cb (fst s) cl (snd s) r o1 pending pt ca sa obj 0x62 0x72 qs vs post a rest)
    as (m & cl' & b & b' & resp & E1 & E2 & E3 & E4 & E5 & E6 & E7 & E8 & E9 & E10); try assumption;
    [cbn [spec_answer In]; tauto|rewrite V2; exact Hsize|].
  exists m, cl', b, b', resp, vs. do 9 (split; [assumption|]). split; [|exact E10].
  cbn [ESV_IsWriteRequest Z.eqb Pos.eqb orb] in V4.
  clear - V4. change (if ESV_IsWriteRequest 98 then qs else []) with (@nil pprop) in V4. rewrite app_nil_r in V4.
  induction V4 as [|q v qs vs (v0 & H1 & ->) _ IH]; constructor; [|exact IH]. exists v0. split; [exact H1|apply overwrite_last].
Qed.

(** A write with response is confirmed with what was written. *)
Theorem C81_confirmed_partial : forall (W : Type) (cb : callbacks W) w cl nd ms r o ps qs vs0 pending pt ca sa obj post a rest,
  storing cb -> Forall received ms -> accepted_writes nd r ms ps ->
  library_node cl -> n_running cl = true -> pending_ok pending -> hears nd ca ->
  0 <= obj < 2 ^ 24 -> sendable qs -> LookupObject nd obj = Some r -> obj_at nd r = Some o -> Forall (accepts o 0x61) qs ->
  Forall2 (holds o) (map pp_code qs) vs0 -> Forall value vs0 -> (message_size vs0 <= 1024)%nat -> NoDup (map pp_code qs) ->
  let s := handle_all cb w nd ms in
  exists m cl' b b' resp,
    Node_PostMessage cl sa (new_request obj 0x61 qs) (udp_net post a rest) = Ok (cl', [SentUDP 0 b], PostWaits m) /\
    snd (serve_datagram cb (fst s) (snd s) pending pt sa (mkDatagram b ca)) = Ok (Some (ca, mkDatagram b' sa)) /\
    ReadMessage (mkDatagram b' sa) = Ok resp /\ m_from resp = sa /\ TID resp = TID m /\
    SEOJ resp = obj /\ DEOJ resp = 0x0EF001 /\ m_esv resp = 0x71 /\ m_ep resp = qs /\
    (hears cl sa -> forall (W' : Type) (cb' : callbacks W') w' pt',
       let s' := serve_datagram cb' w' cl' (Some m) pt' ca (mkDatagram b' sa) in
       out_delivered (fst s') = true /\ snd s' = Ok None).
Proof.
  intros W cb w cl nd ms r o ps qs vs0 pending pt ca sa obj post a rest HC HR HA Hcl Hrun HP HO Hobj HS HL Ho HQ HF Hvs Hsize ND s.
  assert (RW : reads 0x61 \/ writes 0x61) by (right; right; left; reflexivity).
  destruct (history_facts cb w nd ms r o ps qs vs0 obj ca HC HR HA Ho HL HO HF Hvs 0x61 RW HQ HS)
    as (o1 & Ho1 & _ & HL1 & HO1 & HQ1 & vs & V1 & V2 & V3 & V4). fold s in Ho1, HL1, HO1.
  destruct (stored_exchange W cb (fst s) cl (snd s) r o1 pending pt ca sa obj 0x61 0x71 qs vs post a rest)
    as (m & cl' & b & b' & resp & E1 & E2 & E3 & E4 & E5 & E6 & E7 & E8 & E9 & E10); try assumption;
    [cbn [spec_answer In]; tauto|rewrite V2; exact Hsize|].
  exists m, cl', b, b', resp. do 8 (split; [assumption|]). split; [|exact E10]. rewrite E9.
  clear - V3 ND. change (if ESV_IsWriteRequest 97 then qs else []) with qs in V3.
  assert (G : forall l p v0, In p l -> NoDup (map pp_code l) -> overwrite l (pp_code p) v0 = pp_data p).
  { clear. intros l p v0 Hp ND. destruct (overwrite_last l (pp_code p) v0) as [(l1 & q & l2 & E1 & E2 & <- & _)|(E & _)].
    - f_equal. assert (Hq : In q l) by (rewrite E1; apply in_or_app; right; left; reflexivity). clear E1.
      induction l as [|x l IH]; [destruct Hp|]. inversion ND; subst. destruct Hp as [-> |Hp], Hq as [-> |Hq].
      + reflexivity.
      + exfalso. match goal with N : ~ In _ _ |- _ => apply N end. rewrite <- E2. apply in_map, Hq.
      + exfalso. match goal with N : ~ In _ _ |- _ => apply N end. rewrite E2. apply in_map, Hp.
      + auto.
    - exfalso. rewrite Forall_forall in E. exact (E p Hp eq_refl). }
  set (l := qs) in V3 at 1. assert (HI : forall p, In p qs -> In p l) by auto.
  assert (NDl : NoDup (map pp_code l)) by exact ND. clearbody l. clear ND.
  unfold with_values. induction V3 as [|q v qs vs (v0 & _ & ->) _ IH]; [reflexivity|]. cbn [combine map fst snd].
  rewrite (G l q v0 (HI q (or_introl eq_refl)) NDl), IH by (intros p Hp; apply HI; right; exact Hp). destruct q. reflexivity.
Qed.

(** With an application that does not store, an accepted write is answered as
    carried out, with the values as they were, and nothing is written. *)
Theorem C81_unstored_refuted : forall (W : Type) (cb : callbacks W) w nd pending pt ca sa r o c qs vs0,
  keeps_node cb -> in_limits c -> (length (wire c) <= 1024)%nat -> pending_ok pending -> hears nd ca ->
  c_esv c = 0x61 -> LookupObject nd (c_deoj c) = Some r -> obj_at nd r = Some o ->
  qs = map of_pair (c_props c) -> Forall (accepts o 0x61) qs ->
  Forall2 (holds o) (map pp_code qs) vs0 -> Forall value vs0 -> map pp_data qs <> vs0 ->
  let s := serve_datagram cb w nd pending pt sa (mkDatagram (wire c) ca) in
  out_node (fst s) = nd /\
  ((forall k e, In (k, e) (out_calls (fst s)) -> e = false) ->
   snd s = Ok (Some (ca, mkDatagram (wire (answer_content c 0x71 vs0)) sa)) /\ map snd (c_props c) <> vs0).
Proof.
  intros W cb w nd pending pt ca sa r o c qs vs0 HK HLc Hlen HP HO HE HL Ho -> HA HF Hvs HN s.
  assert (HE' : In (c_esv c, 0x71) spec_answer) by (rewrite HE; cbn [spec_answer In]; tauto).
  assert (HA' : reads (c_esv c) \/ writes (c_esv c) -> Forall (accepts o (c_esv c)) (map of_pair (c_props c))) by (intros _; rewrite HE; exact HA).
  destruct (serves cb w nd pending pt ca sa c 0x71 r o HLc Hlen HP HO HE' HL Ho HA') as (req & _ & _ & _ & _ & E1 & _ & E3).
  fold s in E1, E3. rewrite E1.
  assert (EN : out_node (ProtocolMessageReceived cb w nd pending req) = nd) by (apply C29_no_change, HK).
  split; [exact EN|]. intros Hok. rewrite EN in E3. rewrite !map_map in HN, HF. cbn [of_pair pp_code pp_data] in HN, HF.
  destruct (E3 Hok r o vs0 HL Ho) as (_ & Es); [|exact Hvs|].
  - exact HF.
  - split; [exact Es|exact HN].
Qed.

(** ** Examples *)

Lemma store_storing : storing store_app.
Proof.
  split; [discriminate|]. split; [|discriminate]. intros r. exists (store r). split; [reflexivity|].
  intros w nd esv p. unfold store. destruct (ESV_IsWriteRequest esv) eqn:E; cbn [fst snd].
  - split; [reflexivity|]. split; [reflexivity|]. intros N. exfalso. apply N, byte_writes, E.
  - split; [reflexivity|]. split; [|reflexivity]. intros X. apply byte_writes in X. congruence.
Qed.

(** A write, a write of two bytes into a property of one byte, a write that is
    answered, a write of a property that cannot be written, and a read. *)
Definition ex_writes : list message :=
  [ex_msg 0x60 1 [0x80; 1; 0x31]; ex_msg 0x60 1 [0x80; 2; 0x38; 0x39]; ex_msg 0x61 2 [0xB1; 1; 0x66; 0x80; 1; 0x32];
   ex_msg 0x60 2 [0x80; 1; 0x33; 0xB0; 2; 1; 2]; ex_msg 0x62 1 [0x80; 0]].

Example C81_writes_example : accepted_writes (ex_node true) (DevRef 0) ex_writes
  [mkPProp 0x80 [0x31]; mkPProp 0xB1 [0x66]; mkPProp 0x80 [0x32]].
Proof.
  assert (R : forall esv opc area, is_bytes (ex_bytes esv opc area) ->
    valid_b (ex_node true) (ex_msg esv opc area) = false -> ~ (exists o, valid (ex_node true) (ex_msg esv opc area) (DevRef 0) o)).
  { intros esv opc area H E (o & HV). assert (X : valid_b (ex_node true) (ex_msg esv opc area) = true)
      by (exact (proj2 (valid_iff _ _ (PropsHandler.ex_received esv opc area H)) (ex_intro _ (DevRef 0) (ex_intro _ o HV)))).
    rewrite E in X. discriminate X. }
  assert (V : forall esv opc area, is_bytes (ex_bytes esv opc area) -> LookupObject (ex_node true) (DEOJ (ex_msg esv opc area)) = Some (DevRef 0) ->
    valid_b (ex_node true) (ex_msg esv opc area) = true -> exists o, valid (ex_node true) (ex_msg esv opc area) (DevRef 0) o).
  { intros esv opc area H L E. apply (proj1 (valid_iff _ _ (PropsHandler.ex_received esv opc area H))) in E. destruct E as (r & o & HV).
    pose proof HV as ((X & _) & _). rewrite L in X. injection X as <-. exists o. exact HV. }
  assert (E : [mkPProp 0x80 [0x31]; mkPProp 0xB1 [0x66]; mkPProp 0x80 [0x32]] =
    m_ep (ex_msg 0x60 1 [0x80; 1; 0x31]) ++ m_ep (ex_msg 0x61 2 [0xB1; 1; 0x66; 0x80; 1; 0x32]) ++ []) by (vm_compute; reflexivity).
  rewrite E. clear E. unfold ex_writes.
  assert (W0 : m_esv (ex_msg 0x60 1 [0x80; 1; 0x31]) = 0x60) by (vm_compute; reflexivity).
  assert (W1 : m_esv (ex_msg 0x61 2 [0xB1; 1; 0x66; 0x80; 1; 0x32]) = 0x61) by (vm_compute; reflexivity).
  assert (W2 : m_esv (ex_msg 0x62 1 [0x80; 0]) = 0x62) by (vm_compute; reflexivity).
  apply AWWrite.
  - left. reflexivity.
  - apply V; [unfold is_bytes, is_byte; repeat constructor; lia|vm_compute; reflexivity|vm_compute; reflexivity].
  - rewrite W0. left. reflexivity.
  - apply AWOther. { intros (_ & X & _). revert X. apply R; [unfold is_bytes, is_byte; repeat constructor; lia|vm_compute; reflexivity]. }
    apply AWWrite.
    + left. reflexivity.
    + apply V; [unfold is_bytes, is_byte; repeat constructor; lia|vm_compute; reflexivity|vm_compute; reflexivity].
    + rewrite W1. right. left. reflexivity.
    + apply AWOther. { intros (_ & X & _). revert X. apply R; [unfold is_bytes, is_byte; repeat constructor; lia|vm_compute; reflexivity]. }
      apply AWOther; [|constructor]. intros (_ & _ & X). rewrite W2 in X. unfold writes in X. cbn [In] in X. lia.
Qed.

Example C81_example :
  let s := handle_all store_app tt (ex_node true) ex_writes in
  map (fun o => map p_data (o_props o)) (n_devices (snd s)) = [[[0x32]; [0x32; 0x33]; [0x66]]] /\
  reply_bytes (out_reply (ProtocolMessageReceived store_app (fst s) (snd s) None (ex_msg 0x62 2 [0xB0; 0; 0x80; 0]))) =
    Ok (Some [0x10; 0x81; 0x12; 0x34; 0x02; 0x90; 0x01; 0x05; 0xFF; 0x01; 0x72; 2; 0xB0; 2; 0x32; 0x33; 0x80; 1; 0x32]).
Proof. split; vm_compute; reflexivity. Qed.

(** The same write without an application: confirmed with the old value. *)
Example C81_unstored_example :
  reply_bytes (out_reply (ProtocolMessageReceived (no_callbacks unit) tt (ex_node true) None (ex_msg 0x61 1 [0x80; 1; 0x31]))) =
    Ok (Some [0x10; 0x81; 0x12; 0x34; 0x02; 0x90; 0x01; 0x05; 0xFF; 0x01; 0x71; 1; 0x80; 1; 0x30]).
Proof. vm_compute. reflexivity. Qed.

Print Assumptions C81_writes.
Print Assumptions C81_memory.
Print Assumptions C81_read_partial.
Print Assumptions C81_confirmed_partial.
Print Assumptions C81_unstored_refuted.

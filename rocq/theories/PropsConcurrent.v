(** Theorems about messages that are handled at the same time: C76. *)

From Coq Require Import Permutation.
From Verif Require Import Go GoFacts Encoding EncodingFacts Protocol Parser MessageFacts ParserFacts
  ProtocolFacts StdDB Property PropertyFacts Object ObjectFacts Spec Node NodeFacts Handler HandlerFacts
  PropsHandler Remote Concurrent ConcurrentFacts.
From Coq Require Import ZifyBool ZifyNat.
Local Open Scope Z_scope.

(** Every theorem is about [sys_run cb (mkSys w nd []) es] for any callbacks [cb],
    application state [w], node [nd] and any schedule [es]: messages arrive, their
    handlings make steps and the application acts on its own, in any order. *)

Lemma NoDup_app_one {A} (l : list A) x : NoDup l -> ~ In x l -> NoDup (l ++ [x]).
Proof.
  intros H N. apply NoDup_rev in H. rewrite <- (rev_involutive (l ++ [x])), rev_app_distr. apply NoDup_rev.
  cbn [rev app]. constructor; [rewrite <- in_rev; exact N|exact H].
Qed.

Section Requests.
Context {W : Type}.
Implicit Types (cb : callbacks W) (w : W) (es : list (event W)).

(** ** A handling that is not interrupted is the handler of C29 - C36 *)

Theorem C76_alone : forall cb w nd hs m,
  let out := ProtocolMessageReceived cb w nd None m in
  exists k, sys_run cb (mkSys w nd hs) (EArrive m :: repeat (EStep (length hs)) k) =
    mkSys (out_world out) (out_node out) (hs ++ [(m, HDone (out_reply out))]).
Proof.
  intros cb w nd hs m out. destruct (alone cb m w nd) as [k Hk]. exists k.
  change (sys_run cb (mkSys w nd (hs ++ [(m, HArrived)])) (repeat (EStep (length hs)) k) =
    mkSys (out_world out) (out_node out) (hs ++ [(m, HDone (out_reply out))])).
  rewrite (sys_alone cb m hs [] k), Hk. reflexivity.
Qed.

(** ** Applications that change values only *)

(** Neither the callbacks, called with a property the object accepts, nor the
    other actions of the application change which objects and properties there
    are, their attributes and sizes. *)
Definition values_only cb es : Prop :=
  (forall g w nd m, cb_node cb = Some g -> same_shape nd (snd (fst (g w nd m)))) /\
  (forall r g w nd esv p o, cb_listener cb r = Some g \/ cb_handler cb r = Some g -> obj_at nd r = Some o ->
     (reads esv \/ writes esv -> accepts o esv p) -> same_shape nd (snd (fst (g w nd esv p)))) /\
  (forall f w nd, In (EApp f) es -> same_shape nd (snd (f w nd))).

Lemma values_prefix cb es es' : values_only cb (es ++ es') -> values_only cb es.
Proof. intros (A & B & C). repeat (split; [assumption|]). intros f w nd I. apply C, in_or_app. auto. Qed.

Lemma run_app cb s es es' : sys_run cb s (es ++ es') = sys_run cb (sys_run cb s es) es'.
Proof. apply fold_left_app. Qed.

Definition own nd m : bool := negb (n_self nd) && addr_eqb (m_from m) (n_addr nd).

(** The data in [a] was the data of the property asked for in [p] at a moment at
    which the message, number [i], had arrived and was not yet answered. *)
Definition moment cb w nd es (i : nat) (m : message) (r : objref) (p a : pprop) : Prop :=
  pp_code a = pp_code p /\
  exists pre suf ph o q, es = pre ++ suf /\
    let s := sys_run cb (mkSys w nd []) pre in
    nth_error (s_handlings s) i = Some (m, ph) /\ (forall reply, ph <> HDone reply) /\
    obj_at (s_node s) r = Some o /\ LookupProperty (o_props o) (pp_code p) = Some q /\ p_data q = pp_data a.

Lemma moment_later cb w nd es e i m r p a : moment cb w nd es i m r p a -> moment cb w nd (es ++ [e]) i m r p a.
Proof.
  intros (A & pre & suf & ph & o & q & E & B). split; [exact A|]. exists pre, (suf ++ [e]), ph, o, q.
  split; [rewrite E, app_assoc; reflexivity|exact B].
Qed.

Definition rejection (m : message) : res (option message) := r <- NewImpossibleMessageWithMessage m ;; Ok (Some r).
Definition built_response (m : message) (ps : list pprop) : message :=
  fold_left AddProperty ps (NewResponseMessageWithMessage m).

(** What is known of a handling from where it stands. *)
Definition hinv cb w nd es (i : nat) (m : message) (ph : phase) : Prop :=
  match ph with
  | HArrived => True
  | HCheck r todo => own nd m = false /\ LookupObject nd (DEOJ m) = Some r /\ ESV_IsValid (m_esv m) = true /\
      checked (m_esv m) = true /\ exists o done, obj_at nd r = Some o /\ visited m = done ++ todo /\
      forallb (check_property o (m_esv m)) done = true
  | HRefuse => own nd m = false /\ valid_b nd m = false
  | HListeners => own nd m = false /\ valid_b nd m = true
  | HListen r todo _ => own nd m = false /\ valid_b nd m = true /\ LookupObject nd (DEOJ m) = Some r /\
      exists done, visited m = done ++ todo
  | HHandle r p todo _ => own nd m = false /\ valid_b nd m = true /\ LookupObject nd (DEOJ m) = Some r /\
      exists done, visited m = done ++ p :: todo
  | HRespond => own nd m = false /\ valid_b nd m = true /\ ESV_IsResponseRequired (m_esv m) = true
  | HAnswer r todo acc => own nd m = false /\ valid_b nd m = true /\ LookupObject nd (DEOJ m) = Some r /\
      ESV_IsResponseRequired (m_esv m) = true /\
      exists done ps, visited m = done ++ todo /\ acc = built_response m ps /\
      (checked (m_esv m) = true -> Forall2 (moment cb w nd es i m r) done ps)
  | HDone reply =>
      own nd m = true /\ reply = Ok None \/
      own nd m = false /\ valid_b nd m = false /\ reply = rejection m \/
      own nd m = false /\ valid_b nd m = true /\
        (reply = Err ErrOther \/
         ESV_IsResponseRequired (m_esv m) = false /\ reply = Ok None \/
         ESV_IsResponseRequired (m_esv m) = true /\ exists r ps, LookupObject nd (DEOJ m) = Some r /\
           reply = Ok (Some (built_response m ps)) /\
           (checked (m_esv m) = true -> Forall2 (moment cb w nd es i m r) (visited m) ps))
  end.

Lemma Forall2_impl {A B} (R S : A -> B -> Prop) l l' : (forall a b, R a b -> S a b) -> Forall2 R l l' -> Forall2 S l l'.
Proof. intros H. induction 1; constructor; auto. Qed.

Lemma hinv_later cb w nd es e i m ph : hinv cb w nd es i m ph -> hinv cb w nd (es ++ [e]) i m ph.
Proof.
  assert (F : forall r l ps, (checked (m_esv m) = true -> Forall2 (moment cb w nd es i m r) l ps) ->
    checked (m_esv m) = true -> Forall2 (moment cb w nd (es ++ [e]) i m r) l ps).
  { intros r l ps H C. eapply Forall2_impl; [|apply H, C]. intros a b. apply moment_later. }
  destruct ph; cbn [hinv]; try exact (fun h => h).
  - intros (A & B & C & D & done & ps & E & G & H). do 4 (split; [assumption|]). exists done, ps. auto.
  - intros [A|[A|(A & B & [C|[C|(C & r & ps & D & E & G)]])]]; auto 8. right; right. do 2 (split; [assumption|]).
    right; right. split; [assumption|]. exists r, ps. auto.
Qed.

Lemma valid_b_lookup nd m : valid_b nd m = true -> exists r o, LookupObject nd (DEOJ m) = Some r /\ obj_at nd r = Some o /\
  ESV_IsValid (m_esv m) = true /\ (checked (m_esv m) = true -> forallb (check_property o (m_esv m)) (visited m) = true).
Proof.
  unfold valid_b. destruct (LookupObject nd (DEOJ m)) as [r|]; [|discriminate]. destruct (obj_at nd r) as [o|] eqn:EO; [|discriminate].
  intros H. exists r, o. apply Bool.andb_true_iff in H. destruct H as [A B]. do 3 (split; [auto|]).
  intros C. rewrite C in B. exact B.
Qed.

Lemma check_found o esv p : check_property o esv p = true -> exists q, LookupProperty (o_props o) (pp_code p) = Some q.
Proof. unfold check_property. destruct (LookupProperty _ _) as [q|]; [eauto|discriminate]. Qed.

Lemma hinv_step cb w nd es i m ph :
  let s := sys_run cb (mkSys w nd []) es in same_shape nd (s_node s) ->
  nth_error (s_handlings s) i = Some (m, ph) -> hinv cb w nd es i m ph ->
  hinv cb w nd (es ++ [EStep i]) i m (snd (hstep cb m (s_world s) (s_node s) ph)).
Proof.
  intros s SS HI H.
  destruct ph as [|r [|p t]| | |r [|p t] e|r p t e| |r [|p t] acc|rep]; cbn [hstep].
  - pose proof (same_own _ _ m SS) as SO. fold (own (s_node s) m) in SO |- *. fold (own nd m) in SO. rewrite SO, (same_lookup _ _ _ SS).
    destruct (own nd m) eqn:EO; cbn [snd hinv]; [auto|].
    destruct (LookupObject nd (DEOJ m)) as [r|] eqn:EL; cbn [snd hinv].
    2:{ split; [assumption|]. unfold valid_b. rewrite EL. reflexivity. }
    destruct (LookupObject_at _ _ _ EL) as (o & Eo & _).
    destruct (ESV_IsValid (m_esv m)) eqn:EV; cbn [negb snd hinv].
    2:{ split; [assumption|]. unfold valid_b. rewrite EL, Eo, EV. reflexivity. }
    fold (checked (m_esv m)). destruct (checked (m_esv m)) eqn:EC; cbn [snd hinv].
    + rewrite loop_visited. do 4 (split; [auto|]). exists o, [].
      split; [assumption|]. split; reflexivity.
    + split; [assumption|]. unfold valid_b. rewrite EL, Eo, EV, EC. reflexivity.
  - destruct H as (A & B & C & D & o & done & E & F & G). cbn [snd hinv]. split; [assumption|].
    unfold valid_b. rewrite app_nil_r in F. rewrite B, E, C, D, F, G. reflexivity.
  - destruct H as (A & B & C & D & o & done & E & F & G). destruct (same_at _ _ _ _ SS E) as (o' & Eo' & So). rewrite Eo'.
    rewrite (same_check _ _ _ _ So). destruct (check_property o (m_esv m) p) eqn:EP; cbn [snd hinv].
    + repeat (split; [assumption|]). exists o, (done ++ [p]). split; [assumption|]. rewrite <- app_assoc. split; [assumption|].
      rewrite forallb_app, G. cbn [forallb]. rewrite EP. reflexivity.
    + split; [assumption|]. unfold valid_b. rewrite B, E, C, D, F, forallb_app. cbn [forallb]. rewrite EP, !Bool.andb_false_r. reflexivity.
  - cbn [snd hinv]. right; left. destruct H. auto.
  - destruct H as (A & B). rewrite (same_lookup _ _ _ SS).
    destruct (valid_b_lookup _ _ B) as (r & o & EL & Eo & _). rewrite EL.
    destruct (call _ (s_world s) (s_node s)) as [[w1 n1] e1]. cbn [snd hinv]. rewrite loop_visited.
    repeat (split; [assumption|]). exists []. reflexivity.
  - destruct H as (A & B & C & done & D). destruct e; cbn [snd hinv].
    + right; right. auto.
    + destruct (ESV_IsResponseRequired (m_esv m)) eqn:ER; cbn [negb snd hinv].
      * auto.
      * right; right. auto 8.
  - destruct H as (A & B & C & done & D). destruct (call _ (s_world s) (s_node s)) as [[w1 n1] e1]. cbn [snd hinv].
    repeat (split; [assumption|]). exists done. assumption.
  - destruct H as (A & B & C & done & D). destruct (call _ (s_world s) (s_node s)) as [[w1 n1] e1]. cbn [snd hinv].
    repeat (split; [assumption|]). exists (done ++ [p]). rewrite <- app_assoc. assumption.
  - destruct H as (A & B & C). rewrite (same_lookup _ _ _ SS).
    destruct (valid_b_lookup _ _ B) as (r & o & EL & Eo & _). rewrite EL. cbn [snd hinv]. rewrite loop_visited.
    repeat (split; [assumption|]). exists [], []. repeat split. intros _. constructor.
  - destruct H as (A & B & C & D & done & ps & E & F & G). cbn [snd hinv]. right; right. repeat (split; [assumption|]).
    right; right. split; [assumption|]. exists r, ps. split; [assumption|]. split; [rewrite F; reflexivity|].
    intros X. rewrite app_nil_r in E. rewrite E. eapply Forall2_impl; [|apply G, X]. intros a b. apply moment_later.
  - destruct H as (A & B & C & D & done & ps & E & F & G).
    destruct (valid_b_lookup _ _ B) as (r' & o & EL & Eo & _ & CK). assert (r' = r) by congruence. subst r'.
    destruct (same_at _ _ _ _ SS Eo) as (o' & Eo' & So). rewrite Eo'.
    destruct (LookupProperty (o_props o') (pp_code p)) as [q|] eqn:EQ; cbn [snd hinv].
    + repeat (split; [assumption|]). exists (done ++ [p]), (ps ++ [ToProtocol q]). rewrite <- app_assoc. split; [assumption|].
      split. { rewrite F. unfold built_response. rewrite fold_left_app. reflexivity. }
      intros X. apply Forall2_app.
      * eapply Forall2_impl; [|apply G, X]. intros a b. apply moment_later.
      * constructor; [|constructor]. split; [apply (Lookup_code _ _ _ EQ)|].
        exists es, [EStep i], (HAnswer r (p :: t) acc), o', q. fold s. split; [reflexivity|]. split; [assumption|].
        split; [intros reply; discriminate|]. split; [assumption|]. split; [assumption|reflexivity].
    + repeat (split; [assumption|]). exists (done ++ [p]), ps. rewrite <- app_assoc. split; [assumption|].
      split; [assumption|]. intros X. exfalso. specialize (CK X). rewrite E, forallb_app in CK. cbn [forallb] in CK.
      rewrite !Bool.andb_true_iff in CK. destruct CK as (_ & CP & _). rewrite <- (same_check _ _ _ _ So) in CP.
      destruct (check_found _ _ _ CP) as [q Hq]. congruence.
  - apply hinv_later. exact H.
Qed.

Lemma set_nth_same {A} (l : list A) : forall i x y, nth_error l i = Some x -> nth_error (set_nth l i y) i = Some y.
Proof. induction l as [|a l IH]; intros [|i] x y H; try discriminate H; [reflexivity|]. exact (IH i x y H). Qed.

Lemma set_nth_diff {A} (l : list A) : forall i j y, i <> j -> nth_error (set_nth l i y) j = nth_error l j.
Proof. induction l as [|a l IH]; intros [|i] [|j] y H; try reflexivity; [congruence|]. apply IH. congruence. Qed.

Lemma accepted_call cb w nd r m p (f : option (W -> node -> Z -> pprop -> W * node * bool)) done todo :
  (forall g w nd esv p o, f = Some g -> obj_at nd r = Some o ->
     (reads esv \/ writes esv -> accepts o esv p) -> same_shape nd (snd (fst (g w nd esv p)))) ->
  forall nd0, same_shape nd0 nd -> valid_b nd0 m = true -> LookupObject nd0 (DEOJ m) = Some r ->
  visited m = done ++ p :: todo ->
  same_shape nd (snd (fst (call (option_map (fun g w nd => g w nd (m_esv m) p) f) w nd))).
Proof.
  intros H nd0 SS VB EL EV. destruct f as [g|]; cbn [option_map call]; [|apply same_refl].
  destruct (valid_b_lookup _ _ VB) as (r' & o & EL' & Eo & _ & CK). assert (r' = r) by congruence. subst r'.
  destruct (same_at _ _ _ _ SS Eo) as (o' & Eo' & So). apply (H g w nd (m_esv m) p o' eq_refl Eo').
  intros X. apply (check_accepts _ _ _ X). rewrite (same_check _ _ _ _ So).
  specialize (CK (proj2 (checked_iff _) X)). rewrite EV, forallb_app in CK. cbn [forallb] in CK.
  rewrite !Bool.andb_true_iff in CK. tauto.
Qed.

Lemma hstep_same cb w nd es i m w1 nd1 ph : values_only cb es -> same_shape nd nd1 -> hinv cb w nd es i m ph ->
  same_shape nd1 (snd (fst (hstep cb m w1 nd1 ph))).
Proof.
  intros (HN & HC & _) SS HI.
  destruct ph as [|r [|p t]| | |r [|p t] e|r p t e| |r [|p t] acc|rep]; cbn [hstep]; try apply same_refl.
  - destruct (_ && _)%bool; [apply same_refl|]. destruct (LookupObject _ _); [|apply same_refl].
    destruct (negb _); [apply same_refl|]. destruct (_ || _)%bool; apply same_refl.
  - destruct (obj_at nd1 r); [|apply same_refl]. destruct (check_property _ _ _); apply same_refl.
  - destruct (LookupObject _ _) as [r|]; [|apply same_refl]. unfold call.
    destruct (cb_node cb) as [g|] eqn:E; cbn [option_map]; [|apply same_refl].
    specialize (HN g w1 nd1 m eq_refl). destruct (g w1 nd1 m) as [[w2 n2] e2]. exact HN.
  - destruct e; [apply same_refl|]. destruct (negb _); apply same_refl.
  - destruct HI as (A & B & C & done & D).
    pose proof (accepted_call cb w1 nd1 r m p (cb_listener cb r) done t
      (fun g w nd esv p o E => HC r g w nd esv p o (or_introl E)) nd SS B C D) as X.
    destruct (call _ w1 nd1) as [[w2 n2] e2]. exact X.
  - destruct HI as (A & B & C & done & D).
    pose proof (accepted_call cb w1 nd1 r m p (cb_handler cb r) done t
      (fun g w nd esv p o E => HC r g w nd esv p o (or_intror E)) nd SS B C D) as X.
    destruct (call _ w1 nd1) as [[w2 n2] e2]. exact X.
  - destruct (LookupObject _ _); apply same_refl.
  - destruct (obj_at nd1 r); apply same_refl.
Qed.

Lemma run_inv cb w nd es : values_only cb es ->
  same_shape nd (s_node (sys_run cb (mkSys w nd []) es)) /\
  forall i m ph, nth_error (s_handlings (sys_run cb (mkSys w nd []) es)) i = Some (m, ph) -> hinv cb w nd es i m ph.
Proof.
  induction es as [|e es IH] using rev_ind; intros HV.
  { split; [apply same_refl|]. intros [|i] m ph; discriminate. }
  pose proof (values_prefix _ _ _ HV) as HV'. destruct (IH HV') as [SS HI]. clear IH.
  rewrite run_app. set (s := sys_run cb (mkSys w nd []) es) in *.
  cbn [sys_run fold_left]. destruct e as [m'|j|f]; cbn [sys_step].
  - split; [exact SS|]. intros i m ph. cbn [s_handlings]. destruct (Nat.lt_ge_cases i (length (s_handlings s))) as [L|L].
    + rewrite nth_error_app1 by assumption. intros H. apply hinv_later, (HI i m ph H).
    + rewrite nth_error_app2 by assumption. destruct (i - length (s_handlings s))%nat as [|k]; cbn; [|destruct k; discriminate].
      intros [= <- <-]. exact I.
  - destruct (nth_error (s_handlings s) j) as [[m' ph']|] eqn:EJ.
    2:{ split; [exact SS|]. intros i m ph H. apply hinv_later, (HI i m ph H). }
    pose proof (hinv_step cb w nd es j m' ph' SS EJ (HI j m' ph' EJ)) as ST. fold s in ST.
    pose proof (hstep_same cb w nd es j m' (s_world s) (s_node s) ph' HV' SS (HI j m' ph' EJ)) as SA.
    destruct (hstep cb m' (s_world s) (s_node s) ph') as [[w1 n1] ph1]. cbn [s_handlings s_node fst snd] in *.
    split; [eapply same_trans; eassumption|]. intros i m ph. destruct (Nat.eq_dec j i) as [->|N].
    + rewrite (set_nth_same _ _ _ (m', ph1) EJ). intros [= <- <-]. exact ST.
    + rewrite set_nth_diff by assumption. intros H. apply hinv_later, (HI i m ph H).
  - destruct HV as (_ & _ & HA).
    specialize (HA f (s_world s) (s_node s) (in_or_app es [EApp f] _ (or_intror (or_introl eq_refl)))).
    destruct (f (s_world s) (s_node s)) as [w1 n1]. cbn [s_handlings s_node snd] in *.
    split; [eapply same_trans; eassumption|]. intros i m ph H. apply hinv_later, (HI i m ph H).
Qed.

Lemma hinv_run cb w nd es i m ph : values_only cb es ->
  nth_error (s_handlings (sys_run cb (mkSys w nd []) es)) i = Some (m, ph) -> hinv cb w nd es i m ph.
Proof. intros HV. apply (run_inv cb w nd es HV). Qed.

(** ** C76: requests handled at the same time *)

Lemma own_not nd m : not_own nd m -> own nd m = false.
Proof. apply own_false. Qed.

(** Whether a request is accepted does not depend on what is handled besides. *)
Theorem C76_verdict : forall cb w nd es i m reply,
  values_only cb es -> received m -> not_own nd m ->
  nth_error (s_handlings (sys_run cb (mkSys w nd []) es)) i = Some (m, HDone reply) ->
  ((exists r o, valid nd m r o) ->
     reply = Err ErrOther \/ ~ In (m_esv m) (map fst spec_answer) /\ reply = Ok None \/
     exists resp, In (m_esv m) (map fst spec_answer) /\ reply = Ok (Some resp) /\
       TID resp = TID m /\ SEOJ resp = DEOJ m /\ DEOJ resp = SEOJ m /\ m_esv resp = response_esv (m_esv m)) /\
  (~ (exists r o, valid nd m r o) ->
     exists resp, NewImpossibleMessageWithMessage m = Ok resp /\ reply = Ok (Some resp) /\
       TID resp = TID m /\ SEOJ resp = DEOJ m /\ DEOJ resp = SEOJ m /\ m_esv resp = impossible_esv (m_esv m)).
Proof.
  intros cb w nd es i m reply HV HR HO HI. pose proof (hinv_run cb w nd es i m _ HV HI) as H. cbn [hinv] in H.
  rewrite (own_not _ _ HO) in H. pose proof (valid_iff nd m HR) as VI.
  pose proof (received_header m HR) as (H1 & H2 & H3 & H4 & H5 & H6 & H7).
  destruct H as [[H _]|[(_ & VB & E)|(_ & VB & E)]]; [discriminate H| |]; rewrite VB in VI; split; intros HX.
  - apply VI in HX. discriminate HX.
  - destruct (impossible_facts m H1 H2 H3 H4) as (resp & E' & T & S & D & V & _). exists resp.
    unfold rejection in E. rewrite E' in E. cbn [bind] in E. auto 10.
  - destruct E as [E|[[E1 E2]|(E1 & r & ps & EL & E2 & F)]]; [auto| |].
    + right; left. split; [|assumption]. intros I. apply required_iff in I. congruence.
    + right; right. exists (built_response m ps). split; [apply required_iff; assumption|]. split; [assumption|].
      destruct (response_facts m H1 H2 H3) as (R1 & R2 & R3 & R4 & R5 & R6).
      destruct (fold_AddProperty_rest ps (NewResponseMessageWithMessage m)) as (_ & _ & E3 & E4 & E5 & E6).
      unfold built_response, TID, SEOJ, DEOJ in *. rewrite E3, E4, E5, E6. auto.
  - exfalso. apply HX, VI. reflexivity.
Qed.

(** The response to a read or write request has one value for every property
    asked for, in order, each of which the object held while the request was
    being handled. *)
Theorem C76_values_partial : forall cb w nd es i m r o resp,
  values_only cb es -> received m -> not_own nd m -> valid nd m r o -> reads (m_esv m) \/ writes (m_esv m) ->
  nth_error (s_handlings (sys_run cb (mkSys w nd []) es)) i = Some (m, HDone (Ok (Some resp))) ->
  OPC resp = OPC m /\ Forall2 (moment cb w nd es i m r) (m_ep m) (m_ep resp).
Proof.
  intros cb w nd es i m r o resp HV HR HO HVA HE HI. pose proof (hinv_run cb w nd es i m _ HV HI) as H. cbn [hinv] in H.
  rewrite (own_not _ _ HO) in H. pose proof (proj2 (valid_iff nd m HR) (ex_intro _ r (ex_intro _ o HVA))) as VB.
  rewrite VB in H.
  destruct H as [[H _]|[(_ & H & _)|(_ & _ & [E|[[_ E]|(E1 & r' & ps & EL & E2 & F)]])]]; try discriminate.
  assert (r' = r) by (destruct HVA as ((A & _) & _); congruence). subst r'.
  specialize (F (proj2 (checked_iff _) HE)). rewrite (received_visited m HR) in F.
  pose proof (received_header m HR) as (H1 & H2 & H3 & H4 & H5 & H6 & H7).
  destruct (response_facts m H1 H2 H3) as (R1 & R2 & R3 & R4 & R5 & R6).
  pose proof (fold_AddProperty_ep ps (NewResponseMessageWithMessage m)) as E7. rewrite R5 in E7. cbn [app] in E7.
  assert (Hl : 0 <= m_opc (NewResponseMessageWithMessage m) < 256) by (unfold OPC in R6; lia).
  pose proof (fold_AddProperty_opc ps (NewResponseMessageWithMessage m) Hl) as E8.
  injection E2 as E2. subst resp. unfold built_response. rewrite E7. split; [|assumption].
  unfold OPC in *. rewrite E8, R6. unfold len. rewrite <- (Forall2_len _ _ _ F), <- H6. apply Z.mod_small. lia.
Qed.

(** Requests with one property, Get and SetI, are handled as if one after the
    other in some order. *)

(** One message after the other: what is left, and the replies. *)
Fixpoint one_by_one cb w nd (ms : list message) : W * node * list (res (option message)) :=
  match ms with
  | [] => (w, nd, [])
  | m :: ms =>
      let out := ProtocolMessageReceived cb w nd None m in
      let '(w', nd', rs) := one_by_one cb (out_world out) (out_node out) ms in (w', nd', out_reply out :: rs)
  end.

(** An application with one handler per object, which does nothing when a
    property is read. *)
Definition device_app cb : Prop :=
  cb_node cb = None /\
  (forall r, cb_listener cb r = None \/ cb_handler cb r = None) /\
  (forall r g w nd p, cb_listener cb r = Some g \/ cb_handler cb r = Some g -> g w nd 0x62 p = (w, nd, false)).

Definition single (m : message) : Prop :=
  (m_esv m = 0x60 \/ m_esv m = 0x62) /\ exists p, visited m = [p].

Lemma one_by_one_app cb ms ms' : forall w nd w1 nd1 rs, one_by_one cb w nd ms = (w1, nd1, rs) ->
  one_by_one cb w nd (ms ++ ms') = let '(w2, nd2, rs') := one_by_one cb w1 nd1 ms' in (w2, nd2, rs ++ rs').
Proof.
  induction ms as [|m ms IH]; intros w nd w1 nd1 rs H; cbn [one_by_one app] in *.
  - injection H as <- <- <-. destruct (one_by_one cb w nd ms') as [[? ?] ?]. reflexivity.
  - destruct (one_by_one cb (out_world _) (out_node _) ms) as [[w2 nd2] rs2] eqn:E.
    rewrite (IH _ _ _ _ _ E). injection H as <- <- <-. destruct (one_by_one cb w2 nd2 ms') as [[? ?] ?]. reflexivity.
Qed.

Lemma pmr_single cb w nd m r p : own nd m = false -> valid_b nd m = true -> LookupObject nd (DEOJ m) = Some r ->
  visited m = [p] -> cb_node cb = None ->
  let '(w1, n1, e1) := call (option_map (fun g w nd => g w nd (m_esv m) p) (cb_listener cb r)) w nd in
  let '(w2, n2, e2) := call (option_map (fun g w nd => g w nd (m_esv m) p) (cb_handler cb r)) w1 n1 in
  let out := ProtocolMessageReceived cb w nd None m in
  out_world out = w2 /\ out_node out = n2 /\
  out_reply out = if (e1 || e2)%bool then Err ErrOther
                  else if negb (ESV_IsResponseRequired (m_esv m)) then Ok None
                  else r <- createResponseMessageForRequestMessage n2 m ;; Ok (Some r).
Proof.
  intros HO HV HL HP HN. pose proof (exec_eq cb m w nd r HL) as X. rewrite HN in X. cbn [option_map call] in X.
  destruct X as [cs X]. rewrite HP in X. cbn [fold_left] in X.
  unfold ProtocolMessageReceived. fold (own nd m). rewrite HO. cbn [isResponseMessage]. rewrite validate_eq, HV, X.
  unfold notify, notifyPropertyRequest, call_back, call. cbn [r_world r_node r_calls r_err].
  destruct (cb_listener cb r) as [g|]; cbn [option_map].
  - destruct (g w nd (m_esv m) p) as [[w1 n1] e1]. cbn [r_world r_node r_calls r_err].
    destruct (cb_handler cb r) as [h|]; cbn [option_map].
    + destruct (h w1 n1 (m_esv m) p) as [[w2 n2] e2]. cbn [set_err r_world r_node r_calls r_err orb].
      destruct (e1 || e2)%bool; [auto|]. destruct (negb _); auto.
    + cbn [set_err r_world r_node r_calls r_err orb]. rewrite Bool.orb_false_r.
      destruct e1; [auto|]. destruct (negb _); auto.
  - destruct (cb_handler cb r) as [h|]; cbn [option_map].
    + cbn [r_world r_node r_calls r_err]. destruct (h w nd (m_esv m) p) as [[w2 n2] e2]. cbn [set_err r_world r_node r_calls r_err orb].
      destruct e2; [auto|]. destruct (negb _); auto.
    + cbn [set_err r_world r_node r_calls r_err orb]. destruct (negb _); auto.
Qed.

(** The reply that is already decided. *)
Definition decided_write (m : message) (e : bool) : option (res (option message)) :=
  if m_esv m =? 0x62 then None else Some (if e then Err ErrOther else Ok None).
Definition promised cb (m : message) (ph : phase) : option (res (option message)) :=
  match ph with
  | HDone reply => Some reply
  | HAnswer _ [] acc => Some (Ok (Some acc))
  | HListen _ [] e => decided_write m e
  | HHandle r _ _ e => match cb_listener cb r with Some _ => decided_write m e | None => None end
  | _ => None
  end.

Definition linv cb (m : message) (ph : phase) : Prop :=
  match ph with
  | HListen _ [] e => m_esv m = 0x62 -> e = false
  | HListen _ _ e => e = false
  | HHandle r _ _ e => (m_esv m = 0x62 -> e = false) /\ (cb_listener cb r = None -> e = false)
  | _ => True
  end.

Lemma one_suffix {A} (d t : list A) (a b : A) : [a] = d ++ b :: t -> d = [] /\ t = [] /\ b = a.
Proof.
  destruct d as [|x d]; cbn [app]; [intros [= <- <-]; auto|]. intros H.
  exfalso. injection H as _ H. destruct d; discriminate H.
Qed.

Lemma step_case cb w0 nd0 es i m w nd ph : device_app cb -> same_shape nd0 nd -> single m ->
  hinv cb w0 nd0 es i m ph -> linv cb m ph ->
  let '(w', nd', ph') := hstep cb m w nd ph in
  linv cb m ph' /\
  match promised cb m ph, promised cb m ph' with
  | None, None => w' = w /\ nd' = nd
  | None, Some rep => let out := ProtocolMessageReceived cb w nd None m in
                      out_world out = w' /\ out_node out = nd' /\ out_reply out = rep
  | Some rep, Some rep' => rep' = rep /\ w' = w /\ nd' = nd
  | Some _, None => False
  end.
Proof.
  intros (DN & DX & DR) SS (SE & p0 & SV) H L.
  assert (RQ : m_esv m = 0x60 -> ESV_IsResponseRequired (m_esv m) = false) by (intros ->; reflexivity).
  assert (OWN : own nd m = own nd0 m) by apply (same_own _ _ m SS).
  assert (VAL : valid_b nd m = valid_b nd0 m) by apply (same_valid _ _ m SS).
  assert (READ : m_esv m = 0x62 -> forall r w nd p f, f = cb_listener cb r \/ f = cb_handler cb r ->
     call (option_map (fun g w nd => g w nd (m_esv m) p) f) w nd = (w, nd, false)).
  { intros E r w' nd' p f F. rewrite E. destruct f as [g|]; [|reflexivity]. cbn [option_map call].
    apply (DR r). destruct F as [F|F]; rewrite F; auto. }
  destruct ph as [|r [|p t]| | |r [|p t] e|r p t e| |r [|p t] acc|rep]; cbn [hstep].
  - fold (own nd m). destruct (own nd m) eqn:EO.
    + cbn [linv promised]. split; [exact I|]. unfold ProtocolMessageReceived. fold (own nd m). rewrite EO. auto.
    + destruct (LookupObject nd (DEOJ m)); [|cbn; auto]. destruct (negb _); [cbn; auto|]. destruct (_ || _)%bool; cbn; auto.
  - cbn; auto.
  - destruct (obj_at nd r); [|cbn; auto]. destruct (check_property _ _ _); cbn; auto.
  - cbn [linv promised]. split; [exact I|]. destruct H as [H1 H2]. unfold ProtocolMessageReceived. fold (own nd m).
    rewrite OWN, H1. cbn [isResponseMessage]. rewrite validate_eq, VAL, H2. auto.
  - destruct H as [H1 H2]. rewrite (same_lookup _ _ _ SS).
    destruct (valid_b_lookup _ _ H2) as (r & o & EL & _). rewrite EL, DN. cbn [option_map call].
    rewrite loop_visited, SV. cbn [linv promised]. auto.
  - cbn [linv promised] in *. unfold decided_write. destruct (m_esv m =? 0x62) eqn:E6.
    + rewrite (L ltac:(lia)). assert (E : m_esv m = 98) by lia. rewrite E. cbn. auto.
    + assert (E : m_esv m = 0x60) by lia. rewrite (RQ E). destruct e; cbn; auto.
  - destruct H as (H1 & H2 & H3 & done & H4). rewrite SV in H4. destruct (one_suffix _ _ _ _ H4) as (-> & -> & ->).
    cbn [linv] in L. subst e. cbn [promised].
    assert (HLK : LookupObject nd (DEOJ m) = Some r) by (rewrite (same_lookup _ _ _ SS); exact H3).
    pose proof (pmr_single cb w nd m r p0 ltac:(congruence) ltac:(congruence) HLK SV DN) as PM.
    destruct (Z.eqb_spec (m_esv m) 0x62) as [E6|E6].
    + rewrite (READ E6 r w nd p0 _ (or_introl eq_refl)). cbn [linv promised orb]. unfold decided_write.
      rewrite (proj2 (Z.eqb_eq _ _) E6). split; [auto|]. destruct (cb_listener cb r); auto.
    + assert (E : m_esv m = 0x60) by lia. rewrite (RQ E) in PM.
      destruct (call (option_map _ (cb_listener cb r)) w nd) as [[w1 n1] e1] eqn:EC. cbn [linv promised orb].
      destruct (cb_listener cb r) as [g|] eqn:EG.
      * split; [split; [intros X; lia|discriminate]|]. unfold decided_write. rewrite (proj2 (Z.eqb_neq _ _) E6).
        destruct (DX r) as [D|D]; [congruence|]. rewrite D in PM. cbn [option_map call] in PM.
        rewrite Bool.orb_false_r in PM. cbn [negb] in PM. exact PM.
      * cbn [option_map call] in EC. injection EC as <- <- <-. auto.
  - destruct H as (H1 & H2 & H3 & done & H4). rewrite SV in H4. destruct (one_suffix _ _ _ _ H4) as (-> & -> & ->).
    cbn [linv] in L. destruct L as [L1 L2]. cbn [promised].
    assert (HLK : LookupObject nd (DEOJ m) = Some r) by (rewrite (same_lookup _ _ _ SS); exact H3).
    pose proof (pmr_single cb w nd m r p0 ltac:(congruence) ltac:(congruence) HLK SV DN) as PM.
    destruct (Z.eqb_spec (m_esv m) 0x62) as [E6|E6].
    + rewrite (READ E6 r w nd p0 _ (or_intror eq_refl)). rewrite (L1 E6). cbn [linv promised orb]. unfold decided_write.
      rewrite (proj2 (Z.eqb_eq _ _) E6). split; [auto|]. destruct (cb_listener cb r); auto.
    + assert (E : m_esv m = 0x60) by lia. rewrite (RQ E) in PM. cbn [negb] in PM.
      destruct (cb_listener cb r) as [g|] eqn:EG.
      * destruct (DX r) as [D|D]; [congruence|]. rewrite D. cbn [option_map call linv promised]. unfold decided_write.
        rewrite (proj2 (Z.eqb_neq _ _) E6), Bool.orb_false_r. split; [intros X; lia|auto].
      * rewrite (L2 eq_refl). cbn [option_map call] in PM.
        destruct (call (option_map _ (cb_handler cb r)) w nd) as [[w1 n1] e1] eqn:EC. cbn [linv promised orb] in *.
        split; [intros X; lia|]. unfold decided_write. rewrite (proj2 (Z.eqb_neq _ _) E6). exact PM.
  - destruct H as (H1 & H2 & H3). rewrite (same_lookup _ _ _ SS).
    destruct (valid_b_lookup _ _ H2) as (r & o & EL & _). rewrite EL, loop_visited, SV. cbn; auto.
  - cbn; auto.
  - destruct H as (H1 & H2 & H3 & H4 & done & ps & H5 & H6 & H7). rewrite SV in H5.
    destruct (one_suffix _ _ _ _ H5) as (-> & -> & ->).
    destruct SE as [SE|SE]; [rewrite (RQ SE) in H4; discriminate H4|].
    assert (CK : checked (m_esv m) = true) by (rewrite SE; reflexivity).
    specialize (H7 CK). inversion H7; subst ps. cbn [built_response fold_left] in H6. subst acc.
    destruct (valid_b_lookup _ _ H2) as (r' & o & EL & Eo & _). assert (r' = r) by congruence. subst r'.
    destruct (same_at _ _ _ _ SS Eo) as (o' & Eo' & So). rewrite Eo'. cbn [linv promised]. split; [exact I|].
    assert (HLK : LookupObject nd (DEOJ m) = Some r) by (rewrite (same_lookup _ _ _ SS); exact H3).
    pose proof (pmr_single cb w nd m r p0 ltac:(congruence) ltac:(congruence) HLK SV DN) as PM.
    rewrite (READ SE r w nd p0 _ (or_introl eq_refl)), (READ SE r w nd p0 _ (or_intror eq_refl)) in PM.
    destruct PM as (P1 & P2 & P3). rewrite H4, (createResponse_eq _ _ _ _ HLK Eo') in P3. cbn [orb negb bind] in P3.
    split; [exact P1|]. split; [exact P2|]. rewrite P3. unfold response_for. rewrite SV. cbn [flat_map]. unfold found.
    destruct (LookupProperty (o_props o') (pp_code p0)); reflexivity.
  - cbn; auto.
Qed.

Definition is_done (h : message * phase) : Prop := exists reply, snd h = HDone reply.

Theorem C76_single_partial : forall cb w nd es,
  values_only cb es -> device_app cb -> (forall f, ~ In (EApp f) es) ->
  (forall m, In (EArrive m) es -> single m) ->
  let s := sys_run cb (mkSys w nd []) es in
  Forall is_done (s_handlings s) ->
  exists hs rs, Permutation hs (s_handlings s) /\ map snd hs = map HDone rs /\
    one_by_one cb w nd (map fst hs) = (s_world s, s_node s, rs).
Proof.
  intros cb w nd es HV HD HA HS s HF. unfold s in *. clear s.
  set (msg := fun x : nat * message * res (option message) => snd (fst x)).
  set (num := fun x : nat * message * res (option message) => fst (fst x)).
  assert (G : (forall i m ph, nth_error (s_handlings (sys_run cb (mkSys w nd []) es)) i = Some (m, ph) ->
                 In (EArrive m) es /\ linv cb m ph) /\
     exists L, NoDup (map num L) /\
    (forall i m rep, In (i, m, rep) L <-> exists ph, nth_error (s_handlings (sys_run cb (mkSys w nd []) es)) i = Some (m, ph) /\ promised cb m ph = Some rep) /\
    one_by_one cb w nd (map msg L) = (s_world (sys_run cb (mkSys w nd []) es), s_node (sys_run cb (mkSys w nd []) es), map snd L)).
  { clear HF. induction es as [|e es IH] using rev_ind.
    { split; [intros [|i] m ph; discriminate|]. exists []. split; [constructor|]. split; [|reflexivity].
      intros i m rep. split; [intros []|]. intros (ph & H & _). destruct i; discriminate H. }
    pose proof (values_prefix _ _ _ HV) as HV'.
    destruct IH as (IA & L & LN & LI & LO); [assumption|intros f I; apply (HA f), in_or_app; auto|
      intros m I; apply HS, in_or_app; auto|].
    destruct (run_inv cb w nd es HV') as [SS HI].
    rewrite run_app. set (s := sys_run cb (mkSys w nd []) es) in *. cbn [sys_run fold_left].
    destruct e as [m'|j|f]; cbn [sys_step].
    - cbn [s_handlings s_world s_node].
      assert (N : forall i m ph, nth_error (s_handlings s ++ [(m', HArrived)]) i = Some (m, ph) ->
                nth_error (s_handlings s) i = Some (m, ph) \/ m = m' /\ ph = HArrived).
      { intros i m ph. destruct (Nat.lt_ge_cases i (length (s_handlings s))) as [X|X].
        - rewrite nth_error_app1 by assumption. auto.
        - rewrite nth_error_app2 by assumption. destruct (i - length (s_handlings s))%nat as [|k]; cbn; [|destruct k; discriminate].
          intros [= <- <-]. auto. }
      split.
      { intros i m ph H. destruct (N i m ph H) as [X|[-> ->]].
        - destruct (IA i m ph X) as [A B]. split; [apply in_or_app; auto|exact B].
        - split; [apply in_or_app; right; left; reflexivity|exact I]. }
      exists L. split; [exact LN|]. split; [|exact LO]. intros i m rep. rewrite LI. split.
      + intros (ph & H & P). exists ph. split; [|exact P]. rewrite nth_error_app1; [exact H|].
        apply nth_error_Some. congruence.
      + intros (ph & H & P). destruct (N i m ph H) as [X|[-> ->]]; [eauto|discriminate P].
    - destruct (nth_error (s_handlings s) j) as [[m' ph']|] eqn:EJ.
      2:{ split; [|exists L; auto]. intros i m ph H. destruct (IA i m ph H) as [A B]. split; [apply in_or_app; auto|exact B]. }
      destruct (IA j m' ph' EJ) as [AJ BJ].
      pose proof (step_case cb w nd es j m' (s_world s) (s_node s) ph' HD SS
        (HS m' (in_or_app _ _ _ (or_introl AJ))) (HI j m' ph' EJ) BJ) as SC.
      destruct (hstep cb m' (s_world s) (s_node s) ph') as [[w1 n1] ph1]. destruct SC as [SL SC].
      cbn [s_handlings s_world s_node]. split.
      { intros i m ph. destruct (Nat.eq_dec j i) as [->|N].
        - rewrite (set_nth_same _ _ _ (m', ph1) EJ). intros [= <- <-]. split; [apply in_or_app; auto|exact SL].
        - rewrite set_nth_diff by assumption. intros H. destruct (IA i m ph H) as [A B]. split; [apply in_or_app; auto|exact B]. }
      assert (ST : forall i m rep, i <> j ->
         (exists ph, nth_error (set_nth (s_handlings s) j (m', ph1)) i = Some (m, ph) /\ promised cb m ph = Some rep) <->
         (exists ph, nth_error (s_handlings s) i = Some (m, ph) /\ promised cb m ph = Some rep)).
      { intros i m rep N. rewrite set_nth_diff by congruence. reflexivity. }
      assert (SJ : forall m rep,
         (exists ph, nth_error (set_nth (s_handlings s) j (m', ph1)) j = Some (m, ph) /\ promised cb m ph = Some rep) <->
         m = m' /\ promised cb m' ph1 = Some rep).
      { intros m rep. rewrite (set_nth_same _ _ _ (m', ph1) EJ). split.
        - intros (ph & [= <- <-] & P). auto.
        - intros (-> & P). eauto. }
      assert (SO : forall m rep,
         (exists ph, nth_error (s_handlings s) j = Some (m, ph) /\ promised cb m ph = Some rep) <->
         m = m' /\ promised cb m' ph' = Some rep).
      { intros m rep. rewrite EJ. split.
        - intros (ph & [= <- <-] & P). auto.
        - intros (-> & P). eauto. }
      destruct (promised cb m' ph') as [rep0|] eqn:P0; destruct (promised cb m' ph1) as [rep1|] eqn:P1.
      + destruct SC as (-> & -> & ->). exists L. split; [exact LN|]. split; [|exact LO]. intros i m rep. rewrite LI.
        destruct (Nat.eq_dec i j) as [->|N]; [rewrite SJ, SO; reflexivity|symmetry; apply ST, N].
      + contradiction.
      + destruct SC as (O1 & O2 & O3). exists (L ++ [(j, m', rep1)]). split.
        * rewrite map_app. cbn [map num fst]. apply NoDup_app_one; [exact LN|].
          intros I. apply in_map_iff in I. destruct I as ([[i m] rep] & E & I). cbn [num fst] in E. unfold num in E. cbn [fst] in E. subst i.
          apply LI in I. rewrite SO in I. destruct I as [_ I]. discriminate I.
        * split.
          -- intros i m rep. rewrite in_app_iff, LI. cbn [In]. destruct (Nat.eq_dec i j) as [->|N].
             ++ rewrite SJ, SO. split.
                ** intros [[_ X]|[X|[]]]; [discriminate X|]. injection X as <- <-. auto.
                ** intros [-> X]. right; left. congruence.
             ++ rewrite ST by exact N. split; [|auto]. intros [X|[X|[]]]; [exact X|congruence].
          -- rewrite !map_app. rewrite (one_by_one_app _ _ _ _ _ _ _ _ LO). cbn [map one_by_one msg fst snd].
             unfold msg. cbn [fst snd]. rewrite O1, O2, O3. reflexivity.
      + destruct SC as (-> & ->). exists L. split; [exact LN|]. split; [|exact LO]. intros i m rep. rewrite LI.
        destruct (Nat.eq_dec i j) as [->|N]; [rewrite SJ, SO; reflexivity|symmetry; apply ST, N].
    - exfalso. apply (HA f), in_or_app. right; left; reflexivity. }
  destruct G as (_ & L & LN & LI & LO). set (hs := s_handlings (sys_run cb (mkSys w nd []) es)) in *.
  set (entry := fun x : nat * message * res (option message) => (msg x, HDone (snd x))).
  exists (map entry L), (map snd L). split; [|split].
  - assert (PN : Permutation (map num L) (seq 0 (length hs))).
    { apply NoDup_Permutation; [exact LN|apply seq_NoDup|]. intros i. rewrite in_seq, in_map_iff. split.
      - intros ([[i' m] rep] & E & I). unfold num in E. cbn [fst] in E. subst i'. apply LI in I. destruct I as (ph & I & _).
        split; [lia|]. cbn. apply nth_error_Some. congruence.
      - intros [_ X]. cbn in X. destruct (nth_error hs i) as [[m ph]|] eqn:E; [|apply nth_error_None in E; lia].
        rewrite Forall_forall in HF. destruct (HF (m, ph) (nth_error_In _ _ E)) as [rep R]. cbn [snd] in R. subst ph.
        exists (i, m, rep). split; [reflexivity|]. apply LI. exists (HDone rep). auto. }
    set (look := fun i => match nth_error hs i with Some h => h | None => (NewMessage, HArrived) end).
    assert (E1 : map entry L = map look (map num L)).
    { rewrite map_map. apply map_ext_in. intros [[i m] rep] I. apply LI in I. destruct I as (ph & I & P).
      unfold look, num. cbn [fst]. rewrite I. rewrite Forall_forall in HF.
      destruct (HF (m, ph) (nth_error_In _ _ I)) as [rep' R]. cbn [snd] in R. subst ph. injection P as ->. reflexivity. }
    assert (E2 : map look (seq 0 (length hs)) = hs).
    { unfold look. clear. induction hs as [|h hs IH]; [reflexivity|]. cbn [length seq map nth_error]. f_equal.
      rewrite <- seq_shift, map_map. exact IH. }
    rewrite E1. eapply Permutation_trans; [apply Permutation_map, PN|]. rewrite E2. apply Permutation_refl.
  - rewrite !map_map. reflexivity.
  - rewrite map_map. exact LO.
Qed.

End Requests.

(** *** The property in full, and why it fails *)

(** The handlings leave and answer what some order of the messages, one by one, does. *)
Definition serial {W : Type} (cb : callbacks W) (w : W) (nd : node) (es : list (event W)) : Prop :=
  let s := sys_run cb (mkSys w nd []) es in
  exists hs rs, Permutation hs (s_handlings s) /\ map snd hs = map HDone rs /\
    one_by_one cb w nd (map fst hs) = (s_world s, s_node s, rs).

(** An application that stores what is written, through the library. *)
Definition store (r : objref) (w : unit) (nd : node) (esv : Z) (p : pprop) : unit * node * bool :=
  if ESV_IsWriteRequest esv
  then (w, fst (on_object nd r (fun o => SetPropertyData o (pp_code p) (pp_data p))), false)
  else (w, nd, false).
Definition store_app : callbacks unit := mkCallbacks None (fun r => Some (store r)) (fun _ => None).

Lemma announce_same evs : forall nd code, same_shape nd (announce_all nd code evs).
Proof.
  induction evs as [|p evs IH]; intros nd code; [apply same_refl|].
  unfold announce_all. cbn [fold_left]. fold (announce_all
    (match fst (prop_Announce (Some nd) code p) with Some nd' => nd' | None => nd end) code evs).
  eapply same_trans; [|apply IH]. unfold prop_Announce. destruct (negb (n_running nd)) eqn:E; [apply same_refl|].
  unfold AnnounceProperty, AnnounceMessage. rewrite E. unfold NextTID. destruct (_ <=? _); reflexivity.
Qed.

Lemma set_data_shape ps code d : (forall q, LookupProperty ps code = Some q -> length d = length (p_data q)) ->
  map prop_shape (set_data ps code d) = map prop_shape ps.
Proof.
  unfold LookupProperty. induction ps as [|q ps IH]; intros H; [reflexivity|]. cbn [set_data find] in *.
  destruct (p_code q =? code) eqn:E.
  - cbn [map]. f_equal. unfold prop_shape. cbn. rewrite (H q eq_refl). reflexivity.
  - cbn [map]. f_equal. apply IH, H.
Qed.

Lemma put_shape l i o o' : nth_error l i = Some o -> obj_shape o' = obj_shape o ->
  map obj_shape (set_nth l i o') = map obj_shape l.
Proof.
  revert i. induction l as [|x l IH]; intros [|i] H E; try discriminate H; cbn [set_nth map].
  - injection H as <-. rewrite E. reflexivity.
  - f_equal. apply (IH i H E).
Qed.

Lemma store_values es : (forall f, ~ In (EApp f) es) -> values_only store_app es /\ device_app store_app.
Proof.
  intros HA. split; [split; [|split]|split; [|split]].
  - discriminate.
  - intros r g w nd esv p o [[= <-]|H] Ho AC; [|discriminate H]. unfold store.
    destruct (ESV_IsWriteRequest esv) eqn:EW; [|apply same_refl]. cbn [fst snd].
    apply byte_writes in EW. destruct (AC (or_intror EW)) as (q & Hq & _ & HW). destruct (HW EW) as [_ HL].
    unfold on_object. rewrite Ho. unfold SetPropertyData, SetPropertyDataMap. rewrite Hq. cbn [lift_props fst].
    unfold commit. eapply same_trans; [|apply announce_same].
    assert (OS : obj_shape (with_props o (set_data (o_props o) (pp_code p) (pp_data p))) = obj_shape o).
    { unfold obj_shape. cbn. f_equal. apply set_data_shape. intros q' Hq'. congruence. }
    unfold same_shape, node_shape. destruct r as [i|i]; cbn [put_at with_objects n_devices n_profiles n_addr n_self obj_at] in *;
      rewrite (put_shape _ _ _ _ Ho OS); reflexivity.
  - intros f w nd I. destruct (HA f I).
  - reflexivity.
  - intros r. right. reflexivity.
  - intros r g w nd p [[= <-]|H]; [reflexivity|discriminate H].
Qed.

(** A device with two values, and requests for it from another node. *)
Definition pair_node (a b : Z) : node :=
  mkNode [mkObject [0x02; 0x90; 0x01]
            [mkProperty 0x80 Required Required Prohibited [a]; mkProperty 0xB0 Required Required Prohibited [b]]]
    [mkObject np_codes []] 0 0 true ex_addr true [].

Definition steps {W} (i n : nat) : list (event W) := repeat (EStep i) n.

(** A Get for both values is interrupted, between the two, by a SetI of both. *)
Definition torn_read : list (event unit) :=
  [EArrive (ex_msg 0x62 2 [0x80; 0; 0xB0; 0]); EArrive (ex_msg 0x60 2 [0x80; 1; 0x31; 0xB0; 1; 0x42])]
    ++ steps 0 12 ++ steps 1 20 ++ steps 0 10.

(** Two SetI of both values; the second runs between the two writes of the first. *)
Definition torn_write : list (event unit) :=
  [EArrive (ex_msg 0x60 2 [0x80; 1; 0x31; 0xB0; 1; 0x42]); EArrive (ex_msg 0x60 2 [0x80; 1; 0x33; 0xB0; 1; 0x44])]
    ++ steps 0 7 ++ steps 1 20 ++ steps 0 10.

(** Two SetC of one value; the second writes before the first is answered. *)
Definition torn_confirm : list (event unit) :=
  [EArrive (ex_msg 0x61 1 [0x80; 1; 0x31]); EArrive (ex_msg 0x61 1 [0x80; 1; 0x33])]
    ++ steps 0 6 ++ steps 1 20 ++ steps 0 10.

(** The replies, as bytes, and the values left. *)
Definition replies {W} (s : sys W) : list (res (option (list Z))) :=
  map (fun h => match snd h with HDone r => reply_bytes r | _ => Panic end) (s_handlings s).
Definition values {W} (s : sys W) : list (list (list Z)) := map (fun o => map p_data (o_props o)) (n_devices (s_node s)).

(** The answer has 0x30, the old value, and 0x42, the new one. *)
Example C76_torn_example :
  let s := sys_run store_app (mkSys tt (pair_node 0x30 0x41) []) torn_read in
  replies s = [Ok (Some [0x10; 0x81; 0x12; 0x34; 0x02; 0x90; 0x01; 0x05; 0xFF; 0x01; 0x72; 2; 0x80; 1; 0x30; 0xB0; 1; 0x42]);
               Ok None] /\ values s = [[[0x31]; [0x42]]].
Proof. vm_compute. split; reflexivity. Qed.

Example C76_torn_write_example :
  let s := sys_run store_app (mkSys tt (pair_node 0x30 0x41) []) torn_write in
  replies s = [Ok None; Ok None] /\ values s = [[[0x33]; [0x42]]].
Proof. vm_compute. split; reflexivity. Qed.

(** The response to the request that wrote 0x31 says 0x33. *)
Example C76_confirm_example :
  let s := sys_run store_app (mkSys tt (pair_node 0x30 0x41) []) torn_confirm in
  replies s = [Ok (Some [0x10; 0x81; 0x12; 0x34; 0x02; 0x90; 0x01; 0x05; 0xFF; 0x01; 0x71; 1; 0x80; 1; 0x33]);
               Ok (Some [0x10; 0x81; 0x12; 0x34; 0x02; 0x90; 0x01; 0x05; 0xFF; 0x01; 0x71; 1; 0x80; 1; 0x33])].
Proof. vm_compute. reflexivity. Qed.

(** Two handlings that serve no order: neither order gives the same replies and values. *)
Lemma not_serial nd es m1 m2 r1 r2 (s := sys_run store_app (mkSys tt nd []) es) :
  s_handlings s = [(m1, HDone r1); (m2, HDone r2)] ->
  one_by_one store_app tt nd [m1; m2] <> (tt, s_node s, [r1; r2]) ->
  one_by_one store_app tt nd [m2; m1] <> (tt, s_node s, [r2; r1]) ->
  ~ serial store_app tt nd es.
Proof.
  intros H N1 N2 (hs & rs & P & R & O). fold s in P, O. rewrite H in P.
  assert (U : s_world s = tt) by (destruct (s_world s); reflexivity). rewrite U in O.
  apply Permutation_sym, Permutation_length_2_inv in P. destruct P as [->| ->]; cbn [map fst snd] in *.
  - destruct rs as [|a [|b [|c rs]]]; try discriminate R. cbn [map] in R. injection R as <- <-. auto.
  - destruct rs as [|a [|b [|c rs]]]; try discriminate R. cbn [map] in R. injection R as <- <-. auto.
Qed.

Ltac not_serial_by what :=
  eapply not_serial; [vm_compute; reflexivity| |]; intros H; apply (f_equal what) in H; vm_compute in H; discriminate H.

Theorem C76_serial_refuted :
  ~ serial store_app tt (pair_node 0x30 0x41) torn_read /\
  ~ serial store_app tt (pair_node 0x30 0x41) torn_write /\
  ~ serial store_app tt (pair_node 0x30 0x41) torn_confirm.
Proof.
  split; [|split].
  - not_serial_by (fun x : unit * node * list (res (option message)) => map reply_bytes (snd x)).
  - not_serial_by (fun x : unit * node * list (res (option message)) => map (fun o => map p_data (o_props o)) (n_devices (snd (fst x)))).
  - not_serial_by (fun x : unit * node * list (res (option message)) => map reply_bytes (snd x)).
Qed.

(** Every message above is valid, every handling done and the application of the
    kind [C76_single_partial] is about: only the number of properties and the
    answer to SetC are different. *)
Theorem C76_refuted : ~ (forall (cb : callbacks unit) w nd es,
  values_only cb es -> device_app cb -> (forall f, ~ In (EApp f) es) ->
  (forall m, In (EArrive m) es -> received m /\ not_own nd m /\ exists r o, valid nd m r o) ->
  Forall is_done (s_handlings (sys_run cb (mkSys w nd []) es)) -> serial cb w nd es).
Proof.
  intros H. destruct C76_serial_refuted as [C _]. apply C. clear C.
  assert (NA : forall f, ~ In (EApp f) torn_read).
  { intros f I. unfold torn_read, steps in I. repeat (apply in_app_or in I; destruct I as [I|I]);
      try (apply repeat_spec in I; discriminate I). cbn in I. intuition discriminate. }
  destruct (store_values torn_read NA) as [V D]. apply H; [exact V|exact D|exact NA| |].
  - intros m I. assert (E : m = ex_msg 0x62 2 [0x80; 0; 0xB0; 0] \/ m = ex_msg 0x60 2 [0x80; 1; 0x31; 0xB0; 1; 0x42]).
    { unfold torn_read, steps in I. repeat (apply in_app_or in I; destruct I as [I|I]);
        try (apply repeat_spec in I; discriminate I). cbn [In] in I.
      destruct I as [I|[I|[]]]; injection I as <-; auto. }
    assert (R : received m).
    { destruct E as [->| ->]; apply ex_received; repeat constructor; unfold is_byte; lia. }
    split; [exact R|]. split; [left; reflexivity|]. apply (valid_iff _ _ R).
    destruct E as [->| ->]; vm_compute; reflexivity.
  - vm_compute. repeat constructor; eexists; reflexivity.
Qed.

Print Assumptions C76_alone.
Print Assumptions C76_verdict.
Print Assumptions C76_values_partial.
Print Assumptions C76_single_partial.
Print Assumptions C76_serial_refuted.
Print Assumptions C76_refuted.

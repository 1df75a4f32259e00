(** Facts about the message handler of a node. *)

From Verif Require Import Go GoFacts Encoding EncodingFacts Protocol Parser MessageFacts ParserFacts
  ProtocolFacts StdDB Property PropertyFacts Object ObjectFacts Spec Node NodeFacts Handler.
From Coq Require Import ZifyBool ZifyNat.
Local Open Scope Z_scope.

(** ** Received messages *)

(** A message as the transport hands it over: decoded from bytes, with source
    and packet type filled in. *)
Definition received (m : message) : Prop :=
  exists data m0 a t, is_bytes data /\ NewMessageWithBytes data = Ok m0 /\ m = SetPacketType (SetFrom m0 a) t.

Lemma received_header m : received m ->
  0 <= TID m < 65536 /\ 0 <= SEOJ m < 2 ^ 24 /\ 0 <= DEOJ m < 2 ^ 24 /\
  0 <= OPC m < 256 /\ 0 <= m_esv m < 256 /\ Z.of_nat (length (m_ep m)) = OPC m /\ shape m.
Proof.
  intros (data & m0 & a & t & HB & HM & ->).
  destruct (decoded_header data m0 HB HM) as (H1 & H2 & H3 & H4 & H5 & H6).
  destruct (decoded_represents data m0 HB HM) as (c & HR & _).
  repeat (split; [assumption|]). apply (represents_shape m0 c HR).
Qed.

Lemma received_visited m : received m -> visited m = m_ep m.
Proof.
  intros H. destruct (received_header m H) as (_ & _ & _ & _ & _ & E & _).
  unfold visited. apply firstn_all2. unfold OPC in E. lia.
Qed.

Lemma received_props m : received m -> Forall (fun p => is_byte (pp_code p) /\ is_bytes (pp_data p)) (m_ep m).
Proof.
  intros (data & m0 & a & t & HB & HM & ->). cbn [SetPacketType SetFrom m_ep].
  destruct (decoded_represents data m0 HB HM) as (c & HR & _ & HP).
  destruct HR as (_ & _ & _ & _ & _ & _ & E & _). rewrite E. apply Forall_map.
  eapply Forall_impl; [|exact HP]. intros [x d] [Hx Hd]. split; assumption.
Qed.

(** ** Loops over the properties of a message *)

Lemma msg_loop {S : Type} (m : message) (f : pprop -> S -> res S) (body : Z -> S -> res S) s :
  (forall n s, body (Z.of_nat n) s = match nth_error (m_ep m) n with Some p => f p s | None => Ok s end) ->
  for_range (Z.to_nat (OPC m)) 0 body s = for_each (visited m) f s.
Proof.
  intros H. change 0 with (Z.of_nat 0). rewrite (for_range_elems (m_ep m) f) by exact H. reflexivity.
Qed.

Lemma for_each_Ok {A S : Type} (f : A -> S -> S) l : forall s : S,
  for_each l (fun a s => Ok (f a s)) s = Ok (fold_left (fun s a => f a s) l s).
Proof. induction l as [|a l IH]; intros s; [reflexivity|]. cbn [for_each bind fold_left]. apply IH. Qed.

Lemma for_each_ext {A S : Type} (f g : A -> S -> res S) l : (forall a s, f a s = g a s) ->
  forall s, for_each l f s = for_each l g s.
Proof.
  intros H. induction l as [|a l IH]; intros s; [reflexivity|]. cbn [for_each]. rewrite H.
  destruct (g a s); [cbn [bind]; apply IH|reflexivity|reflexivity].
Qed.

(** ** Validation *)

Lemma find_code_at objs code i : find_code objs code = Some i -> exists o, nth_error objs i = Some o /\ Code o = code.
Proof. intros H. pose proof (find_code_spec objs code) as F. rewrite H in F. destruct F as (o & A & B & _). eauto. Qed.

Lemma LookupObject_at nd code r : LookupObject nd code = Some r -> exists o, obj_at nd r = Some o /\ Code o = code.
Proof.
  unfold LookupObject, LookupDevice, LookupProfile.
  destruct (find_code (n_devices nd) code) as [i|] eqn:E; cbn [option_map].
  - intros [= <-]. apply find_code_at. assumption.
  - destruct (find_code (n_profiles nd) code) as [i|] eqn:E2; cbn [option_map]; [|discriminate].
    intros [= <-]. apply find_code_at. assumption.
Qed.

Definition checked (esv : Z) : bool := ESV_IsReadRequest esv || ESV_IsWriteRequest esv.

Definition valid_b (nd : node) (m : message) : bool :=
  match LookupObject nd (DEOJ m) with
  | None => false
  | Some r => match obj_at nd r with
              | None => false
              | Some o => ESV_IsValid (m_esv m) &&
                          (negb (checked (m_esv m)) || forallb (check_property o (m_esv m)) (visited m))
              end
  end.

Lemma forallb_loop {A} (f : A -> bool) l : forall b,
  for_each l (fun a (ok : bool) => if ok then Ok (f a) else Ok false) b = Ok (b && forallb f l).
Proof.
  induction l as [|a l IH]; intros b; cbn [for_each forallb].
  - rewrite Bool.andb_true_r. reflexivity.
  - destruct b; cbn [bind andb]; rewrite IH; reflexivity.
Qed.

Lemma validate_eq nd m : validateReceivedMessage nd m = Ok (valid_b nd m).
Proof.
  unfold validateReceivedMessage, valid_b. destruct (LookupObject nd (DEOJ m)) as [r|]; [|reflexivity].
  destruct (obj_at nd r) as [o|]; [|reflexivity].
  destruct (ESV_IsValid (m_esv m)); cbn [negb andb]; [|reflexivity].
  fold (checked (m_esv m)). destruct (checked (m_esv m)); cbn [negb orb]; [|reflexivity].
  rewrite (msg_loop m (fun p (ok : bool) => if ok then Ok (check_property o (m_esv m) p) else Ok false)).
  - exact (forallb_loop (check_property o (m_esv m)) (visited m) true).
  - intros n [|]; rewrite ?MsgProperty_nth; cbn [bind]; destruct (nth_error (m_ep m) n); reflexivity.
Qed.

(** ** Callbacks *)

Section Run.
Context {W : Type}.

(** The calls a valid message causes: the node listener, then for each property
    the listener and the request handler of the object, as far as installed. *)
Definition opt_call {F : Type} (f : option F) (c : cb_call) : list cb_call :=
  match f with Some _ => [c] | None => [] end.

Definition expected_calls (cb : callbacks W) (r : objref) (m : message) : list cb_call :=
  opt_call (cb_node cb) (CallNode m) ++
  flat_map (fun p => opt_call (cb_listener cb r) (CallListener r (m_esv m) p) ++
                     opt_call (cb_handler cb r) (CallHandler r (m_esv m) p)) (visited m).

Definition run_ok (st : run W) : Prop := r_err st = existsb snd (r_calls st).

Lemma call_back_spec (st : run W) c f : run_ok st ->
  let '(st', e) := call_back st c f in
  map fst (r_calls st') = map fst (r_calls st) ++ opt_call f c /\
  r_err st' = r_err st /\ (r_err st' || e)%bool = existsb snd (r_calls st').
Proof.
  intros H. unfold call_back. destruct f as [g|].
  - destruct (g (r_world st) (r_node st)) as [[w nd] e]. cbn [r_calls r_err opt_call].
    rewrite map_app, existsb_app. cbn [map fst existsb snd]. rewrite Bool.orb_false_r, H. auto.
  - cbn [opt_call]. rewrite app_nil_r, Bool.orb_false_r. auto.
Qed.

Definition notify (cb : callbacks W) (r : objref) (esv : Z) (st : run W) (p : pprop) : run W :=
  let '(st, e) := notifyPropertyRequest cb r esv p st in set_err st e.

Lemma opt_call_map {F G : Type} (g : F -> G) f c : opt_call (option_map g f) c = opt_call f c.
Proof. destruct f; reflexivity. Qed.

Lemma notify_spec cb r esv (st : run W) p : run_ok st ->
  run_ok (notify cb r esv st p) /\
  map fst (r_calls (notify cb r esv st p)) = map fst (r_calls st) ++
    opt_call (cb_listener cb r) (CallListener r esv p) ++ opt_call (cb_handler cb r) (CallHandler r esv p).
Proof.
  intros H. unfold notify, notifyPropertyRequest.
  pose proof (call_back_spec st (CallListener r esv p)
    (option_map (fun g w nd => g w nd esv p) (cb_listener cb r)) H) as A.
  destruct (call_back st _ _) as [s1 e1]. destruct A as (A1 & A2 & A3). rewrite opt_call_map in A1.
  pose proof (call_back_spec (set_err s1 e1) (CallHandler r esv p)
    (option_map (fun g w nd => g w nd esv p) (cb_handler cb r)) A3) as B.
  assert (E : call_back (set_err s1 e1) (CallHandler r esv p)
                (option_map (fun g w nd => g w nd esv p) (cb_handler cb r)) =
              (set_err (fst (call_back s1 (CallHandler r esv p)
                (option_map (fun g w nd => g w nd esv p) (cb_handler cb r)))) e1,
               snd (call_back s1 (CallHandler r esv p)
                (option_map (fun g w nd => g w nd esv p) (cb_handler cb r))))).
  { unfold call_back. destruct (cb_handler cb r) as [g|]; cbn [option_map]; [|reflexivity].
    cbn [set_err r_world r_node]. destruct (g (r_world s1) (r_node s1) esv p) as [[w n] e]. reflexivity. }
  rewrite E in B. destruct (call_back s1 _ _) as [s2 e2]. cbn [fst snd] in B.
  destruct B as (B1 & B2 & B3). rewrite opt_call_map in B1. split.
  - unfold run_ok. cbn [set_err r_err r_calls] in *. rewrite <- B3, Bool.orb_assoc. reflexivity.
  - cbn [set_err r_calls] in *. rewrite B1, A1, app_assoc. reflexivity.
Qed.

Lemma notify_fold cb r esv l : forall st : run W, run_ok st ->
  run_ok (fold_left (notify cb r esv) l st) /\
  map fst (r_calls (fold_left (notify cb r esv) l st)) = map fst (r_calls st) ++
    flat_map (fun p => opt_call (cb_listener cb r) (CallListener r esv p) ++
                       opt_call (cb_handler cb r) (CallHandler r esv p)) l.
Proof.
  induction l as [|p l IH]; intros st H; cbn [fold_left flat_map].
  - rewrite app_nil_r. auto.
  - destruct (notify_spec cb r esv st p H) as [H1 H2]. destruct (IH _ H1) as [H3 H4].
    split; [assumption|]. rewrite H4, H2, <- !app_assoc. reflexivity.
Qed.

Lemma exec_spec (cb : callbacks W) w nd m r : LookupObject nd (DEOJ m) = Some r ->
  exists st, executeMessageListeners cb w nd m = Ok st /\ run_ok st /\
    map fst (r_calls st) = expected_calls cb r m.
Proof.
  intros H. unfold executeMessageListeners. rewrite H.
  pose proof (call_back_spec (mkRun w nd [] false) (CallNode m)
    (option_map (fun g w nd => g w nd m) (cb_node cb)) eq_refl) as A.
  destruct (call_back _ _ _) as [s e]. destruct A as (A1 & A2 & A3). rewrite opt_call_map in A1.
  rewrite (msg_loop m (fun p st => Ok (notify cb r (m_esv m) st p))).
  - rewrite (for_each_Ok (fun p st => notify cb r (m_esv m) st p)).
    destruct (notify_fold cb r (m_esv m) (visited m) (set_err s e) A3) as [B1 B2].
    eexists. split; [reflexivity|]. split; [exact B1|]. etransitivity; [exact B2|]. cbn [set_err r_calls].
    rewrite A1. reflexivity.
  - intros n st. rewrite MsgProperty_nth. cbn [bind]. destruct (nth_error (m_ep m) n); [|reflexivity].
    unfold notify. destruct (notifyPropertyRequest _ _ _ _ _). reflexivity.
Qed.

(** Callbacks whose effect on the node is in the relation [R]. *)
Definition respects (R : node -> node -> Prop) (cb : callbacks W) : Prop :=
  (forall g w nd m, cb_node cb = Some g -> R nd (snd (fst (g w nd m)))) /\
  (forall r g w nd esv p, cb_listener cb r = Some g -> R nd (snd (fst (g w nd esv p)))) /\
  (forall r g w nd esv p, cb_handler cb r = Some g -> R nd (snd (fst (g w nd esv p)))).

Section Respects.
Variable R : node -> node -> Prop.
Hypothesis R_refl : forall nd, R nd nd.
Hypothesis R_trans : forall a b c, R a b -> R b c -> R a c.

Lemma call_back_respects (st : run W) c f :
  (forall g w nd, f = Some g -> R nd (snd (fst (g w nd)))) ->
  R (r_node st) (r_node (fst (call_back st c f))).
Proof.
  intros H. unfold call_back. destruct f as [g|]; [|apply R_refl].
  specialize (H g (r_world st) (r_node st) eq_refl).
  destruct (g (r_world st) (r_node st)) as [[w nd] e]. exact H.
Qed.

Lemma notify_respects cb r esv (st : run W) p : respects R cb -> R (r_node st) (r_node (notify cb r esv st p)).
Proof.
  intros (_ & HL & HH). unfold notify, notifyPropertyRequest.
  pose proof (call_back_respects st (CallListener r esv p)
    (option_map (fun g w nd => g w nd esv p) (cb_listener cb r))) as A.
  destruct (call_back st _ _) as [s1 e1]. cbn [fst] in A.
  pose proof (call_back_respects s1 (CallHandler r esv p)
    (option_map (fun g w nd => g w nd esv p) (cb_handler cb r))) as B.
  destruct (call_back s1 _ _) as [s2 e2]. cbn [fst] in B. cbn [set_err r_node].
  apply (R_trans _ (r_node s1)); [apply A|apply B].
  - intros g w nd. destruct (cb_listener cb r) eqn:E; [|discriminate]. intros [= <-]. apply (HL _ _ w nd esv p E).
  - intros g w nd. destruct (cb_handler cb r) eqn:E; [|discriminate]. intros [= <-]. apply (HH _ _ w nd esv p E).
Qed.

Lemma exec_respects (cb : callbacks W) w nd m st : respects R cb ->
  executeMessageListeners cb w nd m = Ok st -> R nd (r_node st).
Proof.
  intros HK. unfold executeMessageListeners. destruct (LookupObject nd (DEOJ m)) as [r|]; [|discriminate].
  pose proof (call_back_respects (mkRun w nd [] false) (CallNode m)
    (option_map (fun g w nd => g w nd m) (cb_node cb))) as A.
  destruct (call_back _ _ _) as [s e]. cbn [fst r_node] in A.
  rewrite (msg_loop m (fun p st => Ok (notify cb r (m_esv m) st p))).
  - rewrite (for_each_Ok (fun p st => notify cb r (m_esv m) st p)).
    intros [= <-]. apply (R_trans _ (r_node (set_err s e))).
    + apply A. intros g w' nd'. destruct (cb_node cb) eqn:E; [|discriminate]. intros [= <-].
      destruct HK as (HN & _). apply (HN _ w' nd' m E).
    + generalize (set_err s e) as s0. induction (visited m) as [|p l IH]; intros s0; [apply R_refl|].
      cbn [fold_left]. eapply R_trans; [apply notify_respects, HK|apply IH].
  - intros n st'. rewrite MsgProperty_nth. cbn [bind]. destruct (nth_error (m_ep m) n); [|reflexivity].
    unfold notify. destruct (notifyPropertyRequest _ _ _ _ _). reflexivity.
Qed.

End Respects.

(** Callbacks that leave the node alone. *)
Definition keeps_node (cb : callbacks W) : Prop := respects (fun nd nd' => nd' = nd) cb.

Lemma exec_keeps (cb : callbacks W) w nd m st : keeps_node cb ->
  executeMessageListeners cb w nd m = Ok st -> r_node st = nd.
Proof. apply exec_respects; congruence. Qed.

(** Callbacks that use the library: what they do to the node is a sequence of
    library calls. *)
Definition calls_library (nd nd' : node) : Prop :=
  exists ops, Forall node_op_ok ops /\ for_each ops node_step nd = Ok nd'.

Lemma for_each_app {A S : Type} (f : A -> S -> res S) l l' : forall s,
  for_each (l ++ l') f s = (s' <- for_each l f s ;; for_each l' f s').
Proof.
  induction l as [|a l IH]; intros s; [reflexivity|]. cbn [app for_each].
  destruct (f a s); [cbn [bind]; apply IH|reflexivity|reflexivity].
Qed.

Lemma exec_library (cb : callbacks W) w nd m st : respects calls_library cb ->
  executeMessageListeners cb w nd m = Ok st -> calls_library nd (r_node st).
Proof.
  apply exec_respects.
  - intros x. exists []. split; [constructor|reflexivity].
  - intros a b c (o1 & A1 & A2) (o2 & B1 & B2). exists (o1 ++ o2). split; [apply Forall_app; auto|].
    rewrite for_each_app, A2. exact B2.
Qed.

End Run.

(** ** Responses *)

Definition found (o : object) (p : pprop) : list pprop :=
  match LookupProperty (o_props o) (pp_code p) with Some q => [ToProtocol q] | None => [] end.

Definition response_for (o : object) (req : message) : message :=
  fold_left AddProperty (flat_map (found o) (visited req)) (NewResponseMessageWithMessage req).

Lemma createResponse_eq nd req r o : LookupObject nd (DEOJ req) = Some r -> obj_at nd r = Some o ->
  createResponseMessageForRequestMessage nd req = Ok (response_for o req).
Proof.
  intros H1 H2. unfold createResponseMessageForRequestMessage. rewrite H1, H2.
  rewrite (msg_loop req (fun p acc => Ok (fold_left AddProperty (found o p) acc))).
  - rewrite (for_each_Ok (fun p acc => fold_left AddProperty (found o p) acc)). f_equal.
    unfold response_for. generalize (NewResponseMessageWithMessage req) as m0.
    induction (visited req) as [|p l IH]; intros m0; [reflexivity|].
    cbn [fold_left flat_map]. rewrite fold_left_app. apply IH.
  - intros n acc. rewrite MsgProperty_nth. cbn [bind]. destruct (nth_error (m_ep req) n) as [p|]; [|reflexivity].
    unfold found. destruct (LookupProperty (o_props o) (pp_code p)); reflexivity.
Qed.

Lemma fold_AddProperty_rest ps : forall m,
  let m' := fold_left AddProperty ps m in
  m_ehd1 m' = m_ehd1 m /\ m_ehd2 m' = m_ehd2 m /\ m_tid m' = m_tid m /\
  m_seoj m' = m_seoj m /\ m_deoj m' = m_deoj m /\ m_esv m' = m_esv m.
Proof.
  induction ps as [|p ps IH]; intros m; cbn [fold_left].
  - repeat split.
  - apply (IH (AddProperty m p)).
Qed.

Lemma found_length o l : (length (flat_map (found o) l) <= length l)%nat.
Proof.
  induction l as [|p l IH]; [reflexivity|]. cbn [flat_map length]. rewrite app_length.
  assert (length (found o p) <= 1)%nat by (unfold found; destruct (LookupProperty _ _); cbn; lia). lia.
Qed.

Lemma response_for_spec o req : received req ->
  let r := response_for o req in
  TID r = TID req /\ SEOJ r = DEOJ req /\ DEOJ r = SEOJ req /\ m_esv r = response_esv (m_esv req) /\
  m_ep r = flat_map (found o) (m_ep req) /\ OPC r = Z.of_nat (length (m_ep r)).
Proof.
  intros HR r. pose proof (received_header req HR) as (H1 & H2 & H3 & H4 & H5 & H6 & H7).
  destruct (response_facts req H1 H2 H3) as (R1 & R2 & R3 & R4 & R5 & R6).
  subst r. unfold response_for. rewrite (received_visited req HR).
  set (ps := flat_map (found o) (m_ep req)).
  destruct (fold_AddProperty_rest ps (NewResponseMessageWithMessage req)) as (_ & _ & E3 & E4 & E5 & E6).
  pose proof (fold_AddProperty_ep ps (NewResponseMessageWithMessage req)) as E7.
  assert (Hl : 0 <= m_opc (NewResponseMessageWithMessage req) < 256) by (unfold OPC in R6; lia).
  pose proof (fold_AddProperty_opc ps (NewResponseMessageWithMessage req) Hl) as E8.
  rewrite R5 in E7. cbn [app] in E7.
  unfold TID, SEOJ, DEOJ, OPC in *. rewrite E3, E4, E5, E6, E7, E8, R6.
  repeat (split; [assumption|]). split; [reflexivity|].
  pose proof (found_length o (m_ep req)) as FL. fold ps in FL. unfold len.
  apply Z.mod_small. lia.
Qed.

(** ** Library calls keep objects and properties *)

Lemma grows_refl o : grows o o.
Proof. split; auto. Qed.

Lemma grows_trans a b c : grows a b -> grows b c -> grows a c.
Proof. intros [A1 A2] [B1 B2]. split; [congruence|auto]. Qed.

Lemma put_grows l i f j o : (forall o, grows o (f o)) -> nth_error l j = Some o ->
  exists o', nth_error (put_list l i f) j = Some o' /\ grows o o'.
Proof.
  intros Hf Hj. unfold put_list. destruct (nth_error l i) as [x|] eqn:Ei.
  - destruct (Nat.eq_dec i j) as [->|N].
    + assert (x = o) by congruence. subst x. exists (f o). split; [|apply Hf].
      clear Ei. revert j Hj. induction l as [|y l IH]; intros [|j] Hj; try discriminate Hj; cbn in *; auto.
    + exists o. split; [|apply grows_refl]. clear Ei. revert i j N Hj.
      induction l as [|y l IH]; intros [|i] [|j] N Hj; try discriminate Hj; cbn in *; auto; try congruence.
  - exists o. split; [assumption|apply grows_refl].
Qed.

Lemma core_step_grows op k i o : nth_error (k_devs k) i = Some o ->
  exists o', nth_error (k_devs (core_step op k)) i = Some o' /\ grows o o'.
Proof.
  intros H. destruct op; cbn [core_step k_devs]; try (exists o; split; [assumption|apply grows_refl]).
  - exists o. split; [|apply grows_refl]. rewrite nth_error_app1; [assumption|].
    apply nth_error_Some. congruence.
  - exists (setman c o). split; [apply map_nth_error; assumption|apply setd_grows].
  - destruct r; cbn [put_core k_devs]; [apply put_grows; [apply setd_grows|assumption]|].
    exists o. split; [assumption|apply grows_refl].
  - destruct r; cbn [put_core k_devs]; [apply put_grows; [apply add_std_grows|assumption]|].
    exists o. split; [assumption|apply grows_refl].
  - exists o. split; [destruct server; assumption|apply grows_refl].
Qed.

Lemma history_grows ops : forall k i o, nth_error (k_devs k) i = Some o ->
  exists o', nth_error (k_devs (fold_left (fun k op => core_step op k) ops k)) i = Some o' /\ grows o o'.
Proof.
  induction ops as [|op ops IH]; intros k i o H; cbn [fold_left].
  - exists o. split; [assumption|apply grows_refl].
  - destruct (core_step_grows op k i o H) as (o1 & H1 & G1).
    destruct (IH _ i o1 H1) as (o2 & H2 & G2). exists o2. split; [assumption|]. eapply grows_trans; eauto.
Qed.

(** Facts about messages that are handled at the same time. *)

From Verif Require Import Go GoFacts Encoding EncodingFacts Protocol Parser MessageFacts ParserFacts
  ProtocolFacts StdDB Property PropertyFacts Object ObjectFacts Spec Node NodeFacts Handler HandlerFacts
  Remote Concurrent.
From Coq Require Import ZifyBool ZifyNat.
Local Open Scope Z_scope.

Lemma skipn_nth {A} (l : list A) : forall a x, nth_error l a = Some x -> skipn a l = x :: skipn (S a) l.
Proof.
  induction l as [|y l IH]; intros [|a] x E; try discriminate E.
  - injection E as <-. reflexivity.
  - exact (IH a x E).
Qed.

Lemma loop_visited m : loop_properties m = visited m.
Proof.
  unfold loop_properties, visited, OPC. generalize (Z.to_nat (m_opc m)) as k. intros k.
  assert (H : forall k a, flat_map (fun n => match MsgProperty m (Z.of_nat n) with Ok (Some p) => [p] | _ => [] end) (seq a k)
                          = firstn k (skipn a (m_ep m))).
  { clear k. induction k as [|k IH]; intros a; [reflexivity|]. cbn [seq flat_map]. rewrite MsgProperty_nth, IH.
    destruct (nth_error (m_ep m) a) as [p|] eqn:E.
    - rewrite (skipn_nth _ _ _ E). reflexivity.
    - apply nth_error_None in E. rewrite !skipn_all2 by lia. rewrite !firstn_nil. reflexivity. }
  rewrite H. reflexivity.
Qed.

(** ** One handling alone *)

Section Alone.
Context {W : Type}.
Variable cb : callbacks W.
Variable m : message.

Definition hnext (s : W * node * phase) : W * node * phase := let '(w, nd, ph) := s in hstep cb m w nd ph.

Definition reaches (s s' : W * node * phase) : Prop := exists k, Nat.iter k hnext s = s'.

Lemma reaches_refl s : reaches s s.
Proof. exists 0%nat. reflexivity. Qed.

Lemma iter_add {A} (f : A -> A) j k x : Nat.iter (j + k) f x = Nat.iter k f (Nat.iter j f x).
Proof.
  revert x. induction k as [|k IH]; intros x; [rewrite Nat.add_0_r; reflexivity|].
  rewrite Nat.add_succ_r. cbn [Nat.iter nat_rect]. f_equal. apply IH.
Qed.

Lemma reaches_trans a b c : reaches a b -> reaches b c -> reaches a c.
Proof. intros [j Hj] [k Hk]. exists (j + k)%nat. rewrite iter_add, Hj. exact Hk. Qed.

Lemma reaches_step s s' : reaches (hnext s) s' -> reaches s s'.
Proof. intros H. eapply reaches_trans; [exists 1%nat; reflexivity|exact H]. Qed.

Lemma check_loop w nd r o l : obj_at nd r = Some o ->
  reaches (w, nd, HCheck r l) (w, nd, if forallb (check_property o (m_esv m)) l then HListeners else HRefuse).
Proof.
  intros H. induction l as [|p l IH]; apply reaches_step; cbn [hnext hstep forallb].
  - apply reaches_refl.
  - rewrite H. destruct (check_property o (m_esv m) p); [exact IH|apply reaches_refl].
Qed.

Lemma listen_loop r l : forall st : run W,
  reaches (r_world st, r_node st, HListen r l (r_err st))
    (let st' := fold_left (notify cb r (m_esv m)) l st in (r_world st', r_node st', HListen r [] (r_err st'))).
Proof.
  induction l as [|p l IH]; intros st; [apply reaches_refl|]. cbn [fold_left].
  apply reaches_step, reaches_step.
  replace (hnext (hnext (r_world st, r_node st, HListen r (p :: l) (r_err st)))) with
    (r_world (notify cb r (m_esv m) st p), r_node (notify cb r (m_esv m) st p),
     HListen r l (r_err (notify cb r (m_esv m) st p))); [apply IH|].
  unfold notify, notifyPropertyRequest, call_back. cbn [hnext hstep]. unfold call.
  destruct (cb_listener cb r) as [g|]; cbn [option_map].
  - destruct (g (r_world st) (r_node st) (m_esv m) p) as [[w1 n1] e1]. cbn [hnext hstep r_world r_node].
    unfold call. destruct (cb_handler cb r) as [h|]; cbn [option_map].
    + destruct (h w1 n1 (m_esv m) p) as [[w2 n2] e2]. cbn. rewrite Bool.orb_assoc. reflexivity.
    + cbn. rewrite Bool.orb_assoc. reflexivity.
  - cbn [hnext hstep r_world r_node].
    unfold call. destruct (cb_handler cb r) as [h|]; cbn [option_map].
    + destruct (h (r_world st) (r_node st) (m_esv m) p) as [[w2 n2] e2]. cbn. rewrite Bool.orb_false_r. reflexivity.
    + cbn. rewrite !Bool.orb_false_r. reflexivity.
Qed.

Lemma answer_loop w nd r o l : obj_at nd r = Some o -> forall acc,
  reaches (w, nd, HAnswer r l acc) (w, nd, HAnswer r [] (fold_left AddProperty (flat_map (found o) l) acc)).
Proof.
  intros H. induction l as [|p l IH]; intros acc; [apply reaches_refl|].
  apply reaches_step. cbn [hnext hstep flat_map]. rewrite H, fold_left_app.
  unfold found at 2. destruct (LookupProperty (o_props o) (pp_code p)); apply IH.
Qed.

Lemma exec_eq w nd r : LookupObject nd (DEOJ m) = Some r ->
  let '(w1, n1, e1) := call (option_map (fun g w nd => g w nd m) (cb_node cb)) w nd in
  exists cs, executeMessageListeners cb w nd m = Ok (fold_left (notify cb r (m_esv m)) (visited m) (mkRun w1 n1 cs e1)).
Proof.
  intros H. unfold executeMessageListeners. rewrite H.
  assert (L : forall s : run W, for_range (Z.to_nat (OPC m)) 0
        (fun n st => p <- MsgProperty m n ;;
           match p with
           | None => Ok st
           | Some p => let '(st, e) := notifyPropertyRequest cb r (m_esv m) p st in Ok (set_err st e)
           end) s = Ok (fold_left (notify cb r (m_esv m)) (visited m) s)).
  { intros s. rewrite (msg_loop m (fun p st => Ok (notify cb r (m_esv m) st p))).
    - rewrite (for_each_Ok (fun p st => notify cb r (m_esv m) st p)). reflexivity.
    - intros n st. rewrite MsgProperty_nth. cbn [bind]. destruct (nth_error (m_ep m) n); [|reflexivity].
      unfold notify. destruct (notifyPropertyRequest _ _ _ _ _). reflexivity. }
  unfold call, call_back. destruct (cb_node cb) as [g|]; cbn [option_map r_world r_node].
  - destruct (g w nd m) as [[w1 n1] e1]. rewrite L. eexists. unfold set_err. cbn [r_world r_node r_calls r_err orb]. reflexivity.
  - rewrite L. eexists. unfold set_err. cbn [r_world r_node r_calls r_err orb]. reflexivity.
Qed.

Lemma alone w nd : let out := ProtocolMessageReceived cb w nd None m in
  reaches (w, nd, HArrived) (out_world out, out_node out, HDone (out_reply out)).
Proof.
  intros out. subst out. unfold ProtocolMessageReceived. apply reaches_step. cbn [hnext hstep].
  destruct (negb (n_self nd) && addr_eqb (m_from m) (n_addr nd)); [apply reaches_refl|].
  cbn [isResponseMessage]. rewrite validate_eq. unfold valid_b.
  assert (REF : reaches (w, nd, HRefuse) (w, nd, HDone (r <- NewImpossibleMessageWithMessage m ;; Ok (Some r)))).
  { apply reaches_step, reaches_refl. }
  destruct (LookupObject nd (DEOJ m)) as [r|] eqn:EL; [|exact REF].
  destruct (LookupObject_at nd (DEOJ m) r EL) as (o & EO & _). rewrite EO.
  destruct (ESV_IsValid (m_esv m)); cbn [negb andb]; [|exact REF].
  assert (RUN : reaches (w, nd, HListeners)
     (let out := match executeMessageListeners cb w nd m with
            | Panic => mkOutcome w nd [] false Panic
            | Err e => mkOutcome w nd [] false (Err e)
            | Ok st =>
                let out := mkOutcome (r_world st) (r_node st) (r_calls st) false in
                if r_err st then out (Err ErrOther)
                else if negb (ESV_IsResponseRequired (m_esv m)) then out (Ok None)
                else out (r <- createResponseMessageForRequestMessage (r_node st) m ;; Ok (Some r))
            end in (out_world out, out_node out, HDone (out_reply out)))).
  { apply reaches_step. cbn [hnext hstep]. rewrite EL. pose proof (exec_eq w nd r EL) as X.
    destruct (call _ w nd) as [[w1 n1] e1]. destruct X as [cs X]. rewrite X, loop_visited.
    set (st := fold_left _ _ _). cbn zeta.
    eapply reaches_trans; [apply (listen_loop r (visited m) (mkRun w1 n1 cs e1))|]. fold st. cbn zeta.
    apply reaches_step. cbn [hnext hstep]. destruct (r_err st); [apply reaches_refl|].
    destruct (negb (ESV_IsResponseRequired (m_esv m))); [apply reaches_refl|].
    cbn [out_world out_node out_reply]. apply reaches_step. cbn [hnext hstep].
    destruct (LookupObject (r_node st) (DEOJ m)) as [r'|] eqn:EL'.
    - destruct (LookupObject_at _ _ _ EL') as (o' & EO' & _).
      rewrite (createResponse_eq _ _ _ _ EL' EO'). cbn [bind]. rewrite loop_visited.
      eapply reaches_trans; [apply (answer_loop _ _ _ _ _ EO')|]. apply reaches_step. apply reaches_refl.
    - unfold createResponseMessageForRequestMessage. rewrite EL'. apply reaches_refl. }
  unfold checked. destruct (ESV_IsReadRequest (m_esv m) || ESV_IsWriteRequest (m_esv m))%bool; cbn [negb orb].
  - rewrite loop_visited. eapply reaches_trans; [apply (check_loop w nd r o _ EO)|].
    destruct (forallb _ _); [exact RUN|exact REF].
  - exact RUN.
Qed.

End Alone.

Lemma nth_error_mid {A} (l : list A) x l' : nth_error (l ++ x :: l') (length l) = Some x.
Proof. induction l as [|a l IH]; [reflexivity|exact IH]. Qed.

Lemma set_nth_mid {A} (l : list A) x y l' : set_nth (l ++ x :: l') (length l) y = l ++ y :: l'.
Proof. induction l as [|a l IH]; [reflexivity|]. cbn. f_equal. exact IH. Qed.

Lemma sys_alone {W} (cb : callbacks W) m ts ts' k : forall w nd ph,
  sys_run cb (mkSys w nd (ts ++ (m, ph) :: ts')) (repeat (EStep (length ts)) k) =
  let '(w', nd', ph') := Nat.iter k (hnext cb m) (w, nd, ph) in mkSys w' nd' (ts ++ (m, ph') :: ts').
Proof.
  induction k as [|k IH]; intros w nd ph; [reflexivity|].
  replace (S k) with (1 + k)%nat by reflexivity. rewrite iter_add.
  cbn [repeat Nat.add]. unfold sys_run in *. cbn [fold_left sys_step s_handlings s_world s_node]. rewrite nth_error_mid.
  cbn [Nat.iter nat_rect hnext]. destruct (hstep cb m w nd ph) as [[w1 n1] ph1]. rewrite set_nth_mid. apply IH.
Qed.

(** ** What concurrent writers do not change *)

Definition prop_shape (q : property) := (p_code q, p_get q, p_set q, p_anno q, length (p_data q)).
Definition obj_shape (o : object) := (o_codes o, map prop_shape (o_props o)).
Definition node_shape (nd : node) :=
  (map obj_shape (n_devices nd), map obj_shape (n_profiles nd), n_addr nd, n_self nd).

Definition same_shape (nd nd' : node) : Prop := node_shape nd' = node_shape nd.

Lemma same_refl nd : same_shape nd nd.
Proof. reflexivity. Qed.

Lemma same_trans a b c : same_shape a b -> same_shape b c -> same_shape a c.
Proof. unfold same_shape. congruence. Qed.

Lemma same_sym a b : same_shape a b -> same_shape b a.
Proof. unfold same_shape. congruence. Qed.

Lemma shape_find objs : forall objs' code, map obj_shape objs' = map obj_shape objs ->
  find_code objs' code = find_code objs code.
Proof.
  induction objs as [|o objs IH]; intros [|o' objs'] code H; try discriminate H; [reflexivity|].
  cbn [map] in H. assert (A : o_codes o' = o_codes o) by (unfold obj_shape in H; congruence).
  assert (B : map obj_shape objs' = map obj_shape objs) by congruence.
  cbn [find_code]. unfold Code. rewrite A, (IH objs' code B). reflexivity.
Qed.

Lemma shape_nth objs : forall objs' i o, map obj_shape objs' = map obj_shape objs ->
  nth_error objs i = Some o -> exists o', nth_error objs' i = Some o' /\ obj_shape o' = obj_shape o.
Proof.
  induction objs as [|x objs IH]; intros [|x' objs'] [|i] o H E; try discriminate H; try discriminate E.
  - injection E as <-. exists x'. cbn [map] in H. split; [reflexivity|congruence].
  - apply (IH objs' i o); [cbn [map] in H; congruence|exact E].
Qed.

Lemma same_lookup nd nd' code : same_shape nd nd' -> LookupObject nd' code = LookupObject nd code.
Proof.
  unfold same_shape, node_shape. intros H. unfold LookupObject, LookupDevice, LookupProfile.
  rewrite (shape_find (n_devices nd) (n_devices nd')), (shape_find (n_profiles nd) (n_profiles nd')) by congruence.
  reflexivity.
Qed.

Lemma same_at nd nd' r o : same_shape nd nd' -> obj_at nd r = Some o ->
  exists o', obj_at nd' r = Some o' /\ obj_shape o' = obj_shape o.
Proof.
  unfold same_shape, node_shape. intros H. destruct r as [i|i]; cbn [obj_at]; apply shape_nth; congruence.
Qed.

Lemma shape_props ps : forall ps' code, map prop_shape ps' = map prop_shape ps ->
  match LookupProperty ps' code, LookupProperty ps code with
  | Some q', Some q => prop_shape q' = prop_shape q
  | None, None => True
  | _, _ => False
  end.
Proof.
  unfold LookupProperty. induction ps as [|q ps IH]; intros [|q' ps'] code H; try discriminate H; [exact I|].
  cbn [map] in H. assert (A : prop_shape q' = prop_shape q) by congruence.
  assert (B : map prop_shape ps' = map prop_shape ps) by congruence.
  assert (C : p_code q' = p_code q) by (unfold prop_shape in A; congruence).
  cbn [find]. rewrite C. destruct (p_code q =? code); [exact A|]. apply (IH ps' code B).
Qed.

Lemma same_check o o' esv p : obj_shape o' = obj_shape o -> check_property o' esv p = check_property o esv p.
Proof.
  intros H. assert (A : map prop_shape (o_props o') = map prop_shape (o_props o)) by (unfold obj_shape in H; congruence).
  pose proof (shape_props _ _ (pp_code p) A) as B. unfold check_property.
  destruct (LookupProperty (o_props o') (pp_code p)) as [q'|], (LookupProperty (o_props o) (pp_code p)) as [q|];
    try contradiction; [|reflexivity].
  unfold prop_shape in B. unfold IsAvailableService, IsReadable, IsWritable, IsAnnounceable, len.
  assert (E1 : p_get q' = p_get q) by congruence. assert (E2 : p_set q' = p_set q) by congruence.
  assert (E3 : p_anno q' = p_anno q) by congruence. assert (E4 : length (p_data q') = length (p_data q)) by congruence.
  rewrite ?E1, ?E2, ?E3, E4. reflexivity.
Qed.

Lemma same_own nd nd' m : same_shape nd nd' ->
  negb (n_self nd') && addr_eqb (m_from m) (n_addr nd') = negb (n_self nd) && addr_eqb (m_from m) (n_addr nd).
Proof.
  unfold same_shape, node_shape. intros H. assert (A : n_self nd' = n_self nd) by congruence.
  assert (B : n_addr nd' = n_addr nd) by congruence. rewrite A, B. reflexivity.
Qed.

Lemma same_valid nd nd' m : same_shape nd nd' -> valid_b nd' m = valid_b nd m.
Proof.
  intros H. unfold valid_b. rewrite (same_lookup _ _ _ H). destruct (LookupObject nd (DEOJ m)) as [r|] eqn:E; [|reflexivity].
  destruct (LookupObject_at _ _ _ E) as (o & Eo & _). destruct (same_at _ _ _ _ H Eo) as (o' & Eo' & S). rewrite Eo, Eo'.
  replace (forallb (check_property o' (m_esv m)) (visited m)) with (forallb (check_property o (m_esv m)) (visited m)); [reflexivity|].
  induction (visited m) as [|p l IH]; [reflexivity|]. cbn [forallb]. rewrite (same_check _ _ _ _ S), IH. reflexivity.
Qed.

(** C110: requests for one object do not touch another. *)

From Verif Require Import Go GoFacts Encoding EncodingFacts Protocol Parser MessageFacts ParserFacts
  ProtocolFacts StdDB Property PropertyFacts Object ObjectFacts Spec Node NodeFacts
  Handler HandlerFacts PropsHandler Concurrent ConcurrentFacts PropsConcurrent PropsMemory.
From Verif Require AliasFacts PropsRemote.
From Coq Require Import ZifyBool ZifyNat.
Local Open Scope Z_scope.

(** ** Statement vocabulary *)

(** What the network knows of a node: the codes of its objects, its address and
    whether it hears itself. *)
Definition outline (nd : node) : list Z * list Z * address * bool :=
  (map Code (n_devices nd), map Code (n_profiles nd), n_addr nd, n_self nd).

Section Isolation.
Context {W V : Type}.
(** The part of the state of the application that belongs to an object. *)
Variable part : objref -> W -> V.

(** Two states of application and node that agree on the object [r]. *)
Definition agree (r : objref) (w1 : W) (nd1 : node) (w2 : W) (nd2 : node) : Prop :=
  outline nd1 = outline nd2 /\ part r w1 = part r w2 /\ obj_at nd1 r = obj_at nd2 r.

(** A callback of the object [r] that minds its own business: it changes nothing
    of the other objects and what it does depends only on its object. *)
Definition minds (r : objref) (g : W -> node -> Z -> pprop -> W * node * bool) : Prop :=
  (forall w nd esv p r', r' <> r -> agree r' w nd (fst (fst (g w nd esv p))) (snd (fst (g w nd esv p)))) /\
  (forall w nd esv p, outline (snd (fst (g w nd esv p))) = outline nd) /\
  (forall w1 nd1 w2 nd2 esv p, agree r w1 nd1 w2 nd2 ->
     snd (g w1 nd1 esv p) = snd (g w2 nd2 esv p) /\
     agree r (fst (fst (g w1 nd1 esv p))) (snd (fst (g w1 nd1 esv p))) (fst (fst (g w2 nd2 esv p))) (snd (fst (g w2 nd2 esv p)))).

(** The callbacks of each object mind their own business, and the listener of
    the node, if any, decides by the message alone and changes no object. *)
Definition separate (cb : callbacks W) : Prop :=
  (forall g, cb_node cb = Some g ->
     (forall w nd m r, agree r w nd (fst (fst (g w nd m))) (snd (fst (g w nd m)))) /\
     (forall w1 nd1 w2 nd2 m, snd (g w1 nd1 m) = snd (g w2 nd2 m))) /\
  (forall r g, cb_listener cb r = Some g -> minds r g) /\
  (forall r g, cb_handler cb r = Some g -> minds r g).

End Isolation.

(** A message that came in, with the request waited for at that moment. *)
Definition arrival : Type := option message * message.

(** What comes of a message: the callbacks with their results, the hand-over to
    a waiting request, and the answer. *)
Definition noticed : Type := list (cb_call * bool) * bool * res (option message).

(** The node handles the messages one after the other. *)
Fixpoint history {W : Type} (cb : callbacks W) (w : W) (nd : node) (l : list arrival) : list (arrival * noticed) :=
  match l with
  | [] => []
  | a :: l =>
      let out := ProtocolMessageReceived cb w nd (fst a) (snd a) in
      (a, (out_calls out, out_delivered out, out_reply out)) :: history cb (out_world out) (out_node out) l
  end.

Fixpoint final {W : Type} (cb : callbacks W) (w : W) (nd : node) (l : list arrival) : W * node :=
  match l with
  | [] => (w, nd)
  | a :: l => let out := ProtocolMessageReceived cb w nd (fst a) (snd a) in final cb (out_world out) (out_node out) l
  end.

Definition ref_eq_dec (a b : option objref) : {a = b} + {a <> b}.
Proof. repeat decide equality. Defined.

(** The messages that the node [nd] takes to be for its object [r]; [None]: for
    no object of the node. *)
Definition meant (nd : node) (r : option objref) (a : arrival) : bool :=
  if ref_eq_dec (LookupObject nd (DEOJ (snd a))) r then true else false.

(** ** Facts *)

Section Facts.
Context {W V : Type}.
Variable part : objref -> W -> V.
Variable cb : callbacks W.
Hypothesis HS : separate part cb.

Lemma agree_refl r (w : W) nd : agree part r w nd w nd.
Proof. repeat split. Qed.
Lemma agree_sym r w1 nd1 w2 nd2 : agree part r w1 nd1 w2 nd2 -> agree part r w2 nd2 w1 nd1.
Proof. intros (A & B & C). repeat split; congruence. Qed.
Lemma agree_trans r w1 nd1 w2 nd2 w3 nd3 :
  agree part r w1 nd1 w2 nd2 -> agree part r w2 nd2 w3 nd3 -> agree part r w1 nd1 w3 nd3.
Proof. intros (A & B & C) (A' & B' & C'). repeat split; congruence. Qed.

Lemma find_outline l : forall l' code, map Code l = map Code l' -> find_code l code = find_code l' code.
Proof.
  induction l as [|o l IH]; intros [|o' l'] code H; try discriminate; [reflexivity|].
  cbn [map] in H. injection H as E1 E2. cbn [find_code]. rewrite E1, (IH l' code E2). reflexivity.
Qed.

Lemma lookup_outline nd nd' code : outline nd = outline nd' -> LookupObject nd code = LookupObject nd' code.
Proof.
  unfold outline. intros H. injection H as H1 H2 _ _. unfold LookupObject, LookupDevice, LookupProfile.
  rewrite (find_outline _ _ code H1), (find_outline _ _ code H2). reflexivity.
Qed.

(** One callback of the object [r], in two runs that agree on [r]. *)
Definition agree_run (r : objref) (s1 s2 : run W) : Prop :=
  agree part r (r_world s1) (r_node s1) (r_world s2) (r_node s2) /\ r_calls s1 = r_calls s2 /\ r_err s1 = r_err s2.

Lemma call_same r c esv p f (s1 s2 : run W) : (forall g, f = Some g -> minds part r g) -> agree_run r s1 s2 ->
  let F := option_map (fun (g : W -> node -> Z -> pprop -> W * node * bool) w nd => g w nd esv p) f in
  agree_run r (fst (call_back s1 c F)) (fst (call_back s2 c F)) /\ snd (call_back s1 c F) = snd (call_back s2 c F).
Proof.
  intros HF (A & B & C). cbv zeta. destruct f as [g|]; cbn [option_map call_back]; [|repeat split; try apply A; assumption].
  destruct (HF g eq_refl) as (_ & _ & M). destruct (M _ _ _ _ esv p A) as (E & A').
  destruct (g (r_world s1) (r_node s1) esv p) as [[w1 n1] e1], (g (r_world s2) (r_node s2) esv p) as [[w2 n2] e2].
  cbn [fst snd] in *. subst e2. split; [|reflexivity]. split; [exact A'|]. cbn [r_calls r_err]. split; congruence.
Qed.

Lemma notify_same r esv p (s1 s2 : run W) : agree_run r s1 s2 -> agree_run r (notify cb r esv s1 p) (notify cb r esv s2 p).
Proof.
  intros H. destruct HS as (_ & HL & HH). unfold notify, notifyPropertyRequest.
  pose proof (call_same r (CallListener r esv p) esv p (cb_listener cb r) s1 s2 (HL r) H) as X. cbv zeta in X.
  destruct (call_back s1 _ _) as [t1 e1], (call_back s2 _ _) as [t2 e2]. cbn [fst snd] in X. destruct X as (X & ->).
  pose proof (call_same r (CallHandler r esv p) esv p (cb_handler cb r) t1 t2 (HH r) X) as Y. cbv zeta in Y.
  destruct (call_back t1 _ _) as [u1 f1], (call_back t2 _ _) as [u2 f2]. cbn [fst snd] in Y. destruct Y as ((Y1 & Y2 & Y3) & ->).
  unfold agree_run, set_err. cbn [r_world r_node r_calls r_err]. rewrite Y2, Y3. auto.
Qed.

(** A callback of [r], seen from another object. *)
Lemma call_other r r' c esv p f (s : run W) : (forall g, f = Some g -> minds part r g) -> r' <> r ->
  let F := option_map (fun (g : W -> node -> Z -> pprop -> W * node * bool) w nd => g w nd esv p) f in
  agree part r' (r_world s) (r_node s) (r_world (fst (call_back s c F))) (r_node (fst (call_back s c F))).
Proof.
  intros HF N. cbv zeta. destruct f as [g|]; cbn [option_map call_back]; [|apply agree_refl].
  destruct (HF g eq_refl) as (M & _). specialize (M (r_world s) (r_node s) esv p r' N).
  destruct (g (r_world s) (r_node s) esv p) as [[w1 n1] e1]. exact M.
Qed.

Lemma notify_other r r' esv p (s : run W) : r' <> r ->
  agree part r' (r_world s) (r_node s) (r_world (notify cb r esv s p)) (r_node (notify cb r esv s p)).
Proof.
  intros N. destruct HS as (_ & HL & HH). unfold notify, notifyPropertyRequest.
  pose proof (call_other r r' (CallListener r esv p) esv p (cb_listener cb r) s (HL r) N) as X. cbv zeta in X.
  destruct (call_back s _ _) as [t e]. cbn [fst] in X.
  pose proof (call_other r r' (CallHandler r esv p) esv p (cb_handler cb r) t (HH r) N) as Y. cbv zeta in Y.
  destruct (call_back t _ _) as [u f]. cbn [fst] in Y. exact (agree_trans _ _ _ _ _ _ _ X Y).
Qed.

Lemma call_outline r c esv p f (s : run W) : (forall g, f = Some g -> minds part r g) ->
  let F := option_map (fun (g : W -> node -> Z -> pprop -> W * node * bool) w nd => g w nd esv p) f in
  outline (r_node (fst (call_back s c F))) = outline (r_node s).
Proof.
  intros HF. cbv zeta. destruct f as [g|]; cbn [option_map call_back]; [|reflexivity].
  destruct (HF g eq_refl) as (_ & M & _). specialize (M (r_world s) (r_node s) esv p).
  destruct (g (r_world s) (r_node s) esv p) as [[w1 n1] e1]. exact M.
Qed.

Lemma notify_outline r esv p (s : run W) : outline (r_node (notify cb r esv s p)) = outline (r_node s).
Proof.
  destruct HS as (_ & HL & HH). unfold notify, notifyPropertyRequest.
  pose proof (call_outline r (CallListener r esv p) esv p (cb_listener cb r) s (HL r)) as X. cbv zeta in X.
  destruct (call_back s _ _) as [t e]. cbn [fst] in X.
  pose proof (call_outline r (CallHandler r esv p) esv p (cb_handler cb r) t (HH r)) as Y. cbv zeta in Y.
  destruct (call_back t _ _) as [u f]. cbn [fst] in Y. cbn [set_err r_node]. congruence.
Qed.

Definition start (w : W) (nd : node) (m : message) : run W :=
  let '(st, e) := call_back (mkRun w nd [] false) (CallNode m) (option_map (fun g w nd => g w nd m) (cb_node cb)) in
  set_err st e.

Lemma exec_fold w nd m r : LookupObject nd (DEOJ m) = Some r ->
  executeMessageListeners cb w nd m = Ok (fold_left (notify cb r (m_esv m)) (visited m) (start w nd m)).
Proof.
  intros H. unfold executeMessageListeners, start. rewrite H. destruct (call_back _ _ _) as [s e].
  rewrite (msg_loop m (fun p st => Ok (notify cb r (m_esv m) st p))).
  - rewrite (for_each_Ok (fun p st => notify cb r (m_esv m) st p)). reflexivity.
  - intros n st. rewrite MsgProperty_nth. cbn [bind]. destruct (nth_error (m_ep m) n); [|reflexivity].
    unfold notify. destruct (notifyPropertyRequest _ _ _ _ _). reflexivity.
Qed.

Lemma start_agree w nd m r : agree part r w nd (r_world (start w nd m)) (r_node (start w nd m)).
Proof.
  unfold start. destruct HS as (HN & _). destruct (cb_node cb) as [g|]; cbn [option_map call_back]; [|apply agree_refl].
  destruct (HN g eq_refl) as (A & _). specialize (A w nd m r). cbn [r_world r_node]. destruct (g w nd m) as [[w1 n1] e]. exact A.
Qed.

Lemma start_same w1 nd1 w2 nd2 m : r_calls (start w1 nd1 m) = r_calls (start w2 nd2 m) /\ r_err (start w1 nd1 m) = r_err (start w2 nd2 m).
Proof.
  unfold start. destruct HS as (HN & _). destruct (cb_node cb) as [g|]; cbn [option_map call_back]; [|auto].
  destruct (HN g eq_refl) as (_ & A). specialize (A w1 nd1 w2 nd2 m). cbn [r_world r_node].
  destruct (g w1 nd1 m) as [[a b] e], (g w2 nd2 m) as [[a' b'] e']. cbn [snd] in A. subst e'. auto.
Qed.

Lemma fold_same r esv l : forall s1 s2, agree_run r s1 s2 ->
  agree_run r (fold_left (notify cb r esv) l s1) (fold_left (notify cb r esv) l s2).
Proof. induction l as [|p l IH]; intros s1 s2 H; [exact H|]. cbn [fold_left]. apply IH, notify_same, H. Qed.

Lemma fold_other r r' esv l : r' <> r -> forall s, let t := fold_left (notify cb r esv) l s in
  agree part r' (r_world s) (r_node s) (r_world t) (r_node t).
Proof.
  intros N. induction l as [|p l IH]; intros s; cbn [fold_left]; [apply agree_refl|].
  exact (agree_trans _ _ _ _ _ _ _ (notify_other r r' esv p s N) (IH _)).
Qed.

Lemma fold_outline r esv l : forall s, outline (r_node (fold_left (notify cb r esv) l s)) = outline (r_node s).
Proof. induction l as [|p l IH]; intros s; [reflexivity|]. cbn [fold_left]. rewrite IH. apply notify_outline. Qed.

Lemma exec_err nd m : LookupObject nd (DEOJ m) = None -> valid_b nd m = false.
Proof. intros H. unfold valid_b. rewrite H. reflexivity. Qed.

(** What the handler does to the rest of the node. *)
Lemma step_cases w nd a :
  let out := ProtocolMessageReceived cb w nd (fst a) (snd a) in
  (out_world out = w /\ out_node out = nd) \/
  exists r, LookupObject nd (DEOJ (snd a)) = Some r /\
    let st := fold_left (notify cb r (m_esv (snd a))) (visited (snd a)) (start w nd (snd a)) in
    out_world out = r_world st /\ out_node out = r_node st.
Proof.
  destruct a as [q m]. cbn [fst snd]. unfold ProtocolMessageReceived.
  destruct (negb (n_self nd) && addr_eqb (m_from m) (n_addr nd)); [left; auto|].
  destruct (isResponseMessage q m) as [d|e|]; [|left; auto|left; auto].
  rewrite validate_eq. destruct (valid_b nd m) eqn:EV; [|left; auto].
  destruct (LookupObject nd (DEOJ m)) as [r|] eqn:EL; [|rewrite exec_err in EV by exact EL; discriminate EV].
  right. exists r. split; [reflexivity|]. rewrite (exec_fold w nd m r EL). cbv zeta.
  destruct (r_err _); [auto|]. destruct (negb _); auto.
Qed.

Lemma step_outline w nd a : outline (out_node (ProtocolMessageReceived cb w nd (fst a) (snd a))) = outline nd.
Proof.
  destruct (step_cases w nd a) as [(_ & ->)|(r & _ & _ & ->)]; [reflexivity|]. rewrite fold_outline.
  symmetry. apply (start_agree w nd (snd a) r).
Qed.

Lemma step_other w nd a r : LookupObject nd (DEOJ (snd a)) <> Some r ->
  let out := ProtocolMessageReceived cb w nd (fst a) (snd a) in agree part r w nd (out_world out) (out_node out).
Proof.
  intros N. cbv zeta. destruct (step_cases w nd a) as [(-> & ->)|(r' & EL & -> & ->)]; [apply agree_refl|].
  apply (agree_trans r _ _ _ _ _ _ (start_agree w nd (snd a) r)). apply fold_other. congruence.
Qed.

Lemma create_same nd1 nd2 m r : outline nd1 = outline nd2 -> LookupObject nd1 (DEOJ m) = Some r -> obj_at nd1 r = obj_at nd2 r ->
  createResponseMessageForRequestMessage nd1 m = createResponseMessageForRequestMessage nd2 m.
Proof.
  intros HO EL E. unfold createResponseMessageForRequestMessage. rewrite <- (lookup_outline nd1 nd2 _ HO), EL, E. reflexivity.
Qed.

Lemma step_same w1 nd1 w2 nd2 a r : LookupObject nd1 (DEOJ (snd a)) = Some r -> agree part r w1 nd1 w2 nd2 ->
  let out1 := ProtocolMessageReceived cb w1 nd1 (fst a) (snd a) in
  let out2 := ProtocolMessageReceived cb w2 nd2 (fst a) (snd a) in
  agree part r (out_world out1) (out_node out1) (out_world out2) (out_node out2) /\
  out_calls out1 = out_calls out2 /\ out_delivered out1 = out_delivered out2 /\ out_reply out1 = out_reply out2.
Proof.
  intros EL HA. destruct a as [q m]. cbn [fst snd] in *. cbv zeta. pose proof HA as (HO & _ & HB).
  pose proof EL as EL2. rewrite (lookup_outline nd1 nd2 _ HO) in EL2.
  unfold ProtocolMessageReceived. pose proof HO as HO'. unfold outline in HO'. injection HO' as _ _ E1 E2. rewrite E1, E2.
  destruct (negb (n_self nd2) && addr_eqb (m_from m) (n_addr nd2)); [auto|].
  destruct (isResponseMessage q m) as [d|e|]; [|auto|auto]. rewrite !validate_eq.
  assert (EV : valid_b nd1 m = valid_b nd2 m) by (unfold valid_b; rewrite EL, EL2, HB; reflexivity). rewrite EV.
  destruct (valid_b nd2 m); [|auto]. rewrite (exec_fold w1 nd1 m r EL), (exec_fold w2 nd2 m r EL2).
  assert (AR : agree_run r (fold_left (notify cb r (m_esv m)) (visited m) (start w1 nd1 m))
                           (fold_left (notify cb r (m_esv m)) (visited m) (start w2 nd2 m))).
  { apply fold_same. destruct (start_same w1 nd1 w2 nd2 m) as (S1 & S2). split; [|auto].
    exact (agree_trans _ _ _ _ _ _ _ (agree_sym _ _ _ _ _ (start_agree w1 nd1 m r))
             (agree_trans _ _ _ _ _ _ _ HA (start_agree w2 nd2 m r))). }
  assert (OL : outline (r_node (fold_left (notify cb r (m_esv m)) (visited m) (start w1 nd1 m))) = outline nd1).
  { rewrite fold_outline. symmetry. apply (start_agree w1 nd1 m r). }
  destruct AR as (A & B & C). revert A B C OL.
  generalize (fold_left (notify cb r (m_esv m)) (visited m) (start w1 nd1 m)) as s1.
  generalize (fold_left (notify cb r (m_esv m)) (visited m) (start w2 nd2 m)) as s2.
  intros s2 s1 A B C OL. rewrite B, C. destruct (r_err s2); [auto|]. destruct (negb (ESV_IsResponseRequired (m_esv m))); [auto|].
  cbn [out_world out_node out_calls out_delivered out_reply].
  rewrite (create_same (r_node s1) (r_node s2) m r); [auto|apply A| |apply A].
  rewrite (lookup_outline _ _ _ OL). exact EL.
Qed.

(** For a message for no object only the outline counts. *)
Lemma step_none w1 nd1 w2 nd2 a : LookupObject nd1 (DEOJ (snd a)) = None -> outline nd1 = outline nd2 ->
  let out1 := ProtocolMessageReceived cb w1 nd1 (fst a) (snd a) in
  let out2 := ProtocolMessageReceived cb w2 nd2 (fst a) (snd a) in
  out_calls out1 = out_calls out2 /\ out_delivered out1 = out_delivered out2 /\ out_reply out1 = out_reply out2.
Proof.
  intros EL HO. destruct a as [q m]. cbn [fst snd] in *. cbv zeta.
  pose proof EL as EL2. rewrite (lookup_outline nd1 nd2 _ HO) in EL2.
  unfold ProtocolMessageReceived. unfold outline in HO. injection HO as _ _ E1 E2. rewrite E1, E2.
  destruct (negb (n_self nd2) && addr_eqb (m_from m) (n_addr nd2)); [auto|].
  destruct (isResponseMessage q m) as [d|e|]; [|auto|auto]. rewrite !validate_eq, (exec_err nd1 m EL), (exec_err nd2 m EL2). auto.
Qed.

End Facts.

Lemma meant_outline nd nd' r a : outline nd = outline nd' -> meant nd r a = meant nd' r a.
Proof. intros H. unfold meant. rewrite (lookup_outline nd nd' _ H). reflexivity. Qed.

Lemma meant_yes nd r a : meant nd r a = true <-> LookupObject nd (DEOJ (snd a)) = r.
Proof. unfold meant. destruct (ref_eq_dec _ r); split; congruence. Qed.

Lemma meant_no nd r a : meant nd r a = false <-> LookupObject nd (DEOJ (snd a)) <> r.
Proof. unfold meant. destruct (ref_eq_dec _ r); split; congruence. Qed.

Lemma filter_ext_meant {X} nd nd' r (f : X -> arrival) l : outline nd = outline nd' ->
  filter (fun x => meant nd r (f x)) l = filter (fun x => meant nd' r (f x)) l.
Proof. intros H. apply filter_ext. intros x. apply meant_outline, H. Qed.

Lemma filter_meant nd nd' r l : outline nd = outline nd' -> filter (meant nd r) l = filter (meant nd' r) l.
Proof. intros H. apply filter_ext. intros x. apply meant_outline, H. Qed.

(** ** C110 *)

(** The messages for the other objects can be left out: nothing changes for the
    object, neither what its callbacks see nor what it answers nor what it holds. *)
Lemma purge {W V} (part : objref -> W -> V) cb r : separate part cb -> forall l w1 nd1 w2 nd2,
  agree part r w1 nd1 w2 nd2 ->
  filter (fun x => meant nd1 (Some r) (fst x)) (history cb w1 nd1 l) = history cb w2 nd2 (filter (meant nd1 (Some r)) l) /\
  agree part r (fst (final cb w1 nd1 l)) (snd (final cb w1 nd1 l))
    (fst (final cb w2 nd2 (filter (meant nd1 (Some r)) l))) (snd (final cb w2 nd2 (filter (meant nd1 (Some r)) l))).
Proof.
  intros HS. induction l as [|a l IH]; intros w1 nd1 w2 nd2 HA; [split; [reflexivity|exact HA]|].
  cbn [filter history final fst]. set (out1 := ProtocolMessageReceived cb w1 nd1 (fst a) (snd a)).
  assert (OL : outline nd1 = outline (out_node out1)) by (symmetry; apply (step_outline part cb HS)).
  rewrite (filter_ext_meant nd1 _ (Some r) fst _ OL).
  rewrite (filter_meant nd1 _ (Some r) l OL).
  destruct (meant nd1 (Some r) a) eqn:EM.
  - apply meant_yes in EM. destruct (step_same part cb HS w1 nd1 w2 nd2 a r EM HA) as (A & B & C & D).
    fold out1 in A, B, C, D. cbn [history final]. rewrite B, C, D.
    destruct (IH _ _ _ _ A) as (I1 & I2). split; [f_equal; exact I1|exact I2].
  - apply meant_no in EM. apply IH. pose proof (step_other part cb HS w1 nd1 a r EM) as X. cbv zeta in X. fold out1 in X.
    exact (agree_trans part r _ _ _ _ _ _ (agree_sym part r _ _ _ _ X) HA).
Qed.

Theorem C110_purge : forall (W V : Type) (part : objref -> W -> V) (cb : callbacks W) r w nd l, separate part cb ->
  let own := filter (meant nd (Some r)) l in
  filter (fun x => meant nd (Some r) (fst x)) (history cb w nd l) = history cb w nd own /\
  part r (fst (final cb w nd l)) = part r (fst (final cb w nd own)) /\
  obj_at (snd (final cb w nd l)) r = obj_at (snd (final cb w nd own)) r.
Proof.
  intros W V part cb r w nd l HS. cbv zeta.
  destruct (purge part cb r HS l w nd w nd (agree_refl part r w nd)) as (A & _ & B & C). auto.
Qed.

(** Two nodes that have the object in common answer alike for it, whatever else
    they hold and whatever else they are asked. *)
Theorem C110_noninterference : forall (W V : Type) (part : objref -> W -> V) (cb : callbacks W) r w1 nd1 w2 nd2 l1 l2,
  separate part cb -> agree part r w1 nd1 w2 nd2 -> filter (meant nd1 (Some r)) l1 = filter (meant nd2 (Some r)) l2 ->
  filter (fun x => meant nd1 (Some r) (fst x)) (history cb w1 nd1 l1) =
  filter (fun x => meant nd2 (Some r) (fst x)) (history cb w2 nd2 l2) /\
  agree part r (fst (final cb w1 nd1 l1)) (snd (final cb w1 nd1 l1)) (fst (final cb w2 nd2 l2)) (snd (final cb w2 nd2 l2)).
Proof.
  intros W V part cb r w1 nd1 w2 nd2 l1 l2 HS HA HF.
  destruct (purge part cb r HS l1 w1 nd1 w2 nd2 HA) as (A1 & A2).
  destruct (purge part cb r HS l2 w2 nd2 w2 nd2 (agree_refl part r w2 nd2)) as (B1 & B2).
  rewrite A1, B1, HF. split; [reflexivity|]. rewrite HF in A2. exact (agree_trans part r _ _ _ _ _ _ A2 (agree_sym part r _ _ _ _ B2)).
Qed.

(** What no message is for is not changed. *)
Theorem C110_integrity : forall (W V : Type) (part : objref -> W -> V) (cb : callbacks W) r w nd l, separate part cb ->
  Forall (fun a => LookupObject nd (DEOJ (snd a)) <> Some r) l ->
  obj_at (snd (final cb w nd l)) r = obj_at nd r /\ part r (fst (final cb w nd l)) = part r w.
Proof.
  intros W V part cb r w nd l HS HL. destruct (C110_purge W V part cb r w nd l HS) as (_ & A & B).
  assert (E : filter (meant nd (Some r)) l = []).
  { clear A B. induction HL as [|a l N _ IH]; [reflexivity|]. cbn [filter]. rewrite (proj2 (meant_no nd (Some r) a) N). exact IH. }
  rewrite E in A, B. cbn [final fst snd] in A, B. auto.
Qed.

(** A message for an object the node does not have gets the same answer whatever
    the objects hold, whatever the application is and whatever was asked before. *)
Theorem C110_absent : forall (W V : Type) (part : objref -> W -> V) (cb : callbacks W) w1 nd1 w2 nd2 l1 l2,
  separate part cb -> outline nd1 = outline nd2 -> filter (meant nd1 None) l1 = filter (meant nd2 None) l2 ->
  filter (fun x => meant nd1 None (fst x)) (history cb w1 nd1 l1) =
  filter (fun x => meant nd2 None (fst x)) (history cb w2 nd2 l2).
Proof.
  intros W V part cb. assert (P : separate part cb -> forall l w1 nd1 w2 nd2, outline nd1 = outline nd2 ->
    filter (fun x => meant nd1 None (fst x)) (history cb w1 nd1 l) = history cb w2 nd2 (filter (meant nd1 None) l)).
  { intros HS. induction l as [|a l IH]; intros w1 nd1 w2 nd2 HO; [reflexivity|].
    cbn [filter history fst]. set (out1 := ProtocolMessageReceived cb w1 nd1 (fst a) (snd a)).
    assert (OL : outline nd1 = outline (out_node out1)) by (symmetry; apply (step_outline part cb HS)).
    rewrite (filter_ext_meant nd1 _ None fst _ OL).
    rewrite (filter_meant nd1 _ None l OL).
    destruct (meant nd1 None a) eqn:EM.
    - apply meant_yes in EM. destruct (step_none cb w1 nd1 w2 nd2 a EM HO) as (B & C & D).
      fold out1 in B, C, D. cbn [history]. rewrite B, C, D. f_equal. apply IH.
      rewrite <- OL, HO. symmetry. apply (step_outline part cb HS).
    - apply IH. congruence. }
  intros w1 nd1 w2 nd2 l1 l2 HS HO HF. rewrite (P HS l1 w1 nd1 w2 nd2 HO), (P HS l2 w2 nd2 w2 nd2 eq_refl), HF. reflexivity.
Qed.

(** Without a listener of the node nothing depends on who asks. *)
Theorem C110_sender : forall (W : Type) (cb : callbacks W) w nd pending m a, cb_node cb = None ->
  not_own nd m -> not_own nd (SetFrom m a) ->
  let out := ProtocolMessageReceived cb w nd pending m in
  let out' := ProtocolMessageReceived cb w nd pending (SetFrom m a) in
  out_world out' = out_world out /\ out_node out' = out_node out /\ out_calls out' = out_calls out /\
  out_delivered out' = out_delivered out /\ out_reply out' = out_reply out.
Proof.
  intros W cb w nd pending m a HN H1 H2. cbv zeta.
  assert (O : forall x, not_own nd x -> negb (n_self nd) && addr_eqb (m_from x) (n_addr nd) = false).
  { intros x [->|H]; [reflexivity|]. destruct (addr_eqb _ _) eqn:E; [|apply Bool.andb_false_r]. apply PropsRemote.addr_eqb_iff in E. contradiction. }
  unfold ProtocolMessageReceived. rewrite (O _ H1), (O _ H2).
  assert (E : isResponseMessage pending (SetFrom m a) = isResponseMessage pending m) by reflexivity. rewrite E.
  destruct (isResponseMessage pending m) as [d|e|]; [|auto|auto].
  change (validateReceivedMessage nd (SetFrom m a)) with (validateReceivedMessage nd m).
  destruct (validateReceivedMessage nd m) as [[|]|e|]; [|repeat split|repeat split|repeat split].
  assert (X : executeMessageListeners cb w nd (SetFrom m a) = executeMessageListeners cb w nd m).
  { unfold executeMessageListeners. rewrite HN. reflexivity. }
  rewrite X. destruct (executeMessageListeners cb w nd m) as [st|e|]; [|auto|auto]. destruct (r_err st); [repeat split|].
  change (m_esv (SetFrom m a)) with (m_esv m). destruct (negb _); repeat split.
Qed.

(** Applications that store what they are asked to write, whatever else they
    count or log, are of this kind. *)
Lemma written_other r r' nd p : r' <> r -> obj_at (written r nd p) r' = obj_at nd r'.
Proof.
  intros N. pose proof (on_object_core nd r (fun o => SetPropertyData o (pp_code p) (pp_data p))) as X.
  fold (written r nd p) in X. pose proof (f_equal k_devs X) as X1. pose proof (f_equal k_profs X) as X2.
  destruct r as [i|i], r' as [j|j]; cbn [obj_at core_of k_devs k_profs put_core] in *; rewrite ?X1, ?X2; try reflexivity;
    unfold put_list; destruct (nth_error _ i); try reflexivity; apply AliasFacts.nth_error_set_other; congruence.
Qed.

Lemma shape_outline nd nd' : same_shape nd nd' -> outline nd' = outline nd.
Proof.
  unfold same_shape, node_shape, outline. intros H. injection H as H1 H2 H3 H4. rewrite H3, H4.
  assert (C : forall l l', map obj_shape l' = map obj_shape l -> map Code l' = map Code l).
  { intros l l' E. assert (X : forall k, map Code k = map (fun s => ByteToInteger (fst s)) (map obj_shape k))
      by (intros k; rewrite map_map; reflexivity). rewrite !X, E. reflexivity. }
  rewrite (C _ _ H1), (C _ _ H2). reflexivity.
Qed.

Lemma written_outline r nd p : outline (written r nd p) = outline nd.
Proof.
  unfold written, on_object. destruct (obj_at nd r) as [o|] eqn:Ho; [|reflexivity].
  assert (EC : forall o', fst (fst (SetPropertyData o (pp_code p) (pp_data p))) = o' -> Code o' = Code o).
  { intros o' <-. rewrite SetPropertyData_setd. reflexivity. }
  destruct (SetPropertyData o (pp_code p) (pp_data p)) as [[o' evs] e]. cbn [fst] in *. specialize (EC o' eq_refl).
  unfold commit. rewrite (shape_outline _ _ (announce_same evs (put_at nd r o') (Code o'))).
  destruct r as [i|i]; cbn [put_at]; unfold outline; cbn [with_objects n_devices n_profiles n_addr n_self];
    rewrite AliasFacts.map_set, EC, AliasFacts.set_nth_id; try reflexivity; cbn [obj_at] in Ho; rewrite nth_error_map, Ho; reflexivity.
Qed.

Lemma written_own r nd1 nd2 p : obj_at nd1 r = obj_at nd2 r -> obj_at (written r nd1 p) r = obj_at (written r nd2 p) r.
Proof.
  intros E. destruct (obj_at nd1 r) as [o|] eqn:E1.
  - rewrite (written_at r nd1 p o E1), (written_at r nd2 p o (eq_sym E)). reflexivity.
  - assert (N : forall nd, obj_at nd r = None -> obj_at (written r nd p) r = None).
    { intros nd H. unfold written, on_object. rewrite H. exact H. }
    rewrite (N nd1 E1), (N nd2 (eq_sym E)). reflexivity.
Qed.

Theorem C110_storing : forall (W : Type) (cb : callbacks W), storing cb -> separate (fun _ _ => tt) cb.
Proof.
  intros W cb (HN & HL & HH). split; [|split].
  - intros g Eg. split; [|intros w1 nd1 w2 nd2 m; destruct (HN g w1 nd1 m Eg) as (_ & ->), (HN g w2 nd2 m Eg) as (_ & ->); reflexivity].
    intros w nd m r. destruct (HN g w nd m Eg) as (-> & _). repeat split.
  - intros r g Eg. destruct (HL r) as (g' & Eg' & G). rewrite Eg in Eg'. injection Eg' as <-.
    assert (C : forall w nd esv p, snd (fst (g w nd esv p)) = if ESV_IsWriteRequest esv then written r nd p else nd).
    { intros w nd esv p. destruct (G w nd esv p) as (_ & G1 & G2). destruct (ESV_IsWriteRequest esv) eqn:EW.
      - apply G1, byte_writes, EW.
      - apply G2. intros X. apply byte_writes in X. congruence. }
    split; [|split].
    + intros w nd esv p r' N. rewrite C. destruct (ESV_IsWriteRequest esv); [|repeat split].
      repeat split; [symmetry; apply written_outline|symmetry; apply written_other, N].
    + intros w nd esv p. rewrite C. destruct (ESV_IsWriteRequest esv); [apply written_outline|reflexivity].
    + intros w1 nd1 w2 nd2 esv p (A & _ & B). rewrite !C. destruct (G w1 nd1 esv p) as (-> & _), (G w2 nd2 esv p) as (-> & _).
      split; [reflexivity|]. destruct (ESV_IsWriteRequest esv); repeat split; try assumption.
      * rewrite !written_outline. exact A.
      * apply written_own, B.
  - intros r g Eg. split; [|split].
    + intros w nd esv p r' N. destruct (HH r g w nd esv p Eg) as (-> & _). repeat split.
    + intros w nd esv p. destruct (HH r g w nd esv p Eg) as (-> & _). reflexivity.
    + intros w1 nd1 w2 nd2 esv p HA. destruct (HH r g w1 nd1 esv p Eg) as (-> & ->), (HH r g w2 nd2 esv p Eg) as (-> & ->).
      split; [reflexivity|]. exact HA.
Qed.

(** Applications that leave the node alone and keep no common state, too. *)
Theorem C110_idle : forall (W : Type), separate (fun _ _ => tt) (no_callbacks W).
Proof. intros W. split; [|split]; intros; discriminate. Qed.

(** ** A node with two lights *)

Definition ex_two : node :=
  mkNode [ex_light; mkObject [0x02; 0x90; 0x02] (o_props ex_light)] [mkObject np_codes []] 0 0 true ex_addr true [].
Definition ex_to (instance esv opc : Z) (area : list Z) : arrival :=
  (None, match NewMessageWithBytes ([0x10; 0x81; 0x12; 0x34; 0x05; 0xFF; 0x01; 0x02; 0x90; instance; esv; opc] ++ area) with
         | Ok m => SetPacketType (SetFrom m (mkAddress 9 3610)) 2
         | _ => NewMessage
         end).
Definition ex_mix : list arrival :=
  [ex_to 2 0x60 1 [0x80; 1; 0x31]; ex_to 1 0x62 1 [0x80; 0]; ex_to 3 0x60 1 [0x80; 1; 0x33];
   ex_to 1 0x61 1 [0x80; 1; 0x32]; ex_to 2 0x62 1 [0x80; 0]].
Definition answers_to (l : list (arrival * noticed)) : list (res (option (list Z))) := map (fun x => reply_bytes (snd (snd x))) l.

Example C110_example :
  map (fun o => nth 0 (map p_data (o_props o)) []) (n_devices (snd (final store_app tt ex_two ex_mix))) = [[0x32]; [0x31]] /\
  answers_to (filter (fun x => meant ex_two (Some (DevRef 0)) (fst x)) (history store_app tt ex_two ex_mix)) =
    [Ok (Some [0x10; 0x81; 0x12; 0x34; 0x02; 0x90; 0x01; 0x05; 0xFF; 0x01; 0x72; 1; 0x80; 1; 0x30]);
     Ok (Some [0x10; 0x81; 0x12; 0x34; 0x02; 0x90; 0x01; 0x05; 0xFF; 0x01; 0x71; 1; 0x80; 1; 0x32])] /\
  answers_to (history store_app tt ex_two (filter (meant ex_two (Some (DevRef 0))) ex_mix)) =
  answers_to (filter (fun x => meant ex_two (Some (DevRef 0)) (fst x)) (history store_app tt ex_two ex_mix)).
Proof. split; [vm_compute; reflexivity|]. split; vm_compute; reflexivity. Qed.

(** An application that switches the first light with the second is not of this
    kind, and the messages for the second light cannot be left out. *)
Definition pair_app : callbacks unit :=
  mkCallbacks None (fun r => Some (fun w nd esv p =>
    (w, if ESV_IsWriteRequest esv then written (DevRef 0) (written r nd p) p else nd, false))) (fun _ => None).

Example C110_pair_example :
  ~ separate (fun _ _ => tt) pair_app /\
  answers_to (history pair_app tt ex_two (filter (meant ex_two (Some (DevRef 0))) ex_mix)) <>
  answers_to (filter (fun x => meant ex_two (Some (DevRef 0)) (fst x)) (history pair_app tt ex_two ex_mix)).
Proof.
  split; [|vm_compute; discriminate]. intros H.
  destruct (C110_integrity unit unit _ pair_app (DevRef 0) tt ex_two [ex_to 2 0x60 1 [0x80; 1; 0x31]] H) as (X & _).
  - constructor; [|constructor]. vm_compute. discriminate.
  - apply (f_equal (option_map (fun o => map p_data (o_props o)))) in X. vm_compute in X. discriminate X.
Qed.

Print Assumptions C110_purge.
Print Assumptions C110_noninterference.
Print Assumptions C110_integrity.
Print Assumptions C110_absent.
Print Assumptions C110_sender.
Print Assumptions C110_storing.
Print Assumptions C110_idle.

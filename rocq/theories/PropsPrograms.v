(** Theorems about the example programs and the manufacturer table: C72 - C75. *)

From Coq Require Import String Ascii ZifyBool ZifyNat.
From Verif Require Import Go GoFacts Encoding EncodingFacts Protocol Parser ProtocolFacts MessageFacts StdDB Property
  PropertyFacts Object ObjectFacts Spec Node NodeFacts Handler HandlerFacts PropsNode PropsHandler Remote Cmd CmdFacts PropsDetails ManDB Programs.
Local Open Scope Z_scope.
Local Open Scope list_scope.

(** ** C72: the light of examples/uecholight *)

(** The operation status the light holds. *)
Definition power (nd : node) : option (list Z) :=
  match n_devices nd with
  | [o] => option_map p_data (LookupProperty (o_props o) 0x80)
  | _ => None
  end.

(** On (0x30) or off (0x31). *)
Definition on_off (b : Z) : Prop := b = 0x30 \/ b = 0x31.

(** The status after a write of [p] to a light with status [b]. *)
Definition switched (b : Z) (p : pprop) : Z :=
  match pp_code p, pp_data p with
  | 0x80, [0x30] => 0x30
  | 0x80, [0x31] => 0x31
  | _, _ => b
  end.

Lemma switched_eq b p : switched b p =
  if pp_code p =? 0x80 then
    match pp_data p with [x] => if (x =? 0x30) || (x =? 0x31) then x else b | _ => b end
  else b.
Proof.
  unfold switched. destruct (Z.eqb_spec (pp_code p) 0x80) as [E|E].
  - rewrite E. destruct (pp_data p) as [|x [|y l]]; [reflexivity| |].
    + destruct (Z.eqb_spec x 0x30) as [->|H1]; [reflexivity|].
      destruct (Z.eqb_spec x 0x31) as [->|H2]; [reflexivity|]. cbn [orb].
      destruct x as [|x|x]; try reflexivity.
      do 6 (destruct x as [x|x|]; try reflexivity; try congruence).
    + destruct x as [|x|x]; try reflexivity.
      do 6 (destruct x as [x|x|]; try reflexivity).
  - destruct (pp_code p) as [|c|c]; try reflexivity.
    do 8 (destruct c as [c|c|]; try reflexivity; try congruence).
Qed.

(** The invariant: one device, the light, with its two writable properties of
    which the program ever touches the first. *)
Definition light_core (b : Z) (k : core) : Prop :=
  exists o, k_devs k = [o] /\ o_codes o = [2; 0x91; 1] /\
    LookupProperty (o_props o) 0x80 = Some (mkProperty 0x80 Required Required Required [b]) /\
    LookupProperty (o_props o) 0x81 = Some (mkProperty 0x81 Required Required Required []).

Lemma light_core_power b nd : light_core b (core_of nd) -> power nd = Some [b].
Proof. intros (o & H & _ & L & _). cbn [core_of k_devs] in H. unfold power. rewrite H, L. reflexivity. Qed.

Lemma light_core_set x b k : light_core b k -> light_core x (put_core k (DevRef 0) (setd 0x80 [x])).
Proof.
  intros (o & H & C & L & L1). exists (setd 0x80 [x] o). unfold put_core, put_list. rewrite H.
  cbn [nth_error set_nth k_devs]. split; [reflexivity|]. split; [exact C|].
  unfold setd. cbn [o_props Object.with_props]. rewrite !Lookup_set, L, L1. split; reflexivity.
Qed.

Lemma light_core_man c b k : light_core b k -> light_core b (core_step (NSetManufacturer c) k).
Proof.
  intros (o & H & C & L & L1). exists (setman c o). cbn [core_step k_devs]. rewrite H. split; [reflexivity|].
  split; [exact C|]. unfold setman, setd. cbn [o_props Object.with_props]. rewrite !Lookup_set, L, L1. split; reflexivity.
Qed.

(** The messages loop, as a fold. *)
Lemma exec_fold {W : Type} (cb : callbacks W) w nd m r :
  cb_node cb = None -> LookupObject nd (DEOJ m) = Some r ->
  executeMessageListeners cb w nd m = Ok (fold_left (notify cb r (m_esv m)) (visited m) (mkRun w nd [] false)).
Proof.
  intros HC HL. unfold executeMessageListeners. rewrite HL, HC. cbn [option_map call_back].
  rewrite (msg_loop m (fun p st => Ok (notify cb r (m_esv m) st p))).
  - rewrite (for_each_Ok (fun p st => notify cb r (m_esv m) st p)). reflexivity.
  - intros n st'. rewrite MsgProperty_nth. cbn [bind]. destruct (nth_error (m_ep m) n); [|reflexivity].
    unfold notify. destruct (notifyPropertyRequest _ _ _ _ _). reflexivity.
Qed.

Lemma light_notify esv st p :
  notify light_callbacks (DevRef 0) esv st p =
  let '(w, nd, e) := light_request (DevRef 0) (r_world st) (r_node st) esv p in
  mkRun w nd (r_calls st ++ [(CallHandler (DevRef 0) esv p, e)]) (r_err st || e).
Proof.
  unfold notify, notifyPropertyRequest. cbn [light_callbacks cb_listener cb_handler option_map call_back].
  destruct (light_request (DevRef 0) (r_world st) (r_node st) esv p) as [[w nd] e]. reflexivity.
Qed.

Lemma light_notify_other r esv st p : r <> DevRef 0 ->
  notify light_callbacks r esv st p = st.
Proof.
  intros H. unfold notify, notifyPropertyRequest. destruct r as [[|i]|i]; [congruence| |];
    cbn [light_callbacks cb_listener cb_handler option_map call_back orb set_err];
    destruct st as [w nd c e]; unfold set_err; cbn; rewrite Bool.orb_false_r; reflexivity.
Qed.

Definition light_inv (b : Z) (nd : node) : Prop := core_inv (core_of nd) /\ light_core b (core_of nd).

Lemma light_request_write b nd esv p : ESV_IsWriteRequest esv = true -> light_inv b nd ->
  light_inv (switched b p) (snd (fst (light_request (DevRef 0) tt nd esv p))).
Proof.
  intros HW [HI HL]. unfold light_request. rewrite HW, switched_eq. cbn [negb].
  destruct (Z.eqb_spec (pp_code p) 0x80) as [->|_]; [|split; assumption].
  destruct (pp_data p) as [|x [|y l]]; cbn [AsByte]; [split; assumption| |split; assumption].
  destruct ((x =? 0x30) || (x =? 0x31)) eqn:E; cbn [fst snd]; [|split; assumption].
  destruct (node_step_core (NSetData (DevRef 0) 0x80 [x]) nd HI) as (nd' & S & C & I).
  { cbn [node_op_ok]. constructor; [unfold is_byte; lia|constructor]. }
  cbn [node_step] in S. injection S as S. rewrite S. split; [assumption|].
  rewrite C. apply light_core_set with (b := b). assumption.
Qed.

Lemma light_request_other b nd esv p : ESV_IsWriteRequest esv = false ->
  light_request (DevRef 0) b nd esv p = (b, nd, false).
Proof. intros H. unfold light_request. rewrite H. reflexivity. Qed.

Lemma light_fold esv ps : ESV_IsWriteRequest esv = true -> forall st b, light_inv b (r_node st) ->
  light_inv (fold_left switched ps b) (r_node (fold_left (notify light_callbacks (DevRef 0) esv) ps st)).
Proof.
  intros HW. induction ps as [|p ps IH]; intros st b H; [exact H|]. cbn [fold_left]. apply IH.
  rewrite light_notify. destruct st as [[] nd c e]. cbn [r_world r_node r_calls r_err] in *.
  pose proof (light_request_write b nd esv p HW H) as X.
  destruct (light_request (DevRef 0) tt nd esv p) as [[w nd'] e']. exact X.
Qed.

Lemma fold_same {A B : Type} (f : A -> B -> A) (P : A -> Prop) l : (forall a b, P a -> P (f a b)) ->
  forall a, P a -> P (fold_left f l a).
Proof. intros H. induction l as [|b l IH]; intros a Ha; [exact Ha|]. cbn [fold_left]. auto. Qed.

Lemma light_lookup b nd code i : light_core b (core_of nd) -> LookupObject nd code = Some (DevRef i) ->
  i = 0%nat /\ code = 0x029101.
Proof.
  intros (o & H & C & _) E. cbn [core_of k_devs] in H. unfold LookupObject, LookupDevice, LookupProfile in E. rewrite H in E.
  cbn [find_code] in E. unfold Code in E. rewrite C in E. change (ByteToInteger [2; 0x91; 1]) with 0x029101 in E.
  destruct (Z.eqb_spec 0x029101 code) as [<-|_]; cbn [option_map] in E.
  - injection E as <-. auto.
  - destruct (find_code (n_profiles nd) code); discriminate E.
Qed.

Lemma light_found b nd : light_core b (core_of nd) -> LookupObject nd 0x029101 = Some (DevRef 0).
Proof.
  intros (o & H & C & _). cbn [core_of k_devs] in H. unfold LookupObject, LookupDevice. rewrite H.
  cbn [find_code]. unfold Code. rewrite C. reflexivity.
Qed.

(** Any message to the node: the write part. *)
Lemma exec_write nd b m st : light_inv b nd ->
  DEOJ m = 0x029101 -> ESV_IsWriteRequest (m_esv m) = true ->
  executeMessageListeners light_callbacks tt nd m = Ok st ->
  light_inv (fold_left switched (visited m) b) (r_node st).
Proof.
  intros HI HD HW. rewrite (exec_fold light_callbacks tt nd m (DevRef 0)) by
    (reflexivity || (rewrite HD; eapply light_found, HI)).
  intros [= <-]. apply light_fold; assumption.
Qed.

Lemma exec_other nd b m st : light_inv b nd ->
  DEOJ m <> 0x029101 \/ ESV_IsWriteRequest (m_esv m) = false ->
  executeMessageListeners light_callbacks tt nd m = Ok st -> r_node st = nd /\ r_err st = false.
Proof.
  intros HI HO E. pose proof E as E0. unfold executeMessageListeners in E0.
  destruct (LookupObject nd (DEOJ m)) as [r|] eqn:EL; [|discriminate E0]. clear E0.
  rewrite (exec_fold light_callbacks tt nd m r eq_refl EL) in E. injection E as <-.
  apply (fold_same _ (fun st => r_node st = nd /\ r_err st = false)); [|split; reflexivity].
  intros s p [H1 H2]. destruct r as [i|i].
  - destruct (light_lookup b nd (DEOJ m) i (proj2 HI) EL) as [-> HD].
    destruct HO as [HO|HO]; [congruence|]. rewrite light_notify, light_request_other by assumption.
    cbn [r_node r_err]. rewrite H2. auto.
  - rewrite light_notify_other by discriminate. auto.
Qed.

Lemma receive_cases nd m :
  out_node (ProtocolMessageReceived light_callbacks tt nd None m) = nd \/
  exists st, executeMessageListeners light_callbacks tt nd m = Ok st /\
    out_node (ProtocolMessageReceived light_callbacks tt nd None m) = r_node st.
Proof.
  unfold ProtocolMessageReceived. destruct (negb (n_self nd) && _); [auto|]. cbn [isResponseMessage].
  rewrite validate_eq. destruct (valid_b nd m); [|auto].
  destruct (executeMessageListeners light_callbacks tt nd m) as [st| |]; [|auto|auto].
  right. exists st. split; [reflexivity|]. destruct (r_err st); [reflexivity|]. destruct (negb _); reflexivity.
Qed.

Lemma light_receive nd b m : light_inv b nd -> exists b',
  light_inv b' (out_node (ProtocolMessageReceived light_callbacks tt nd None m)) /\ (on_off b -> on_off b').
Proof.
  intros HI. destruct (receive_cases nd m) as [-> |(st & E & ->)]; [eauto|].
  assert (HS : forall p x, on_off x -> on_off (switched x p)).
  { intros p x Hx. rewrite switched_eq. destruct (pp_code p =? 0x80); [|assumption].
    destruct (pp_data p) as [|y [|]]; try assumption.
    destruct (Z.eqb_spec y 0x30); [left; assumption|]. destruct (Z.eqb_spec y 0x31); [right; assumption|assumption]. }
  destruct (Z.eq_dec (DEOJ m) 0x029101) as [HD|HD].
  - destruct (ESV_IsWriteRequest (m_esv m)) eqn:EW.
    + exists (fold_left switched (visited m) b). split; [eapply exec_write; eassumption|].
      apply (fold_same switched on_off). auto.
    + exists b. destruct (exec_other nd b m st HI (or_intror EW) E) as [-> _]. auto.
  - exists b. destruct (exec_other nd b m st HI (or_introl HD) E) as [-> _]. auto.
Qed.

Lemma light_device_made : exists o, light_device = Ok o /\ obj_ok o /\ o_codes o = [2; 0x91; 1] /\
    LookupProperty (o_props o) 0x80 = Some (mkProperty 0x80 Required Required Required [0x30]) /\
    LookupProperty (o_props o) 0x81 = Some (mkProperty 0x81 Required Required Required []).
Proof.
  unfold light_device. destruct (NewDeviceWithCode LightObjectCode) as [o0| |] eqn:E.
  2,3: exfalso; revert E; vm_compute; discriminate.
  assert (C : PropsObject.created o0) by
    (apply (PropsObject.created_device LightObjectCode); [unfold LightObjectCode; lia|exact E]).
  assert (L : LookupProperty (o_props o0) 0x80 = Some (mkProperty 0x80 Required Required Required []) /\
              LookupProperty (o_props o0) 0x81 = Some (mkProperty 0x81 Required Required Required []) /\
              HasProp (o_props o0) 0x8A = true /\ o_codes o0 = [2; 0x91; 1]).
  { revert E. vm_compute. intros [= <-]. vm_compute. auto. }
  destruct L as (L0 & L1 & L2 & L3).
  pose proof (SetManufacturer_setman o0 0xFFFFFF) as S1.
  assert (S2 : snd (SetManufacturerCode o0 0xFFFFFF) = None).
  { apply HasProp_some in L2 as [p L2]. unfold SetManufacturerCode, SetPropertyInteger, SetPropertyIntegerMap, SetPropertyDataMap, lift_props, ObjectManufacturerCode.
    rewrite L2. reflexivity. }
  destruct (SetManufacturerCode o0 0xFFFFFF) as [[o1 ev1] e1]. cbn [fst snd] in S1, S2. subst o1 e1.
  pose proof (SetPropertyInteger_setd (setman 0xFFFFFF o0) LightPropertyPowerCode LightPropertyPowerOn 1) as S3.
  destruct (SetPropertyInteger _ _ _ _) as [[o2 ev2] e2]. cbn [fst] in S3. exists o2. split; [reflexivity|].
  subst o2. split; [|split; [|split]].
  - apply setd_ok; [apply IntegerToByte_bytes|]. apply setman_ok, created_ok, C.
  - exact L3.
  - unfold setman, setd. cbn [o_props Object.with_props]. rewrite !Lookup_set, L0. reflexivity.
  - unfold setman, setd. cbn [o_props Object.with_props]. rewrite !Lookup_set, L1. reflexivity.
Qed.

Lemma light_library : respects calls_library light_callbacks.
Proof.
  assert (HN : forall nd, calls_library nd nd) by (intros nd; exists []; split; [constructor|reflexivity]).
  unfold respects, light_callbacks. cbn [cb_node cb_listener cb_handler].
  split; [discriminate|]. split; [discriminate|]. intros r g w nd esv p H.
  destruct r as [[|i]|i]; [|discriminate H|discriminate H]. injection H as <-.
  unfold light_request. destruct (negb (ESV_IsWriteRequest esv)); [apply HN|].
  destruct (pp_code p =? 0x80); [|apply HN].
  destruct (pp_data p) as [|x [|]]; cbn [AsByte]; [apply HN| |apply HN].
  destruct ((x =? 0x30) || (x =? 0x31)) eqn:E; [|apply HN]. cbn [fst snd].
  exists [NSetData (DevRef 0) (pp_code p) [x]]. split; [|reflexivity].
  constructor; [|constructor]. cbn [node_op_ok]. constructor; [unfold is_byte; lia|constructor].
Qed.

(** A node of the program is a node made by library calls, so everything proved
    about those applies. *)
Definition light_reached (nd : node) : Prop :=
  (exists ops, Forall node_op_ok ops /\ node_after ops = Ok nd) /\
  exists b, light_core b (core_of nd) /\ on_off b.

Lemma light_reached_inv nd : light_reached nd -> exists b, light_inv b nd /\ on_off b /\ 0 <= n_lastTID nd <= 65535.
Proof.
  intros [(ops & H1 & H2) (b & H3 & H4)].
  destruct (node_after_spec ops H1) as (nd' & E & I & _ & T & _). rewrite H2 in E. injection E as <-.
  exists b. split; [split; assumption|]. split; [assumption|]. rewrite T.
  pose proof (Z.mod_pos_bound (len (n_sent nd)) 65536). lia.
Qed.

Lemma library_more nd nd' : calls_library nd nd' ->
  (exists ops, Forall node_op_ok ops /\ node_after ops = Ok nd) ->
  exists ops, Forall node_op_ok ops /\ node_after ops = Ok nd'.
Proof.
  intros (o2 & A1 & A2) (o1 & B1 & B2). exists (o1 ++ o2). split; [apply Forall_app; auto|].
  unfold node_after in *. destruct newLocalNode as [nd0| |]; cbn [bind] in *; [|discriminate B2|discriminate B2].
  rewrite for_each_app, B2. exact A2.
Qed.

Lemma light_step_reached nd e : light_reached nd -> light_reached (light_step nd e).
Proof.
  intros H. pose proof (light_reached_inv nd H) as (b & HI & Hb & HT). destruct H as [HL _].
  assert (HS : forall op, node_op_ok op -> node_step op nd = Ok (light_step nd e) ->
    (forall k, light_core b k -> light_core b (core_step op k)) -> light_reached (light_step nd e)).
  { intros op Hop E HC. split.
    - apply (library_more nd); [|assumption]. exists [op]. split; [auto|]. cbn [for_each]. rewrite E. reflexivity.
    - destruct (node_step_core op nd (proj1 HI) Hop) as (nd' & E' & C & _). rewrite E in E'. injection E' as E'.
      exists b. split; [|assumption]. rewrite E', C. apply HC, HI. }
  destruct e as [c|s| |m].
  - apply (HS (NSetManufacturer c)); [exact I|reflexivity|apply light_core_man].
  - apply (HS (NStart s)); [exact I|reflexivity|]. intros k Hk. try destruct s; exact Hk.
  - apply (HS NStop); [exact I|reflexivity|]. intros k Hk. try destruct s; exact Hk.
  - cbn [light_step]. split.
    + destruct (receive_cases nd m) as [-> |(st & E & ->)]; [assumption|].
      apply (library_more nd); [|assumption]. apply (exec_library light_callbacks tt nd m st light_library E).
    + destruct (light_receive nd b m HI) as (b' & [_ HC] & Hb'). eauto.
Qed.

Lemma light_after_reached es : exists nd, light_after es = Ok nd /\ light_reached nd.
Proof.
  destruct light_device_made as (o & E & HO & C & L0 & L1).
  assert (HN : Forall node_op_ok [NAddDevice o]) by (constructor; [exact HO|constructor]).
  destruct (node_after_spec [NAddDevice o] HN) as (nd & E1 & _ & EC & _).
  assert (HE : NewLightNode = Ok nd).
  { unfold NewLightNode. rewrite E. cbn [bind]. unfold node_after in E1.
    destruct newLocalNode as [nd0| |]; cbn [bind for_each node_step] in *; [|discriminate E1|discriminate E1].
    destruct (Node_AddDevice nd0 o); cbn [bind] in E1; [exact E1|discriminate E1|discriminate E1]. }
  assert (HR : light_reached nd).
  { split; [eauto|]. exists 0x30. split; [|left; reflexivity]. rewrite EC.
    cbn [fold_left core_step initial_core k_devs k_profs k_man app].
    exists (setman 0xFFFFFF o). cbn [k_devs]. split; [reflexivity|]. split; [exact C|].
    unfold setman, setd. cbn [o_props Object.with_props]. rewrite !Lookup_set, L0, L1. split; reflexivity. }
  unfold light_after. rewrite HE. cbn [bind]. eexists. split; [reflexivity|].
  apply (fold_same light_step light_reached); [|exact HR]. intros nd' e. apply light_step_reached.
Qed.

(** Whatever messages arrive and however often the node is started and stopped:
    the program does not fail and the light is on or off. *)
Theorem C72_always : forall es, exists nd b,
  light_after es = Ok nd /\ power nd = Some [b] /\ on_off b.
Proof.
  intros es. destruct (light_after_reached es) as (nd & E & _ & b & H1 & H2). exists nd, b.
  split; [assumption|]. split; [apply light_core_power, H1|assumption].
Qed.

(** The effect of every message: a write request that is accepted switches the
    light as its properties say, in order; all others change nothing. *)
Theorem C72_effect : forall es nd b m,
  light_after es = Ok nd -> power nd = Some [b] -> received m -> not_own nd m ->
  let nd' := out_node (ProtocolMessageReceived light_callbacks tt nd None m) in
  (forall o, DEOJ m = 0x029101 -> writes (m_esv m) -> valid nd m (DevRef 0) o ->
     power nd' = Some [fold_left switched (m_ep m) b]) /\
  (DEOJ m <> 0x029101 \/ ~ writes (m_esv m) \/ ~ (exists o, valid nd m (DevRef 0) o) -> nd' = nd).
Proof.
  intros es nd b m HA HP HR HO nd'. destruct (light_after_reached es) as (nd0 & E & H).
  rewrite HA in E. injection E as <-. destruct (light_reached_inv nd H) as (b' & HI & Hb & HT).
  assert (b' = b). { pose proof (light_core_power b' nd (proj2 HI)). congruence. } subst b'.
  split.
  - intros o HD HW HV.
    destruct (handle_valid light_callbacks tt nd None m (DevRef 0) o HR I HO HV) as (d & st & EX & _ & _ & EQ).
    subst nd'. rewrite EQ. cbn [out_node]. apply light_core_power.
    rewrite <- (received_visited m HR). eapply exec_write; [exact HI|exact HD|apply byte_writes; exact HW|exact EX].
  - intros HX. subst nd'. destruct (valid_dec nd m HR) as [(r & o & HV)|HN].
    + destruct (handle_valid light_callbacks tt nd None m r o HR I HO HV) as (d & st & EX & _ & _ & EQ).
      rewrite EQ. cbn [out_node].
      assert (HC : DEOJ m <> 0x029101 \/ ESV_IsWriteRequest (m_esv m) = false).
      { destruct HX as [HX|[HX|HX]]; [auto| |].
        - right. apply Bool.not_true_is_false. rewrite byte_writes. exact HX.
        - left. intros HD. apply HX. exists o. pose proof HV as ((V1 & _) & _). rewrite HD in V1.
          rewrite (light_found b nd (proj2 HI)) in V1. injection V1 as <-. exact HV. }
      destruct (exec_other nd b m st HI HC EX) as [X _]. exact X.
    + destruct (handle_invalid light_callbacks tt nd None m HR I HO HN) as (d & resp & EQ & _).
      rewrite EQ. reflexivity.
Qed.

(** Switching the light: one accepted write is answered with the new status, and
    a running node announces the status change with one multicast. *)
Theorem C72_switch : forall es nd m x,
  light_after es = Ok nd -> received m -> not_own nd m ->
  DEOJ m = 0x029101 -> m_esv m = 0x61 -> m_ep m = [mkPProp 0x80 [x]] -> on_off x ->
  let out := ProtocolMessageReceived light_callbacks tt nd None m in
  power (out_node out) = Some [x] /\
  (exists resp, out_reply out = Ok (Some resp) /\
     TID resp = TID m /\ SEOJ resp = 0x029101 /\ DEOJ resp = SEOJ m /\ m_esv resp = 0x71 /\
     m_ep resp = [mkPProp 0x80 [x]]) /\
  (n_running nd = true -> exists a, n_sent (out_node out) = n_sent nd ++ [Multicast a] /\
     notification_of a ((n_lastTID nd + 1) mod 65536) 0x029101 0x80 [x]) /\
  (n_running nd = false -> n_sent (out_node out) = n_sent nd).
Proof.
  intros es nd m x HA HR HO HD HE HP Hx out. destruct (light_after_reached es) as (nd0 & E & H).
  rewrite HA in E. injection E as <-. destruct (light_reached_inv nd H) as (b & HI & Hb & HT).
  pose proof (proj2 HI) as (o & K1 & K2 & K3 & K4). cbn [core_of k_devs] in K1.
  pose proof (light_found b nd (proj2 HI)) as HL.
  assert (HV : valid nd m (DevRef 0) o).
  { split; [split; [rewrite HD; exact HL|cbn [obj_at]; rewrite K1; reflexivity]|].
    rewrite HE. split; [unfold known_esv; cbn; tauto|]. intros _. rewrite HP.
    constructor; [|constructor]. exists (mkProperty 0x80 Required Required Required [b]).
    split; [exact K3|]. split; [discriminate|]. intros _. split; [discriminate|reflexivity]. }
  destruct (handle_valid light_callbacks tt nd None m (DevRef 0) o HR I HO HV) as (d & st & EX & _ & _ & EQ).
  rewrite (exec_fold light_callbacks tt nd m (DevRef 0) eq_refl) in EX by (rewrite HD; exact HL).
  rewrite (received_visited m HR), HP, HE in EX. cbn [fold_left] in EX. rewrite light_notify in EX.
  set (nd' := fst (on_object nd (DevRef 0) (fun o => SetPropertyData o 0x80 [x]))).
  assert (EQR : light_request (DevRef 0) tt nd 0x61 (mkPProp 0x80 [x]) = (tt, nd', false)).
  { unfold light_request. change (ESV_IsWriteRequest 0x61) with true. cbn [negb pp_code pp_data AsByte].
    change (0x80 =? 0x80) with true. cbn iota.
    replace ((x =? 0x30) || (x =? 0x31)) with true by (unfold on_off in Hx; lia). reflexivity. }
  cbn [r_world r_node r_calls r_err] in EX. rewrite EQR in EX. injection EX as <-.
  cbn [r_world r_node r_calls r_err orb] in EQ.
  assert (HC : light_inv x nd').
  { pose proof (light_request_write b nd 0x61 (mkPProp 0x80 [x]) eq_refl HI) as X. rewrite EQR in X.
    rewrite switched_eq in X. cbn [fst snd pp_code pp_data] in X. change (0x80 =? 0x80) with true in X. cbn iota in X.
    replace ((x =? 0x30) || (x =? 0x31)) with true in X by (unfold on_off in Hx; lia). exact X. }
  subst out. rewrite EQ. cbn [out_node out_reply]. clear EQ.
  split; [apply light_core_power, HC|]. split; [|split].
  - pose proof (proj2 HC) as (o' & K1' & K2' & K3' & _). cbn [core_of k_devs] in K1'.
    rewrite HE. change (ESV_IsResponseRequired 0x61) with true. cbn [negb].
    rewrite (createResponse_eq nd' m (DevRef 0) o');
      [|rewrite HD; exact (light_found x nd' (proj2 HC))|cbn [obj_at]; rewrite K1'; reflexivity].
    cbn [bind]. eexists. split; [reflexivity|].
    destruct (response_for_spec o' m HR) as (T & S & D & V & P & _).
    rewrite HE in V. rewrite HP in P. cbn [flat_map] in P. unfold found in P. cbn [pp_code] in P. rewrite K3' in P.
    split; [exact T|]. split; [rewrite S; exact HD|]. split; [exact D|]. split; [exact V|exact P].
  - intros Hr. destruct HI as [HI _]. assert (OK : obj_ok o).
    { destruct HI as (HI & _). cbn [core_of k_devs] in HI. rewrite K1 in HI. inversion HI; assumption. }
    destruct (C27_announced nd (DevRef 0) o 0x80 (mkProperty 0x80 Required Required Required [b]) [x] Hr HT) as (a & X);
      [cbn [obj_at]; rewrite K1; reflexivity|exact OK|exact K3|constructor; [unfold is_byte, on_off in *; lia|constructor]|discriminate|].
    unfold nd'. destruct (on_object nd (DevRef 0) (fun o => SetPropertyData o 0x80 [x])) as [n e].
    destruct X as (_ & X1 & X2). exists a. cbn [fst]. split; [exact X1|].
    unfold Code in X2. rewrite K2 in X2. exact X2.
  - intros Hr. destruct (C27_not_announced nd (DevRef 0) o 0x80 [x]) as [X _];
      [cbn [obj_at]; rewrite K1; reflexivity|auto|]. exact X.
Qed.

(** A value the light does not know is refused, but not answered. *)
Theorem C72_unknown_value : forall es nd m x,
  light_after es = Ok nd -> received m -> not_own nd m ->
  DEOJ m = 0x029101 -> m_esv m = 0x61 -> m_ep m = [mkPProp 0x80 [x]] -> ~ on_off x ->
  let out := ProtocolMessageReceived light_callbacks tt nd None m in
  out_node out = nd /\ exists e, out_reply out = Err e.
Proof.
  intros es nd m x HA HR HO HD HE HP Hx out. destruct (light_after_reached es) as (nd0 & E & H).
  rewrite HA in E. injection E as <-. destruct (light_reached_inv nd H) as (b & HI & Hb & HT).
  pose proof (proj2 HI) as (o & K1 & K2 & K3 & K4). cbn [core_of k_devs] in K1.
  pose proof (light_found b nd (proj2 HI)) as HL.
  assert (HV : valid nd m (DevRef 0) o).
  { split; [split; [rewrite HD; exact HL|cbn [obj_at]; rewrite K1; reflexivity]|].
    rewrite HE. split; [unfold known_esv; cbn; tauto|]. intros _. rewrite HP.
    constructor; [|constructor]. exists (mkProperty 0x80 Required Required Required [b]).
    split; [exact K3|]. split; [discriminate|]. intros _. split; [discriminate|reflexivity]. }
  destruct (handle_valid light_callbacks tt nd None m (DevRef 0) o HR I HO HV) as (d & st & EX & _ & _ & EQ).
  rewrite (exec_fold light_callbacks tt nd m (DevRef 0) eq_refl) in EX by (rewrite HD; exact HL).
  rewrite (received_visited m HR), HP, HE in EX. cbn [fold_left] in EX. rewrite light_notify in EX.
  assert (EQR : light_request (DevRef 0) tt nd 0x61 (mkPProp 0x80 [x]) = (tt, nd, true)).
  { unfold light_request. change (ESV_IsWriteRequest 0x61) with true. cbn [negb pp_code pp_data AsByte].
    change (0x80 =? 0x80) with true. cbn iota.
    replace ((x =? 0x30) || (x =? 0x31)) with false by (unfold on_off in Hx; lia). reflexivity. }
  cbn [r_world r_node r_calls r_err] in EX. rewrite EQR in EX. injection EX as <-.
  subst out. rewrite EQ. cbn [out_node out_reply r_node r_err orb]. split; [reflexivity|]. eauto.
Qed.

(** The full claim would be: a write request the light does not confirm has not
    switched it.  A second property the handler refuses leaves the first one
    written, and nobody is told. *)
Theorem C72_unconfirmed_refuted : forall es nd m x,
  light_after es = Ok nd -> received m -> not_own nd m ->
  DEOJ m = 0x029101 -> m_esv m = 0x61 -> m_ep m = [mkPProp 0x80 [x]; mkPProp 0x81 []] -> on_off x ->
  let out := ProtocolMessageReceived light_callbacks tt nd None m in
  power (out_node out) = Some [x] /\ exists e, out_reply out = Err e.
Proof.
  intros es nd m x HA HR HO HD HE HP Hx out. destruct (light_after_reached es) as (nd0 & E & H).
  rewrite HA in E. injection E as <-. destruct (light_reached_inv nd H) as (b & HI & Hb & HT).
  pose proof (proj2 HI) as (o & K1 & K2 & K3 & K4). cbn [core_of k_devs] in K1.
  pose proof (light_found b nd (proj2 HI)) as HL.
  assert (HV : valid nd m (DevRef 0) o).
  { split; [split; [rewrite HD; exact HL|cbn [obj_at]; rewrite K1; reflexivity]|].
    rewrite HE. split; [unfold known_esv; cbn; tauto|]. intros _. rewrite HP.
    constructor; [|constructor; [|constructor]].
    - exists (mkProperty 0x80 Required Required Required [b]).
      split; [exact K3|]. split; [discriminate|]. intros _. split; [discriminate|reflexivity].
    - exists (mkProperty 0x81 Required Required Required []).
      split; [exact K4|]. split; [discriminate|]. intros _. split; [discriminate|reflexivity]. }
  destruct (C72_effect es nd b m HA (light_core_power b nd (proj2 HI)) HR HO) as [X _].
  specialize (X o HD). rewrite HE, HP in X. split.
  - subst out. rewrite X; [|unfold writes; cbn; tauto|exact HV]. cbn [fold_left]. rewrite !switched_eq.
    cbn [pp_code pp_data]. change (0x81 =? 0x80) with false. change (0x80 =? 0x80) with true. cbn iota.
    replace ((x =? 0x30) || (x =? 0x31)) with true by (unfold on_off in Hx; lia). reflexivity.
  - destruct (handle_valid light_callbacks tt nd None m (DevRef 0) o HR I HO HV) as (d & st & EX & _ & _ & EQ).
    rewrite (exec_fold light_callbacks tt nd m (DevRef 0) eq_refl) in EX by (rewrite HD; exact HL).
    rewrite (received_visited m HR), HP, HE in EX. cbn [fold_left] in EX. rewrite !light_notify in EX.
    cbn [r_world r_node r_calls r_err] in EX.
    destruct (light_request (DevRef 0) tt nd 0x61 (mkPProp 0x80 [x])) as [[w1 nd1] e1].
    cbn [r_world r_node r_calls r_err] in EX.
    change (light_request (DevRef 0) w1 nd1 0x61 (mkPProp 0x81 [])) with (w1, nd1, true) in EX.
    injection EX as <-. subst out. rewrite EQ. cbn [out_reply r_err]. rewrite Bool.orb_true_r. eauto.
Qed.

(** A message for the examples: from address 9 to the light. *)
Definition to_light (esv opc : Z) (area : list Z) : message :=
  match NewMessageWithBytes ([0x10; 0x81; 0; 5; 0x05; 0xFF; 0x01; 0x02; 0x91; 0x01; esv; opc] ++ area) with
  | Ok m => SetPacketType (SetFrom m (mkAddress 9 3610)) 2
  | _ => NewMessage
  end.

Example C72_example :
  (nd <- light_after [LManufacturer 0x0B; LStart None; LReceive (to_light 0x61 1 [0x80; 1; 0x31]);
                      LReceive (to_light 0x61 1 [0x80; 1; 0x77]); LReceive (to_light 0x62 1 [0x80; 0])] ;;
   Ok (power nd, map (fun s => Bytes (sent_message s)) (tl (n_sent nd)))) =
    Ok (Some [0x31], [Ok [0x10; 0x81; 0; 2; 2; 0x91; 1; 0x0E; 0xF0; 1; 0x73; 1; 0x80; 1; 0x31]]) /\
  (nd <- light_after [LReceive (to_light 0x61 2 [0x80; 1; 0x31; 0x81; 0])] ;; Ok (power nd)) = Ok (Some [0x31]) /\
  (nd <- light_after [LReceive (to_light 0x61 1 [0x80; 1; 0x31])] ;;
   reply_bytes (out_reply (ProtocolMessageReceived light_callbacks tt nd None (to_light 0x62 1 [0x80; 0])))) =
    Ok (Some [0x10; 0x81; 0; 5; 2; 0x91; 1; 5; 0xFF; 1; 0x72; 1; 0x80; 1; 0x31]).
Proof. vm_compute. auto. Qed.

(** ** C73: the standard version of a device *)

(** The full claim: what SetStandardVersion stores, StandardVersion returns.  The
    length check of the getter refuses the four bytes of the setter, for every
    device with the property and every version. *)
Theorem C73_version_refuted : forall o p ver, LookupProperty (o_props o) 0x82 = Some p ->
  let '(o', _, e) := SetStandardVersion o ver in
  e = None /\
  (exists q, LookupProperty (o_props o') 0x82 = Some q /\ p_data q = [0; 0; ver; 0]) /\
  exists e', StandardVersion o' = Err e'.
Proof.
  intros o p ver H. unfold SetStandardVersion, DeviceStandardVersion.
  pose proof (SetPropertyData_setd o 0x82 [0; 0; ver; 0]) as S.
  assert (E : snd (SetPropertyData o 0x82 [0; 0; ver; 0]) = None).
  { unfold SetPropertyData, SetPropertyDataMap, lift_props. rewrite H. reflexivity. }
  destruct (SetPropertyData o 0x82 [0; 0; ver; 0]) as [[o' ev] e]. cbn [fst snd] in S, E. subst o' e.
  split; [reflexivity|].
  assert (L : LookupProperty (o_props (setd 0x82 [0; 0; ver; 0] o)) 0x82 = Some (with_data p [0; 0; ver; 0])).
  { unfold setd. cbn [o_props Object.with_props]. rewrite Lookup_set, H. reflexivity. }
  split; [eauto|]. unfold StandardVersion, LookupPropertyData, DeviceStandardVersion. rewrite L. eexists. reflexivity.
Qed.

(** No four byte value is readable: the getter only succeeds on five bytes or more. *)
Theorem C73_version_reads : forall o v, StandardVersion o = Ok v ->
  exists p, LookupProperty (o_props o) 0x82 = Some p /\ (5 <= length (p_data p))%nat /\ nth_error (p_data p) 2 = Some v.
Proof.
  intros o v. unfold StandardVersion, LookupPropertyData, DeviceStandardVersion.
  destruct (LookupProperty (o_props o) 0x82) as [p|]; [|discriminate]. cbn [bind].
  destruct (Z.leb_spec (len (p_data p)) 4) as [|H]; [discriminate|]. intros E. exists p.
  split; [reflexivity|]. unfold len in H. split; [lia|].
  destruct (p_data p) as [|a [|b [|c l]]]; cbn [length] in H; try lia.
  change (idx (a :: b :: c :: l) 2) with (Ok c) in E. injection E as <-. reflexivity.
Qed.

Example C73_example :
  (dev <- light_device ;; let '(dev, _, _) := SetStandardVersion dev 0x52 in
   Ok (option_map p_data (LookupProperty (o_props dev) 0x82), StandardVersion dev)) = Ok (Some [0; 0; 0x52; 0], Err ErrInvalid).
Proof. vm_compute. reflexivity. Qed.

(** ** C74: the request of examples/uechopost *)

(** Text made of hexadecimal digits only. *)
Inductive written : string -> list Z -> Prop :=
| written_nil : written EmptyString []
| written_cons c v s ds : hex_digit c v -> written s ds -> written (String c s) (v :: ds).

Definition plain_check (c : ascii) : bool :=
  match from_hex c with
  | None => true
  | Some v => (0 <=? v) && (v <? 16) &&
      match String.get (Z.to_nat v) "0123456789abcdef", String.get (Z.to_nat v) "0123456789ABCDEF" with
      | Some a, Some b => Ascii.eqb a c || Ascii.eqb b c
      | _, _ => false
      end
  end.
Lemma plain_check_all c : plain_check c = true.
Proof. destruct c as [[] [] [] [] [] [] [] []]; vm_compute; reflexivity. Qed.

Lemma plain_digit c v : from_hex c = Some v <-> hex_digit c v.
Proof.
  split.
  - intros E. pose proof (plain_check_all c) as H. unfold plain_check in H. rewrite E in H.
    apply andb_prop in H as [H H2]. split; [lia|].
    destruct (String.get (Z.to_nat v) "0123456789abcdef") as [a|], (String.get (Z.to_nat v) "0123456789ABCDEF") as [b|]; try discriminate H2.
    apply Bool.orb_true_iff in H2 as [H2|H2]; apply Ascii.eqb_eq in H2; subst; auto.
  - intros [H [E|E]]; pose proof (sixteen v H) as HH; repeat destruct HH as [HH|HH]; subst v;
      vm_compute in E; injection E as <-; vm_compute; reflexivity.
Qed.

Lemma written_iff s : forall ds, written s ds <-> all_hex s = Some ds.
Proof.
  induction s as [|c s IH]; intros ds; cbn [all_hex].
  - split; [intros H; inversion H; reflexivity|intros [= <-]; constructor].
  - split.
    + intros H. inversion H as [|? v ? ds' H1 H2]; subst. apply plain_digit in H1. apply IH in H2. rewrite H1, H2. reflexivity.
    + destruct (from_hex c) as [v|] eqn:E; [|discriminate]. destruct (all_hex s) as [l|]; [|discriminate].
      intros [= <-]. constructor; [apply plain_digit; assumption|apply IH; reflexivity].
Qed.

(** A number in the text of an argument. *)
Definition numeral (s : string) (v : Z) : Prop := exists ds, ds <> [] /\ written s ds /\ v = number 16 ds.

Lemma parse_digits_spec s : forall a v, parse_digits s a = Some v <->
  exists ds, written s ds /\ v = fold_left (fun a d => 16 * a + d) ds a.
Proof.
  induction s as [|c s IH]; intros a v; cbn [parse_digits].
  - split; [intros [= <-]; exists []; split; [constructor|reflexivity]|].
    intros (ds & H & ->). inversion H. reflexivity.
  - split.
    + destruct (from_hex c) as [d|] eqn:E; [|discriminate]. intros H. apply IH in H as (ds & H & ->).
      exists (d :: ds). split; [constructor; [apply plain_digit; assumption|assumption]|].
      cbn [fold_left]. f_equal. lia.
    + intros (ds & H & ->). inversion H as [|? d ? ds' H1 H2]; subst. apply plain_digit in H1. rewrite H1.
      apply IH. exists ds'. split; [assumption|]. cbn [fold_left]. f_equal. lia.
Qed.

Lemma ParseUint_spec s bits v : ParseUint s bits = Ok v <-> numeral s v /\ v < 2 ^ bits.
Proof.
  unfold ParseUint. split.
  - destruct s as [|c s]; [discriminate|]. destruct (parse_digits (String c s) 0) as [x|] eqn:E; [|discriminate].
    destruct (Z.ltb_spec x (2 ^ bits)) as [H|]; [|discriminate]. intros [= <-]. split; [|exact H].
    apply parse_digits_spec in E as (ds & E & ->). exists ds. split; [|auto]. inversion E; discriminate.
  - intros ((ds & HN & HW & ->) & HL). destruct s as [|c s]; [inversion HW; subst; congruence|].
    replace (parse_digits (String c s) 0) with (Some (number 16 ds)).
    + destruct (Z.ltb_spec (number 16 ds) (2 ^ bits)); [reflexivity|lia].
    + symmetry. apply parse_digits_spec. eauto.
Qed.

Lemma ParseUint_cases s bits : (exists v, ParseUint s bits = Ok v) \/ exists e, ParseUint s bits = Err e.
Proof.
  unfold ParseUint. destruct s as [|c s]; [eauto|]. destruct (parse_digits (String c s) 0) as [x|]; [|eauto].
  destruct (x <? 2 ^ bits); eauto.
Qed.

(** A property argument as the program reads it: the code and at least one byte
    of data, two digits each. *)
Definition gives (a : string) (p : pprop) : Prop :=
  pp_data p <> [] /\ is_bytes (pp_code p :: pp_data p) /\ written a (nibbles (pp_code p :: pp_data p)).

Lemma slice_tail (b : Z) l : slice (b :: l) 1 (len (b :: l)) = Ok l.
Proof.
  unfold slice, len. cbn [length].
  replace ((1 <? 0) || (Z.of_nat (S (length l)) <? 1) || (Z.of_nat (S (length l)) <? Z.of_nat (S (length l)))) with false by lia.
  change (Z.to_nat 1) with 1%nat. cbn [skipn]. rewrite firstn_all2 by lia. reflexivity.
Qed.

Lemma post_property_spec a p : post_property a = Ok p <-> gives a p.
Proof.
  unfold post_property. pose proof (DecodeString_spec a) as D. split.
  - destruct (DecodeString a) as [bs| |]; [|discriminate|discriminate]. cbn [bind]. destruct D as [D1 D2].
    destruct bs as [|b [|c bs]]; [discriminate|discriminate|].
    destruct (Z.leb_spec (len (b :: c :: bs)) 1) as [|H]; [discriminate|].
    change (idx (b :: c :: bs) 0) with (Ok b). cbn [bind].
    replace (slice (b :: c :: bs) 1 (len (b :: c :: bs))) with (Ok (c :: bs)).
    + cbn [bind]. intros [= <-]. split; [discriminate|]. cbn [pp_code pp_data]. split; [exact D2|].
      apply written_iff. exact D1.
    + symmetry. apply slice_tail.
  - destruct p as [c d]. intros (H1 & H2 & H3). cbn [pp_code pp_data] in *. apply written_iff in H3.
    destruct (DecodeString a) as [bs|e|]; [|exfalso; exact (D _ H3)|destruct D]. destruct D as [D1 D2].
    assert (H4 : nibbles bs = nibbles (c :: d)) by congruence. apply nibbles_inj in H4. subst bs. cbn [bind].
    destruct d as [|x d]; [congruence|].
    destruct (Z.leb_spec (len (c :: x :: d)) 1) as [H|H]; [unfold len in H; cbn [length] in H; lia|].
    change (idx (c :: x :: d) 0) with (Ok c). cbn [bind].
    rewrite slice_tail. reflexivity.
Qed.

Lemma post_properties_spec args : forall ps, post_properties args = Ok ps <-> Forall2 gives args ps.
Proof.
  induction args as [|a args IH]; intros ps; cbn [post_properties].
  - split; [intros [= <-]; constructor|intros H; inversion H; reflexivity].
  - split.
    + destruct (post_property a) as [p| |] eqn:E; [|discriminate|discriminate]. cbn [bind].
      destruct (post_properties args) as [l| |]; [|discriminate|discriminate]. cbn [bind]. intros [= <-].
      constructor; [apply post_property_spec; assumption|apply IH; reflexivity].
    + intros H. inversion H as [|? p ? l H1 H2]; subst. apply post_property_spec in H1. apply IH in H2.
      rewrite H1. cbn [bind]. rewrite H2. reflexivity.
Qed.

(** The content of the request the arguments stand for. *)
Definition posted (m : message) (oc e : Z) (ps : list pprop) : Prop :=
  DEOJ m = oc mod 2 ^ 24 /\ m_esv m = e /\ m_ep m = ps /\ m_opc m = len ps mod 256.

Lemma posted_made oc e ps : 0 <= oc < 2 ^ 32 ->
  posted (AddProperties (SetESV (SetDEOJ NewMessage oc) e) ps) oc e ps.
Proof.
  intros Ho. set (ops := OSetDEOJ oc :: OSetESV e :: map (fun p => OAddProperty (pp_code p) (pp_data p)) ps).
  assert (EM : AddProperties (SetESV (SetDEOJ NewMessage oc) e) ps = built ops).
  { unfold ops, built, AddProperties. cbn [fold_left apply_op]. generalize (SetESV (SetDEOJ NewMessage oc) e) as m0.
    induction ps as [|[c d] ps IH]; intros m0; [reflexivity|]. cbn [map fold_left apply_op pp_code pp_data]. apply IH. }
  rewrite EM. pose proof (built_represents ops) as (_ & _ & _ & _ & R5 & R6 & R7 & R8).
  assert (EC : content_of ops = mkContent 0 0 oc e (map (fun p => (pp_code p, pp_data p)) ps)).
  { unfold ops, content_of. cbn [fold_left content_step empty_content].
    assert (G : forall l c, fold_left content_step (map (fun p => OAddProperty (pp_code p) (pp_data p)) l) c =
      mkContent (c_tid c) (c_seoj c) (c_deoj c) (c_esv c) (c_props c ++ map (fun p => (pp_code p, pp_data p)) l)).
    { induction l as [|p l IH]; intros c; cbn [map fold_left]; [rewrite app_nil_r; destruct c; reflexivity|].
      rewrite IH. cbn [content_step c_tid c_seoj c_deoj c_esv c_props]. rewrite <- app_assoc. reflexivity. }
    rewrite G. reflexivity. }
  rewrite EC in R5, R6, R7, R8. cbn [c_deoj c_esv c_props] in *.
  split. { unfold DEOJ. rewrite R5. apply ByteToInteger_IntegerToByte. lia. }
  split; [exact R6|]. split.
  - rewrite R7, map_map. rewrite <- (map_id ps) at 2. apply map_ext. intros [c d]. reflexivity.
  - rewrite R8, map_length. reflexivity.
Qed.

Lemma number_nonneg ds : Forall (fun d => 0 <= d) ds -> 0 <= number 16 ds.
Proof.
  unfold number. assert (G : forall a, 0 <= a -> Forall (fun d => 0 <= d) ds -> 0 <= fold_left (fun a d => 16 * a + d) ds a).
  { induction ds as [|d ds IH]; intros a Ha H; [exact Ha|]. cbn [fold_left]. inversion H; subst. apply IH; [lia|assumption]. }
  apply G. lia.
Qed.

Lemma numeral_nonneg s v : numeral s v -> 0 <= v.
Proof.
  intros (ds & _ & H & ->). apply number_nonneg. clear -H. induction H as [|c v s ds [H _] _ IH]; constructor; [lia|exact IH].
Qed.

(** The program accepts its arguments exactly when the node and the object are
    there, the service is a known one, and every property argument has a code and
    some data; then this is the request. *)
Theorem C74_request : forall ct ip obj esv args dst,
  (exists m, post_request ct ip obj esv args = Ok (dst, m)) <->
  (LookupNode ct ip = Some dst /\
   exists oc e ps, numeral obj oc /\ oc < 2 ^ 32 /\
     (exists o, In o (rn_devices dst ++ rn_profiles dst) /\ Code o = oc) /\
     numeral esv e /\ known_esv e /\ Forall2 gives args ps).
Proof.
  intros ct ip obj esv args dst. unfold post_request, rn_LookupObject. split.
  - intros [m E]. destruct (LookupNode ct ip) as [n|]; [|discriminate E].
    destruct (ParseUint obj 32) as [oc| |] eqn:E1; [|discriminate E|discriminate E]. cbn [bind] in E.
    destruct (find _ _) as [o|] eqn:E2; [|discriminate E]. apply find_some in E2 as [E2 E3].
    destruct (ParseUint esv 8) as [e| |] eqn:E4; [|discriminate E|discriminate E]. cbn [bind] in E.
    destruct (ESV_IsValid e) eqn:E5; [|discriminate E]. cbn [negb] in E.
    destruct (post_properties args) as [ps| |] eqn:E6; [|discriminate E|discriminate E]. cbn [bind] in E.
    injection E as <- _. apply ParseUint_spec in E1 as [N1 L1]. apply ParseUint_spec in E4 as [N2 L2].
    split; [reflexivity|]. exists oc, e, ps. split; [assumption|]. split; [assumption|].
    split; [exists o; split; [assumption|lia]|]. split; [assumption|]. split; [apply known_valid, E5|].
    apply post_properties_spec, E6.
  - intros (-> & oc & e & ps & N1 & L1 & (o & I1 & C1) & N2 & K & F).
    rewrite (proj2 (ParseUint_spec obj 32 oc) (conj N1 L1)). cbn [bind].
    destruct (find _ _) as [o'|] eqn:E2.
    2: { exfalso. pose proof (find_none _ _ E2 o I1) as X. cbn beta in X. lia. }
    assert (L2 : e < 2 ^ 8).
    { unfold known_esv, spec_request, spec_response, spec_notification, spec_error in K. cbn [In app] in K. lia. }
    rewrite (proj2 (ParseUint_spec esv 8 e) (conj N2 L2)). cbn [bind].
    rewrite (proj2 (known_valid e) K). cbn [negb].
    rewrite (proj2 (post_properties_spec args ps) F). cbn [bind]. eauto.
Qed.

Theorem C74_content : forall ct ip obj esv args dst m,
  post_request ct ip obj esv args = Ok (dst, m) ->
  exists oc e ps, numeral obj oc /\ numeral esv e /\ Forall2 gives args ps /\ posted m oc e ps.
Proof.
  intros ct ip obj esv args dst m. unfold post_request. destruct (LookupNode ct ip) as [n|]; [|discriminate].
  destruct (ParseUint obj 32) as [oc| |] eqn:E1; [|discriminate|discriminate]. cbn [bind].
  destruct (rn_LookupObject n oc) as [o|]; [|discriminate].
  destruct (ParseUint esv 8) as [e| |] eqn:E4; [|discriminate|discriminate]. cbn [bind].
  destruct (ESV_IsValid e); [|discriminate]. cbn [negb].
  destruct (post_properties args) as [ps| |] eqn:E6; [|discriminate|discriminate]. cbn [bind]. intros [= <- <-].
  apply ParseUint_spec in E1 as [N1 L1]. apply ParseUint_spec in E4 as [N2 L2]. apply post_properties_spec in E6.
  exists oc, e, ps. split; [assumption|]. split; [assumption|]. split; [assumption|].
  apply posted_made. pose proof (numeral_nonneg obj oc N1). lia.
Qed.

(** The documented form (doc/examples.md) of a property: code, length, data. *)
Definition documented (a : string) (q : Z * list Z) : Prop :=
  is_byte (fst q) /\ is_bytes (snd q) /\ (length (snd q) <= 255)%nat /\
  written a (nibbles (fst q :: Z.of_nat (length (snd q)) :: snd q)).

Lemma written_fun s : forall ds ds', written s ds -> written s ds' -> ds = ds'.
Proof. intros ds ds' H1 H2. apply written_iff in H1, H2. congruence. Qed.

(** The full claim: documented arguments make the request they describe.  The
    program takes the length byte for data, so every property of the request
    differs. *)
Theorem C74_documented_refuted : forall ct ip obj esv args qs dst m,
  Forall2 documented args qs -> post_request ct ip obj esv args = Ok (dst, m) ->
  m_ep m = map (fun q => mkPProp (fst q) (Z.of_nat (length (snd q)) :: snd q)) qs /\
  forall n p q, nth_error (m_ep m) n = Some p -> nth_error qs n = Some q ->
    pp_code p = fst q /\ pp_data p <> snd q /\ length (pp_data p) = S (length (snd q)).
Proof.
  intros ct ip obj esv args qs dst m HD HP. apply C74_content in HP as (oc & e & ps & _ & _ & F & _ & _ & EP & _).
  assert (ES : ps = map (fun q => mkPProp (fst q) (Z.of_nat (length (snd q)) :: snd q)) qs).
  { clear EP. revert ps F. induction HD as [|a q args qs (H1 & H2 & H3 & H4) HD IH]; intros ps F; inversion F as [|? p ? l G1 G2]; subst; [reflexivity|].
    cbn [map]. rewrite <- (IH l G2). destruct G1 as (_ & _ & G1).
    pose proof (nibbles_inj _ _ (written_fun _ _ _ G1 H4)) as X. destruct p as [c d]. cbn [pp_code pp_data] in X. injection X as -> ->. reflexivity. }
  rewrite EP, ES. split; [reflexivity|]. intros n p q H1 H2. rewrite nth_error_map, H2 in H1. injection H1 as <-.
  cbn [pp_code pp_data]. split; [reflexivity|]. split; [|reflexivity].
  intros X. apply (f_equal (@length Z)) in X. cbn [length] in X. lia.
Qed.

(** So the documented command that switches a light (029101 61 800130) is refused
    by the light of examples/uecholight, in every state of it ... *)
Theorem C74_light_refuted : forall ct ip obj esv arg dst req x es nd m,
  documented arg (0x80, [x]) -> numeral obj 0x029101 -> numeral esv 0x61 ->
  post_request ct ip obj esv [arg] = Ok (dst, req) ->
  light_after es = Ok nd -> received m -> not_own nd m ->
  DEOJ m = DEOJ req -> m_esv m = m_esv req -> m_ep m = m_ep req ->
  let out := ProtocolMessageReceived light_callbacks tt nd None m in
  out_node out = nd /\ exists resp, out_reply out = Ok (Some resp) /\ m_esv resp = 0x51.
Proof.
  intros ct ip obj esv arg dst req x es nd m HD HN1 HN2 HP HA HR HO E1 E2 E3 out.
  destruct (C74_documented_refuted ct ip obj esv [arg] [(0x80, [x])] dst req) as [EP _]; [auto|exact HP|].
  apply C74_content in HP as (oc & e & ps & N1 & N2 & _ & P1 & P2 & _ & _).
  assert (oc = 0x029101). { destruct N1 as (d1 & _ & W1 & ->), HN1 as (d2 & _ & W2 & ->). f_equal. eapply written_fun; eassumption. }
  assert (He : e = 0x61). { destruct N2 as (d1 & _ & W1 & ->), HN2 as (d2 & _ & W2 & ->). f_equal. eapply written_fun; eassumption. }
  subst oc. rewrite He in P2. rewrite P1 in E1. rewrite P2 in E2. rewrite EP in E3. cbn [map fst snd length] in E3.
  change (0x029101 mod 2 ^ 24) with 0x029101 in E1.
  destruct (light_after_reached es) as (nd0 & E & H).
  rewrite HA in E. injection E as <-. destruct (light_reached_inv nd H) as (b & HI & Hb & HT).
  pose proof (proj2 HI) as (o & K1 & K2 & K3 & K4). cbn [core_of k_devs] in K1.
  pose proof (light_found b nd (proj2 HI)) as HL.
  assert (HV : ~ exists r o, valid nd m r o).
  { intros (r & o' & (V1 & V2) & _ & V3). rewrite E1, HL in V1. injection V1 as <-.
    cbn [obj_at] in V2. rewrite K1 in V2. injection V2 as <-. rewrite E2, E3 in V3.
    assert (W : writes 0x61) by (unfold writes; cbn; tauto). specialize (V3 (or_intror W)).
    inversion V3 as [|? ? (q & Q1 & _ & Q2) _]; subst. cbn [pp_code pp_data] in *. rewrite K3 in Q1. injection Q1 as <-.
    destruct (Q2 W) as [_ Q3]. cbn in Q3. lia. }
  destruct (handle_invalid light_callbacks tt nd None m HR I HO HV) as (d & resp & EQ & _ & _ & _ & _ & V).
  subst out. rewrite EQ. cbn [out_node out_reply]. split; [reflexivity|]. exists resp. split; [reflexivity|].
  rewrite V, E2. reflexivity.
Qed.

(** ... while the same command without the length (029101 61 8030) switches it. *)
Theorem C74_light : forall ct ip obj esv arg dst req x es nd m,
  gives arg (mkPProp 0x80 [x]) -> on_off x -> numeral obj 0x029101 -> numeral esv 0x61 ->
  post_request ct ip obj esv [arg] = Ok (dst, req) ->
  light_after es = Ok nd -> received m -> not_own nd m ->
  DEOJ m = DEOJ req -> m_esv m = m_esv req -> m_ep m = m_ep req ->
  let out := ProtocolMessageReceived light_callbacks tt nd None m in
  power (out_node out) = Some [x] /\ exists resp, out_reply out = Ok (Some resp) /\ m_esv resp = 0x71.
Proof.
  intros ct ip obj esv arg dst req x es nd m HG Hx HN1 HN2 HP HA HR HO E1 E2 E3 out.
  apply C74_content in HP as (oc & e & ps & N1 & N2 & F & P1 & P2 & P3 & _).
  assert (oc = 0x029101). { destruct N1 as (d1 & _ & W1 & ->), HN1 as (d2 & _ & W2 & ->). f_equal. eapply written_fun; eassumption. }
  assert (He : e = 0x61). { destruct N2 as (d1 & _ & W1 & ->), HN2 as (d2 & _ & W2 & ->). f_equal. eapply written_fun; eassumption. }
  subst oc. rewrite He in P2. inversion F as [|? p ? l F1 F2]; subst. inversion F2; subst.
  apply post_property_spec in F1, HG. rewrite F1 in HG. injection HG as ->.
  destruct (C72_switch es nd m x HA HR HO) as (S1 & (resp & S2 & _ & _ & _ & S3 & _) & _);
    [rewrite E1, P1; reflexivity|congruence|congruence|exact Hx|].
  split; [exact S1|]. exists resp. auto.
Qed.

Example C74_example :
  let light := mkRNode (mkAddress 7 3610) [mkObject [2; 0x91; 1] []] [] in
  let ct := mkCtrl [light] [] [] in
  let request args := r <- post_request ct 7 "029101" "61" args ;; Ok (DEOJ (snd r), m_esv (snd r), m_ep (snd r)) in
  request ["800130"%string] = Ok (0x029101, 0x61, [mkPProp 0x80 [1; 0x30]]) /\
  request ["8030"%string; "B145"%string] = Ok (0x029101, 0x61, [mkPProp 0x80 [0x30]; mkPProp 0xB1 [0x45]]) /\
  request ["80"%string] = Err ErrInvalid /\
  post_request ct 7 "029102" "61" ["8030"%string] = Err ErrNotFound /\
  post_request ct 7 "029101" "65" ["8030"%string] = Err ErrInvalid.
Proof. vm_compute. auto 10. Qed.

(** ** C75: manufacturers *)

(** The table maps every registered code to its name, and no other code. *)
Theorem C75_lookup : forall c s, LookupManufacture c = Some s <-> In (c, s) man_table.
Proof.
  assert (HN : NoDup (map fst man_table)).
  { assert (G : forall l : list Z, (fix nd l := match l with [] => true | x :: t => negb (existsb (Z.eqb x) t) && nd t end) l = true -> NoDup l).
    { induction l as [|x l IH]; intros H; [constructor|]. apply andb_prop in H as [H1 H2]. constructor; [|auto].
      intros HI. rewrite Bool.negb_true_iff in H1. rewrite <- Bool.not_true_iff_false in H1. apply H1.
      apply existsb_exists. exists x. split; [assumption|apply Z.eqb_refl]. }
    apply G. vm_compute. reflexivity. }
  assert (HE : db_manufactures = man_table) by (vm_compute; reflexivity).
  intros c s. unfold LookupManufacture. rewrite HE. clear HE. induction man_table as [|[k v] l IH]; [split; [discriminate|intros []]|].
  cbn [map fst] in HN. inversion HN as [|? ? H1 H2]; subst. cbn [assoc_z In].
  destruct (Z.eqb_spec k c) as [->|N].
  - split; [intros [= ->]; auto|]. intros [[= ->]|HI]; [reflexivity|].
    exfalso. apply H1. apply (in_map fst) in HI. exact HI.
  - rewrite (IH H2). split; [auto|]. intros [[= -> ->]|HI]; [congruence|exact HI].
Qed.

(** From the application that sets the code to the screen of the one that scans:
    the name registered for the code last set is shown. *)
Theorem C75_shown : forall (W : Type) (cb : callbacks W) w ops nd pending m r o c s env,
  Forall node_op_ok ops -> Forall keeps_manufacturer ops -> node_after ops = Ok nd ->
  last_manufacturer ops = c -> In (c, s) man_table ->
  received m -> pending_ok pending -> not_own nd m -> m_esv m = 0x62 ->
  (exists p, m_ep m = [p] /\ pp_code p = 0x8A) -> valid nd m r o -> keeps_node cb ->
  let out := ProtocolMessageReceived cb w nd pending m in
  (forall k e, In (k, e) (out_calls out) -> e = false) ->
  se_manufacture env = LookupManufacture ->
  exists resp, out_reply out = Ok (Some resp) /\ PropsDetails.shown_manufacturer env (inl resp) s.
Proof.
  intros W cb w ops nd pending m r o c s env H1 H2 HA HC HI HR HP HO HE (p & EP & PC) HV HK out Hok Henv.
  assert (HB : 0 <= c < 2 ^ 24).
  { assert (G : forallb (fun k => (0 <=? fst k) && (fst k <? 2 ^ 24)) man_table = true) by (vm_compute; reflexivity).
    rewrite forallb_forall in G. specialize (G _ HI). cbn [fst] in G. lia. }
  destruct (C29_read_unchanged cb w nd pending m r o HR HP HO HE HV HK Hok) as (resp & E & _ & F).
  exists resp. split; [exact E|]. unfold PropsDetails.shown_manufacturer. rewrite EP in F.
  destruct (m_ep resp) as [|q l]; [inversion F|]. inversion F as [|? ? ? ? (A1 & pr & A2 & A3) F2]. inversion F2. clear F F2. subst.
  rewrite PC in A2.
  destruct (C26_manufacturer ops H1 H2) as (nd' & E' & HM); [lia|]. rewrite HA in E'. injection E' as <-.
  assert (IO : In o (Objects nd)).
  { destruct HV as ((_ & V2) & _). unfold Objects. apply in_or_app. destruct r; cbn [obj_at] in V2; apply nth_error_In in V2; auto. }
  specialize (HM o IO). unfold ManufacturerCode, LookupPropertyInteger, ObjectManufacturerCode in HM. rewrite A2 in HM.
  unfold prop_AsInteger in HM. destruct (len (p_data pr) =? 0); [discriminate HM|]. injection HM as HM.
  rewrite A3, HM, Z.mod_small by exact HB. rewrite Henv.
  rewrite (proj2 (C75_lookup _ s) HI). reflexivity.
Qed.

Example C75_example :
  LookupManufacture 0x0B = Some "Panasonic Holdings Corporation"%string /\ LookupManufacture 0xFFFFFF = Some "Experimental"%string /\
  LookupManufacture 0x012345 = None /\
  (nd <- node_after [NSetManufacturer 0x0B] ;; Ok (map ManufacturerCode (Objects nd))) = Ok [Ok 0x0B].
Proof. vm_compute. auto. Qed.

Print Assumptions C72_always.
Print Assumptions C72_effect.
Print Assumptions C72_switch.
Print Assumptions C72_unknown_value.
Print Assumptions C72_unconfirmed_refuted.
Print Assumptions C73_version_refuted.
Print Assumptions C73_version_reads.
Print Assumptions C74_request.
Print Assumptions C74_content.
Print Assumptions C74_documented_refuted.
Print Assumptions C74_light_refuted.
Print Assumptions C74_light.
Print Assumptions C75_lookup.
Print Assumptions C75_shown.

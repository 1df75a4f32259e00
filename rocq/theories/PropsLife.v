(** C85: the life of a node. *)

From Coq Require Import String Ascii ZifyBool ZifyNat.
From Verif Require Import Go GoFacts Encoding Protocol Parser StdDB Property PropertyFacts Object ObjectFacts Spec Node NodeFacts
  Remote Transport TransportFacts TransportStart PropsNode PropsStart Life.
Local Open Scope Z_scope.
Local Open Scope list_scope.

(** ** Vocabulary *)

Definition life_op_ok (op : life_op) : Prop := match op with FCall c _ => node_op_ok (as_op c) | _ => True end.
(** The application leaves the lists of the node profile to the library. *)
Definition leaves_lists (op : life_op) : Prop := match op with FCall c _ => keeps_lists (as_op c) | _ => True end.
(** The codes of the devices the application added, oldest first. *)
Definition devices_added (ops : list life_op) : list (list Z) :=
  flat_map (fun op => match op with FCall (AddsDevice o) _ => [o_codes o] | _ => [] end) ops.

(** ** A history of calls is a history of the node *)

Lemma for_each_snoc {A B} (f : A -> B -> res B) l x b : for_each (l ++ [x]) f b = (b' <- for_each l f b ;; f x b').
Proof.
  revert b. induction l as [|y l IH]; intros b; cbn [app for_each bind].
  - destruct (f x b); reflexivity.
  - destruct (f y b); cbn [bind]; [apply IH|reflexivity|reflexivity].
Qed.

Lemma node_after_snoc nops op nd nd' : node_after nops = Ok nd -> node_step op nd = Ok nd' -> node_after (nops ++ [op]) = Ok nd'.
Proof.
  unfold node_after. destruct newLocalNode as [nd0| |]; cbn [bind]; [|discriminate..]. intros E1 E2.
  rewrite for_each_snoc, E1. exact E2.
Qed.

Lemma running_same nd b : n_running nd = b -> with_running nd b = nd.
Proof. intros <-. destruct nd. reflexivity. Qed.

Record lived (ops : list life_op) (l : life) (nops : list node_op) : Prop := mkLived {
  lv_good : good (lf_mgr l, lf_world l);
  lv_run : n_running (lf_node l) = IsRunning (lf_mgr l);
  lv_node : node_after nops = Ok (lf_node l);
  lv_ok : Forall node_op_ok nops;
  lv_lists : Forall leaves_lists ops -> Forall keeps_lists nops;
  lv_devs : added_devices nops = devices_added ops;
  lv_out : map fst (lf_out l) = n_sent (lf_node l) }.

Lemma transports_all_fst m ok : forall xs n, map fst (transports_all m ok n xs) = xs.
Proof. induction xs as [|x xs IH]; intros n; cbn [transports_all map fst]; [reflexivity|]. rewrite IH. reflexivity. Qed.

Lemma skipn_new {A} (l k : list A) : skipn (length l) (l ++ k) = k.
Proof. rewrite skipn_app, skipn_all2, Nat.sub_diag by lia. reflexivity. Qed.

Lemma handing_out l nd ok : map fst (lf_out l) = n_sent (lf_node l) -> tid_rel (lf_node l) nd ->
  map fst (lf_out (handing l nd ok)) = n_sent nd.
Proof.
  intros H (new & E & _). cbn [handing lf_out]. rewrite map_app, H, transports_all_fst, E, skipn_new. reflexivity.
Qed.

Lemma lived_inv ops l nops : lived ops l nops -> core_inv (core_of (lf_node l)) /\ tid_ok (lf_node l).
Proof.
  intros [_ _ E H _ _ _]. destruct (node_after_spec nops H) as (nd & E' & HI & _ & HT & _).
  assert (nd = lf_node l) by congruence. subst nd. split; [exact HI|]. unfold tid_ok. rewrite HT. apply mod_tid.
Qed.

Lemma devices_snoc ops op : devices_added (ops ++ [op]) = devices_added ops ++ devices_added [op].
Proof. unfold devices_added. apply flat_map_app. Qed.

(** The transport part of a step. *)
Lemma lived_transport ops l nops op m w e : lived ops l nops -> transport_step (lf_mgr l, lf_world l) op = Ok (m, w, e) ->
  good (m, w) /\ IsRunning m = match op with TStart _ => negb e | TStop _ _ => false | _ => IsRunning (lf_mgr l) end.
Proof.
  intros HL E. destruct (step_good _ _ op (lv_good _ _ _ HL)) as (m' & w' & e' & E' & G).
  rewrite E in E'. injection E' as <- <- <-. split; [exact G|]. eapply step_running; [apply HL|exact E].
Qed.

Lemma stop_lived ops l nops o o' l' e x : lived ops l nops -> devices_added [x] = [] -> Life_Stop l o o' = Ok (l', e) ->
  lived (ops ++ [x]) l' (nops ++ [NStop]) /\ IsRunning (lf_mgr l') = false /\ lf_out l' = lf_out l /\
  lf_node l' = with_running (lf_node l) false.
Proof.
  intros HL HX. unfold Life_Stop. destruct (Manager_Stop _ _ _ _) as [[[m w] e0]| |] eqn:E; cbn [bind]; [|discriminate..].
  intros [= <- <-]. destruct (lived_transport ops l nops (TStop o o') m w e0 HL E) as (G & R).
  cbn [with_transport lf_mgr lf_world lf_node lf_out]. rewrite R.
  split; [|split; [reflexivity|split; reflexivity]]. split; cbn [with_transport lf_mgr lf_world lf_node lf_out].
  - exact G.
  - reflexivity.
  - eapply node_after_snoc; [apply HL|]. rewrite R. reflexivity.
  - apply Forall_app. split; [apply HL|repeat constructor].
  - intros H. apply Forall_app in H as [H _]. apply Forall_app. split; [apply (lv_lists _ _ _ HL H)|repeat constructor].
  - unfold added_devices. rewrite flat_map_app, devices_snoc, HX. cbn. rewrite !app_nil_r. apply HL.
  - apply HL.
Qed.

Lemma start_lived ops l nops so ok l' e x : lived ops l nops -> devices_added [x] = [] -> Life_Start l so ok = Ok (l', e) ->
  (exists w, Manager_Start (lf_mgr l) so (lf_world l) = Ok (lf_mgr l', w, true) /\ e <> None /\ IsRunning (lf_mgr l') = false /\
     lf_out l' = lf_out l /\ lf_world l' = w /\ lived (ops ++ [x]) l' (nops ++ [NStart (Some false)])) \/
  (exists w, Manager_Start (lf_mgr l) so (lf_world l) = Ok (lf_mgr l', w, false) /\ IsRunning (lf_mgr l') = true /\ lf_world l' = w /\
     lived (ops ++ [x]) l' (nops ++ [NStart None]) /\ lf_node l' = fst (Node_Start (lf_node l) None) /\
     l' = handing (with_transport l (lf_mgr l') w) (lf_node l') ok /\
     e = announce_error (with_transport l (lf_mgr l') w) l' (snd (Node_Start (lf_node l) None)) ok).
Proof.
  intros HL HX. unfold Life_Start. destruct (Manager_Start _ _ _) as [[[m w] e0]| |] eqn:E; cbn [bind]; [|discriminate..].
  destruct (lived_transport ops l nops (TStart so) m w e0 HL E) as (G & R). destruct e0; cbn [negb] in R.
  - intros [= <- <-]. left. exists w. cbn [with_transport lf_mgr lf_world lf_node lf_out].
    split; [reflexivity|]. split; [discriminate|]. split; [exact R|]. split; [reflexivity|]. split; [reflexivity|].
    split; cbn [with_transport lf_mgr lf_world lf_node lf_out].
    + exact G.
    + reflexivity.
    + eapply node_after_snoc; [apply HL|]. cbn [node_step Node_Start fst]. rewrite R. reflexivity.
    + apply Forall_app. split; [apply HL|repeat constructor].
    + intros H. apply Forall_app in H as [H _]. apply Forall_app. split; [apply (lv_lists _ _ _ HL H)|repeat constructor].
    + unfold added_devices. rewrite flat_map_app, devices_snoc, HX. cbn. rewrite !app_nil_r. apply HL.
    + apply HL.
  - cbn [with_transport lf_node].
    assert (EN : Node_Start (lf_node l) None = Announce (with_running (lf_node l) (IsRunning m))) by (rewrite R; reflexivity).
    rewrite EN. destruct (Announce (with_running (lf_node l) (IsRunning m))) as [nd e1] eqn:EA. intros [= <- <-]. right. exists w.
    cbn [handing lf_mgr lf_world lf_node lf_out with_transport]. split; [reflexivity|]. split; [exact R|]. split; [reflexivity|].
    split; [|auto]. pose proof (f_equal (fun z => core_of (fst z)) EA) as C. cbn [fst] in C. rewrite Announce_core in C.
    split; cbn [handing lf_mgr lf_world lf_node lf_out with_transport].
    + exact G.
    + apply (f_equal k_run) in C. symmetry. exact C.
    + eapply node_after_snoc; [apply HL|]. cbn [node_step]. rewrite EN. reflexivity.
    + apply Forall_app. split; [apply HL|repeat constructor].
    + intros H. apply Forall_app in H as [H _]. apply Forall_app. split; [apply (lv_lists _ _ _ HL H)|repeat constructor].
    + unfold added_devices. rewrite flat_map_app, devices_snoc, HX. cbn. rewrite !app_nil_r. apply HL.
    + destruct (lived_inv _ _ _ HL) as (HI & HT). apply (handing_out (with_transport l m w) nd ok (lv_out _ _ _ HL)).
      assert (ES : node_step (NStart None) (lf_node l) = Ok nd) by (cbn [node_step]; rewrite EN; reflexivity).
      exact (node_step_tid (NStart None) (lf_node l) nd HI I HT ES).
Qed.

Lemma restart_lived ops l nops o o' so ok l' e x : lived ops l nops -> devices_added [x] = [] ->
  Life_Restart l o o' so ok = Ok (l', e) -> exists nops', lived (ops ++ [x]) l' nops'.
Proof.
  intros HL HX. unfold Life_Restart. destruct (Life_Stop l o o') as [[l1 e1]| |] eqn:E1; cbn [bind fst snd]; [|discriminate..].
  destruct (stop_lived ops l nops o o' l1 e1 x HL HX E1) as (L1 & _).
  destruct e1 as [e1|]; [intros [= <- <-]; eauto|]. intros E2.
  destruct (start_lived _ _ _ so ok l' e x L1 HX E2) as [(w & _ & _ & _ & _ & _ & L2)|(w & _ & _ & _ & L2 & _)];
    eexists; (split; try apply L2).
  - intros H. apply (lv_lists _ _ _ L2). apply Forall_app. split; [exact H|]. apply Forall_app in H as [_ H]. exact H.
  - rewrite (lv_devs _ _ _ L2), devices_snoc, HX, app_nil_r. reflexivity.
  - intros H. apply (lv_lists _ _ _ L2). apply Forall_app. split; [exact H|]. apply Forall_app in H as [_ H]. exact H.
  - rewrite (lv_devs _ _ _ L2), devices_snoc, HX, app_nil_r. reflexivity.
Qed.

Lemma step_lived ops l nops op l' e : lived ops l nops -> life_op_ok op -> life_step op l = Ok (l', e) ->
  exists nops', lived (ops ++ [op]) l' nops'.
Proof.
  intros HL HO E. destruct op as [so ok|o o'|o o' so ok|c ok|tcp auto|k|k]; cbn [life_step] in E.
  - destruct (start_lived _ _ _ so ok l' e (FStart so ok) HL eq_refl E) as [(w & _ & _ & _ & _ & _ & L2)|(w & _ & _ & _ & L2 & _)]; eauto.
  - destruct (stop_lived _ _ _ _ _ l' e (FStop o o') HL eq_refl E) as (L2 & _). eauto.
  - eapply restart_lived; [exact HL|reflexivity|exact E].
  - cbn [life_op_ok] in HO. destruct (lived_inv _ _ _ HL) as (HI & HT).
    destruct (node_step_core _ _ HI HO) as (nd & E1 & C & _). rewrite E1 in E. cbn [bind] in E. injection E as <- <-.
    exists (nops ++ [as_op c]). split; cbn [handing lf_mgr lf_world lf_node lf_out].
    + apply HL.
    + rewrite <- (lv_run _ _ _ HL). pose proof (f_equal k_run C) as X. cbn [core_of k_run] in X. rewrite X.
      destruct c as [| | |[] ? ?|[] ?|]; reflexivity.
    + eapply node_after_snoc; [apply HL|exact E1].
    + apply Forall_app. split; [apply HL|]. constructor; [exact HO|constructor].
    + intros H. apply Forall_app in H as [H1 H2]. apply Forall_app. split; [apply (lv_lists _ _ _ HL H1)|].
      inversion H2; subst. constructor; [assumption|constructor].
    + unfold added_devices. rewrite flat_map_app, devices_snoc. fold (added_devices nops). rewrite (lv_devs _ _ _ HL). f_equal.
      destruct c; reflexivity.
    + apply handing_out; [apply HL|]. eapply node_step_tid; eassumption.
  - cbn [transport_only transport_step bind] in E. injection E as <- <-. exists nops. split; cbn [with_transport lf_mgr lf_world lf_node lf_out].
    + apply (lv_good _ _ _ HL).
    + reflexivity.
    + rewrite running_same; [apply HL|]. apply HL.
    + apply HL.
    + intros H. apply Forall_app in H as [H _]. apply (lv_lists _ _ _ HL H).
    + rewrite devices_snoc, app_nil_r. apply HL.
    + apply HL.
  - unfold transport_only in E. destruct (transport_step _ _) as [[[m w] e0]| |] eqn:ET; cbn [bind] in E; [|discriminate E..].
    injection E as <- <-. destruct (lived_transport _ _ _ _ _ _ _ HL ET) as (G & R). exists nops.
    split; cbn [with_transport lf_mgr lf_world lf_node lf_out].
    + exact G.
    + reflexivity.
    + rewrite R, running_same; [apply HL|]. apply HL.
    + apply HL.
    + intros H. apply Forall_app in H as [H _]. apply (lv_lists _ _ _ HL H).
    + rewrite devices_snoc, app_nil_r. apply HL.
    + apply HL.
  - unfold transport_only in E. destruct (transport_step _ _) as [[[m w] e0]| |] eqn:ET; cbn [bind] in E; [|discriminate E..].
    injection E as <- <-. destruct (lived_transport _ _ _ _ _ _ _ HL ET) as (G & R). exists nops.
    split; cbn [with_transport lf_mgr lf_world lf_node lf_out].
    + exact G.
    + reflexivity.
    + rewrite R, running_same; [apply HL|]. apply HL.
    + apply HL.
    + intros H. apply Forall_app in H as [H _]. apply (lv_lists _ _ _ HL H).
    + rewrite devices_snoc, app_nil_r. apply HL.
    + apply HL.
Qed.

Lemma stop_total ops l nops o o' : lived ops l nops -> exists l' e, Life_Stop l o o' = Ok (l', e).
Proof.
  intros HL. destruct (step_good _ _ (TStop o o') (lv_good _ _ _ HL)) as (m & w & e & E & _). cbn [transport_step] in E.
  unfold Life_Stop. rewrite E. cbn [bind]. eauto.
Qed.
Lemma start_total ops l nops so ok : lived ops l nops -> exists l' e, Life_Start l so ok = Ok (l', e).
Proof.
  intros HL. destruct (step_good _ _ (TStart so) (lv_good _ _ _ HL)) as (m & w & e & E & _). cbn [transport_step] in E.
  unfold Life_Start. rewrite E. cbn [bind]. destruct e; [eauto|]. destruct (Announce _). eauto.
Qed.

Lemma step_total ops l nops op : lived ops l nops -> life_op_ok op -> exists l' e, life_step op l = Ok (l', e).
Proof.
  intros HL HO. destruct op as [so ok|o o'|o o' so ok|c ok|tcp auto|k|k]; cbn [life_step].
  - eapply start_total, HL.
  - eapply stop_total, HL.
  - destruct (stop_total _ _ _ o o' HL) as (l1 & e1 & E1). unfold Life_Restart. rewrite E1. cbn [bind fst snd].
    destruct e1 as [e1|]; [eauto|].
    destruct (stop_lived _ _ _ _ _ _ _ (FStop o o') HL eq_refl E1) as (L1 & _). eapply start_total, L1.
  - destruct (lived_inv _ _ _ HL) as (HI & HT). destruct (node_step_core _ _ HI HO) as (nd & E1 & _). rewrite E1. cbn [bind]. eauto.
  - cbn [transport_only transport_step bind]. eauto.
  - destruct (step_good _ _ (TUnicastBad k) (lv_good _ _ _ HL)) as (m & w & e & E & _). unfold transport_only. rewrite E. cbn [bind]. eauto.
  - destruct (step_good _ _ (TMulticastBad k) (lv_good _ _ _ HL)) as (m & w & e & E & _). unfold transport_only. rewrite E. cbn [bind]. eauto.
Qed.

Lemma life_lived tcp auto retry port ops : Forall life_op_ok ops ->
  exists l nops, life_after tcp auto retry port ops = Ok l /\ lived ops l nops.
Proof.
  intros H. unfold life_after, new_life. destruct newLocalNode_core as (nd0 & E0 & HC & Hsent & _). pose proof (f_equal k_run HC) as Hrun. cbn in Hrun. clear HC. rewrite E0. cbn [bind].
  set (l0 := mkLife nd0 (NewManager tcp auto retry port) new_world []).
  assert (L0 : lived [] l0 []).
  { split; cbn.
    - apply good_new.
    - exact Hrun.
    - unfold node_after. rewrite E0. reflexivity.
    - constructor.
    - constructor.
    - reflexivity.
    - symmetry. exact Hsent. }
  clearbody l0. clear E0 Hrun Hsent nd0. induction ops as [|op ops IH] using rev_ind; [exists l0, []; split; [reflexivity|exact L0]|].
  apply Forall_app in H as [H1 H2]. inversion H2; subst. destruct (IH H1) as (l & nops & E & HL). rewrite for_each_snoc, E. cbn [bind].
  destruct (step_total _ _ _ op HL) as (l' & e & ES); [assumption|]. rewrite ES. cbn [bind fst].
  destruct (step_lived _ _ _ _ _ _ HL ltac:(eassumption) ES) as (nops' & L'). eauto.
Qed.

(** ** A node that is not running is silent *)

Definition quiet (nd nd' : node) : Prop := n_running nd' = n_running nd /\ n_sent nd' = n_sent nd.

Lemma announce_all_quiet code : forall evs nd, n_running nd = false -> announce_all nd code evs = nd.
Proof.
  induction evs as [|p evs IH]; intros x Hx; [reflexivity|].
  unfold announce_all. cbn [fold_left]. unfold prop_Announce at 2. rewrite Hx. cbn [negb fst]. apply IH. assumption.
Qed.
Lemma commit_quiet nd r o evs : n_running nd = false -> quiet nd (commit nd r o evs).
Proof. intros H. unfold commit. rewrite announce_all_quiet by (destruct r; exact H). destruct r; split; reflexivity. Qed.
Lemma on_object_quiet nd r f : n_running nd = false -> quiet nd (fst (on_object nd r f)).
Proof.
  intros H. unfold on_object. destruct (obj_at nd r) as [o|]; [|split; reflexivity].
  destruct (f o) as [[o' evs] e]. apply commit_quiet, H.
Qed.
Lemma quiet_trans a b c : quiet a b -> quiet b c -> quiet a c.
Proof. intros [H1 H2] [H3 H4]. split; congruence. Qed.
Lemma updateNodeProfile_quiet nd nd' : n_running nd = false -> updateNodeProfile nd = Ok nd' -> quiet nd nd'.
Proof.
  intros H. unfold updateNodeProfile. destruct (NodeProfile nd) as [r|]; [|intros [= <-]; split; reflexivity].
  destruct (collect_classes (n_devices nd) []) as [c1| |]; cbn [bind]; [|discriminate..].
  destruct (collect_classes (n_profiles nd) c1) as [c2| |]; cbn [bind]; [|discriminate..]. intros [= <-].
  assert (S : forall a r f, quiet nd a -> quiet nd (fst (on_object a r f))).
  { intros a r' f Ha. eapply quiet_trans; [exact Ha|]. apply on_object_quiet. destruct Ha as [-> _]. exact H. }
  repeat apply S. split; reflexivity.
Qed.
Lemma set_man_loop_quiet mk c : forall n i nd, n_running nd = false -> quiet nd (set_manufacturer_loop mk i n c nd).
Proof.
  induction n as [|n IH]; intros i nd H; cbn [set_manufacturer_loop]; [split; reflexivity|].
  eapply quiet_trans; [|apply IH]; [apply on_object_quiet, H|].
  destruct (on_object_quiet nd (mk i) (fun o => SetManufacturerCode o c) H) as [-> _]. exact H.
Qed.

Lemma call_quiet c nd nd' : n_running nd = false -> node_step (as_op c) nd = Ok nd' -> n_sent nd' = n_sent nd.
Proof.
  intros H. destruct c as [o|o|c|r code d|r p|dst m]; cbn [as_op node_step].
  - unfold Node_AddDevice. destruct (SetManufacturerCode o (n_manufacturer nd)) as [[o' ev] e]. intros E.
    apply updateNodeProfile_quiet in E; [apply E|exact H].
  - unfold Node_AddProfile. destruct (SetManufacturerCode o (n_manufacturer nd)) as [[o' ev] e]. intros E.
    apply updateNodeProfile_quiet in E; [apply E|exact H].
  - intros [= <-]. unfold Node_SetManufacturerCode. cbv zeta. set (nd0 := with_manufacturer nd c).
    pose proof (set_man_loop_quiet DevRef c (length (n_devices nd0)) 0 nd0 H) as Q1.
    pose proof (set_man_loop_quiet ProfRef c (length (n_profiles (set_manufacturer_loop DevRef 0 (length (n_devices nd0)) c nd0))) 0
      (set_manufacturer_loop DevRef 0 (length (n_devices nd0)) c nd0) (eq_trans (proj1 Q1) H)) as Q2.
    exact (proj2 (quiet_trans _ _ _ Q1 Q2)).
  - intros [= <-]. apply on_object_quiet, H.
  - destruct (obj_at nd r) as [o|]; [|intros [= <-]; reflexivity].
    destruct (Super_AddProperty o p) as [[o' evs]|]; [|discriminate]. intros [= <-]. apply commit_quiet, H.
  - intros [= <-]. unfold SendMessage, send_with. rewrite H. reflexivity.
Qed.

(** ** The objects *)

Definition strip (k : core) : core := mkCore (k_devs k) (k_profs k) (k_man k) false.
Lemma strip_call c k : strip (core_step (as_op c) k) = core_step (as_op c) (strip k).
Proof. destruct c as [| | |[] ? ?|[] ?|]; reflexivity. Qed.

Lemma start_core l so ok l' e : Life_Start l so ok = Ok (l', e) -> strip (core_of (lf_node l')) = strip (core_of (lf_node l)).
Proof.
  unfold Life_Start. destruct (Manager_Start _ _ _) as [[[m w] e0]| |]; cbn [bind]; [|discriminate..].
  destruct e0; [intros [= <- <-]; reflexivity|]. cbn [with_transport lf_node].
  pose proof (Announce_core (with_running (lf_node l) (IsRunning m))) as C.
  destruct (Announce (with_running (lf_node l) (IsRunning m))) as [nd e1]. cbn [fst] in C. intros [= <- <-].
  cbn [handing lf_node]. rewrite C. reflexivity.
Qed.
Lemma stop_core l o o' l' e : Life_Stop l o o' = Ok (l', e) -> strip (core_of (lf_node l')) = strip (core_of (lf_node l)).
Proof.
  unfold Life_Stop. destruct (Manager_Stop _ _ _ _) as [[[m w] e0]| |]; cbn [bind]; [|discriminate..]. intros [= <- <-]. reflexivity.
Qed.
Lemma restart_core l o o' so ok l' e : Life_Restart l o o' so ok = Ok (l', e) ->
  strip (core_of (lf_node l')) = strip (core_of (lf_node l)).
Proof.
  unfold Life_Restart. destruct (Life_Stop l o o') as [[l1 e1]| |] eqn:E1; cbn [bind fst snd]; [|discriminate..].
  apply stop_core in E1. destruct e1; [intros [= <- <-]; exact E1|]. intros E2. apply start_core in E2. congruence.
Qed.

(** What the application called, without the starts and stops between. *)
Definition calls (ops : list life_op) : list app_call :=
  flat_map (fun op => match op with FCall c _ => [c] | _ => [] end) ops.

Lemma step_core ops l nops op l' e : lived ops l nops -> life_op_ok op -> life_step op l = Ok (l', e) ->
  strip (core_of (lf_node l')) = fold_left (fun k c => core_step (as_op c) k) (calls [op]) (strip (core_of (lf_node l))).
Proof.
  intros HL HO E. destruct op as [so ok|o o'|o o' so ok|c ok|tcp auto|k|k]; cbn [life_step calls flat_map app fold_left] in *.
  - eapply start_core, E.
  - eapply stop_core, E.
  - eapply restart_core, E.
  - destruct (node_step_core (as_op c) (lf_node l) (proj1 (lived_inv _ _ _ HL)) HO) as (nd & E1 & C & _).
    rewrite E1 in E. cbn [bind] in E. injection E as <- <-. cbn [handing lf_node]. rewrite C. apply strip_call.
  - unfold transport_only in E. destruct (transport_step _ _) as [[[m w] e0]| |]; cbn [bind] in E; [|discriminate E..].
    injection E as <- <-. reflexivity.
  - unfold transport_only in E. destruct (transport_step _ _) as [[[m w] e0]| |]; cbn [bind] in E; [|discriminate E..].
    injection E as <- <-. reflexivity.
  - unfold transport_only in E. destruct (transport_step _ _) as [[[m w] e0]| |]; cbn [bind] in E; [|discriminate E..].
    injection E as <- <-. reflexivity.
Qed.

Lemma life_snoc tcp auto retry port ops op l : life_after tcp auto retry port (ops ++ [op]) = Ok l ->
  exists l0 e, life_after tcp auto retry port ops = Ok l0 /\ life_step op l0 = Ok (l, e).
Proof.
  unfold life_after. destruct new_life as [l0| |]; cbn [bind]; [|discriminate..]. rewrite for_each_snoc.
  destruct (for_each ops _ l0) as [l1| |]; cbn [bind]; [|discriminate..].
  destruct (life_step op l1) as [[l2 e]| |] eqn:ES; cbn [bind fst]; [|discriminate..]. intros [= <-]. exists l1, e. split; [reflexivity|assumption].
Qed.

Lemma life_core tcp auto retry port ops : forall l, Forall life_op_ok ops -> life_after tcp auto retry port ops = Ok l ->
  strip (core_of (lf_node l)) = fold_left (fun k c => core_step (as_op c) k) (calls ops) (strip initial_core).
Proof.
  induction ops as [|op ops IH] using rev_ind; intros l H E.
  - unfold life_after, new_life in E. destruct newLocalNode_core as (nd0 & E0 & HC & _). rewrite E0 in E. cbn in E.
    injection E as <-. cbn [lf_node calls flat_map fold_left]. rewrite HC. reflexivity.
  - apply Forall_app in H as [H1 H2]. inversion H2 as [|? ? HO _]; subst. destruct (life_snoc _ _ _ _ _ _ _ E) as (l0 & e & E0 & ES).
    destruct (life_lived tcp auto retry port ops H1) as (l0' & nops & E0' & HL). rewrite E0 in E0'. injection E0' as <-.
    rewrite (step_core _ _ _ _ _ _ HL HO ES), (IH _ H1 E0). unfold calls. rewrite flat_map_app, fold_left_app. reflexivity.
Qed.

(** ** The theorems *)

(** No history of calls panics. *)
Theorem C85_no_panic : forall tcp auto retry port ops, Forall life_op_ok ops ->
  exists l, life_after tcp auto retry port ops = Ok l.
Proof. intros tcp auto retry port ops H. destruct (life_lived tcp auto retry port ops H) as (l & _ & E & _). eauto. Qed.

(** The devices, profiles and manufacturer code of a node depend only on what the
    application called: not on the starts, stops, restarts and failures between. *)
Theorem C85_objects : forall tcp auto retry port ops tcp' auto' retry' port' ops' l l',
  Forall life_op_ok ops -> Forall life_op_ok ops' -> calls ops = calls ops' ->
  life_after tcp auto retry port ops = Ok l -> life_after tcp' auto' retry' port' ops' = Ok l' ->
  n_devices (lf_node l) = n_devices (lf_node l') /\ n_profiles (lf_node l) = n_profiles (lf_node l') /\
  n_manufacturer (lf_node l) = n_manufacturer (lf_node l').
Proof.
  intros tcp auto retry port ops tcp' auto' retry' port' ops' l l' H H' HC E E'.
  pose proof (life_core _ _ _ _ _ _ H E) as C. pose proof (life_core _ _ _ _ _ _ H' E') as C'. rewrite HC, <- C' in C.
  pose proof (f_equal k_devs C). pose proof (f_equal k_profs C). pose proof (f_equal k_man C). auto.
Qed.

(** The outcome of a start (or restart) of the node [l], to which the devices
    [devs] were added. *)
Definition start_outcome (devs : list (list Z)) (l l' : life) (so : start_oracle) (ok : nat -> nat -> bool) (e : option err) : Prop :=
  (e <> None /\ n_running (lf_node l') = false /\ lf_out l' = lf_out l) \/
  (n_running (lf_node l') = true /\
   (exists ifs, GetAvailableInterfaces (so_local' so) = Ok ifs /\
      map (fun s => (ms_if s, ms_addr s)) (mg_multicast (lf_mgr l')) = endpoints ifs /\
      Forall (fun s => exists c, ms_conn s = Some c /\ In c (w_open (lf_world l'))) (mg_multicast (lf_mgr l'))) /\
   exists m us, lf_out l' = lf_out l ++ [(Multicast m, us)] /\
     notification_of m ((Z.of_nat (length (lf_out l)) + 1) mod 65536) 0x0EF001 0xD5 (count_byte (length devs) :: concat devs) /\
     ((e = None /\ exists k s, nth_error (mg_unicast (lf_mgr l')) k = Some s /\ us = [s] /\ ok 0%nat k = true /\
         forall j, (j < k)%nat -> ok 0%nat j = false) \/
      (e <> None /\ us = [] /\ forall k, (k < length (mg_unicast (lf_mgr l')))%nat -> ok 0%nat k = false))).

Lemma start_spec ops l nops so ok l' e : lived ops l nops -> Forall leaves_lists ops -> Life_Start l so ok = Ok (l', e) ->
  start_outcome (devices_added ops) l l' so ok e.
Proof.
  intros HL HK E.
  destruct (start_lived ops l nops so ok l' e (FStart so ok) HL eq_refl E)
    as [(w & EM & He & HR & HO & HW & L2)|(w & EM & HR & HW & L2 & EN & EH & EE)].
  - left. split; [exact He|]. split; [|exact HO]. rewrite (lv_run _ _ _ L2). exact HR.
  - right. split; [rewrite (lv_run _ _ _ L2); exact HR|]. split.
    { destruct (lv_good _ _ _ HL) as [HS F]. destruct (Manager_Start_spec (lf_mgr l) so (lf_world l) HS F) as (m1 & w1 & e1 & E1 & _ & _ & _ & _ & H2 & _).
      rewrite EM in E1. injection E1 as <- <- <-. destruct (H2 eq_refl) as (ifs & ifs' & [A B C D _ _ _ _ _]). rewrite HW. exists ifs'. auto. }
    destruct (startup_message nops (lv_ok _ _ _ HL) (lv_lists _ _ _ HL HK)) as (nd & m & E1 & E2 & E3 & _ & _ & HN & _).
    rewrite (lv_node _ _ _ HL) in E1. injection E1 as <-.
    destruct (node_after_spec nops (lv_ok _ _ _ HL)) as (nd2 & E4 & _ & _ & HT & _). rewrite (lv_node _ _ _ HL) in E4. injection E4 as <-.
    assert (HTID : (n_lastTID (lf_node l) + 1) mod 65536 = (Z.of_nat (length (lf_out l)) + 1) mod 65536).
    { rewrite HT, Z.add_mod_idemp_l by lia. unfold len. rewrite <- (lv_out _ _ _ HL), map_length. reflexivity. }
    rewrite HTID, (lv_devs _ _ _ HL) in HN.
    assert (ENew : skipn (length (n_sent (lf_node l))) (n_sent (lf_node l')) = [Multicast m]) by (rewrite EN, E3; apply skipn_new).
    exists m. rewrite E2 in EE. unfold announce_error in EE. cbn [with_transport lf_node with_running n_sent] in EE. rewrite ENew in EE.
    cbn [transports] in EE. destruct (UManager_AnnounceMessage (lf_mgr l') (ok 0%nat)) as [us ee] eqn:EU. cbn [snd] in EE.
    exists us. split.
    { apply (f_equal lf_out) in EH. rewrite EH. cbn [handing with_transport lf_out lf_mgr lf_node with_running n_sent]. rewrite ENew.
      cbn [transports_all transports]. rewrite EU. reflexivity. }
    split; [exact HN|]. destruct (C55_first_only _ _ _ _ EU) as [(-> & -> & HF)|(-> & HF)].
    + right. split; [rewrite EE; discriminate|]. auto.
    + left. split; [exact EE|]. destruct HF as (k & s & H1 & H2 & H3 & H4). exists k, s. auto.
Qed.

(** A start either fails in the transport (reported; the node is not running and
    nothing is sent), or leaves the node running with its instance list handed to
    the transport once, with the next transaction identifier; the start then fails
    exactly if no server could send it. *)
Theorem C85_start : forall tcp auto retry port ops l so ok l' e,
  Forall life_op_ok ops -> Forall leaves_lists ops -> life_after tcp auto retry port ops = Ok l ->
  life_step (FStart so ok) l = Ok (l', e) -> start_outcome (devices_added ops) l l' so ok e.
Proof.
  intros tcp auto retry port ops l so ok l' e H HK E ES. destruct (life_lived tcp auto retry port ops H) as (l0 & nops & E0 & HL).
  rewrite E in E0. injection E0 as <-. eapply start_spec; eassumption.
Qed.

(** The same for a restart. *)
Theorem C85_restart : forall tcp auto retry port ops l o o' so ok l' e,
  Forall life_op_ok ops -> Forall leaves_lists ops -> life_after tcp auto retry port ops = Ok l ->
  life_step (FRestart o o' so ok) l = Ok (l', e) -> start_outcome (devices_added ops) l l' so ok e.
Proof.
  intros tcp auto retry port ops l o o' so ok l' e H HK E ES. destruct (life_lived tcp auto retry port ops H) as (l0 & nops & E0 & HL).
  rewrite E in E0. injection E0 as <-. cbn [life_step] in ES. unfold Life_Restart in ES.
  destruct (Life_Stop l o o') as [[l1 e1]| |] eqn:E1; cbn [bind fst snd] in ES; [|discriminate ES..].
  destruct (stop_lived _ _ _ _ _ _ _ (FStop o o') HL eq_refl E1) as (L1 & R1 & O1 & _). destruct e1 as [e1|].
  - injection ES as <- <-. left. split; [discriminate|]. split; [rewrite (lv_run _ _ _ L1); exact R1|exact O1].
  - assert (HK1 : Forall leaves_lists (ops ++ [FStop o o'])) by (apply Forall_app; split; [exact HK|repeat constructor]).
    pose proof (start_spec _ _ _ _ _ _ _ L1 HK1 ES) as S. unfold start_outcome in *. rewrite O1 in S.
    rewrite devices_snoc, app_nil_r in S. exact S.
Qed.

(** A stop ends the running and closes the sockets of the servers, whether or not it
    reports an error; it sends nothing. *)
Theorem C85_stop : forall tcp auto retry port ops l o o' l' e,
  Forall life_op_ok ops -> life_after tcp auto retry port ops = Ok l -> life_step (FStop o o') l = Ok (l', e) ->
  n_running (lf_node l') = false /\ lf_out l' = lf_out l /\
  mg_unicast (lf_mgr l') = [] /\ mg_multicast (lf_mgr l') = [] /\
  (forall s x, In s (mg_unicast (lf_mgr l)) -> us_udp s = Some x \/ us_tcp s = Some x -> ~ In x (w_open (lf_world l'))) /\
  (forall s x, In s (mg_multicast (lf_mgr l)) -> ms_conn s = Some x -> ~ In x (w_open (lf_world l'))).
Proof.
  intros tcp auto retry port ops l o o' l' e H E ES. destruct (life_lived tcp auto retry port ops H) as (l0 & nops & E0 & HL).
  rewrite E in E0. injection E0 as <-. cbn [life_step] in ES.
  destruct (stop_lived _ _ _ _ _ _ _ (FStop o o') HL eq_refl ES) as (L1 & R1 & O1 & _).
  split; [rewrite (lv_run _ _ _ L1); exact R1|]. split; [exact O1|].
  destruct (Manager_Stop_ok (lf_mgr l) o o' (lf_world l) (proj1 (lv_good _ _ _ HL))) as (w' & e' & EM & C & _).
  unfold Life_Stop in ES. rewrite EM in ES. cbn [bind] in ES. injection ES as <- _. cbn [with_transport lf_mgr lf_world].
  split; [reflexivity|]. split; [reflexivity|]. unfold held in C. split.
  - intros s x Hs Hx Hi. apply C in Hi as [_ Hn]. apply Hn, in_app_iff. left. apply in_flat_map. exists s. split; [exact Hs|].
    unfold uheld. apply in_app_iff. destruct Hx as [-> | ->]; [left|right]; left; reflexivity.
  - intros s x Hs Hx Hi. apply C in Hi as [_ Hn]. apply Hn, in_app_iff. right. apply in_flat_map. exists s. split; [exact Hs|].
    unfold mheld. rewrite Hx. left. reflexivity.
Qed.

Lemma stop_multicast_error l o : forall n w,
  snd (stop_multicast l o n w) = false <-> forall i s x, nth_error l i = Some s -> ms_conn s = Some x -> or_close o (n + i) = false.
Proof.
  induction l as [|s l IH]; intros n w; cbn [stop_multicast].
  { split; [intros _ i s x E; destruct i; discriminate E|reflexivity]. }
  specialize (IH (S n) (close_opt (ms_conn s) w)). destruct (stop_multicast l o (S n) (close_opt (ms_conn s) w)) as [w' e]. cbn [snd] in *.
  rewrite orb_false_iff, IH. unfold close_err. split.
  - intros (A & B) [|i] s' x E1 E2; cbn [nth_error] in E1.
    + injection E1 as <-. rewrite E2 in A. rewrite Nat.add_0_r. exact A.
    + replace (n + S i)%nat with (S n + i)%nat by lia. eapply B; eassumption.
  - intros H. split.
    + destruct (ms_conn s) as [x|] eqn:EC; [|reflexivity]. specialize (H 0%nat s x eq_refl EC). rewrite Nat.add_0_r in H. exact H.
    + intros i s' x E1 E2. replace (S n + i)%nat with (n + S i)%nat by lia. eapply H; [exact E1|exact E2].
Qed.

Lemma stop_unicast_error l o : forall n w w' e, stop_unicast l o n w = Ok (w', e) ->
  (e = false <-> forall i s x, nth_error l i = Some s ->
     (us_udp s = Some x -> or_close o (2 * (n + i)) = false) /\
     (us_tcpEnabled s = true -> us_tcp s = Some x -> or_close o (2 * (n + i) + 1) = false)).
Proof.
  induction l as [|s l IH]; intros n w w' e; cbn [stop_unicast].
  { intros [= _ <-]. split; [intros _ i s x E; destruct i; discriminate E|reflexivity]. }
  destruct (UServer_Stop s (or_close o (2 * n)) (or_close o (2 * n + 1)) w) as [[w1 e1]| |] eqn:E1; cbn [bind fst snd]; try discriminate.
  destruct (stop_unicast l o (S n) w1) as [[w2 e2]| |] eqn:E2; cbn [bind fst snd]; try discriminate. intros [= _ <-].
  apply IH in E2. rewrite orb_false_iff, E2.
  assert (G : e1 = false <-> forall x, (us_udp s = Some x -> or_close o (2 * n) = false) /\
     (us_tcpEnabled s = true -> us_tcp s = Some x -> or_close o (2 * n + 1) = false)).
  { unfold UServer_Stop in E1. destruct (close_chan (us_udpChannel s)); cbn [bind] in E1; try discriminate E1.
    destruct (us_tcpEnabled s).
    - destruct (close_chan (us_tcpChannel s)); cbn [bind] in E1; try discriminate E1. injection E1 as _ <-. rewrite orb_false_iff.
      unfold close_err. split.
      + intros (A & B) x. split; [intros Y; rewrite Y in A; exact A|intros _ Y; rewrite Y in B; exact B].
      + intros H. split; [destruct (us_udp s) as [u|]; [apply (proj1 (H u) eq_refl)|reflexivity]|].
        destruct (us_tcp s) as [t|]; [apply (proj2 (H t) eq_refl eq_refl)|reflexivity].
    - injection E1 as _ <-. unfold close_err. destruct (us_udp s) as [u|]; split.
      + intros A x. split; [intros _; exact A|intros Y; discriminate Y].
      + intros H. apply (proj1 (H u) eq_refl).
      + intros _ x. split; [intros Y; discriminate Y|intros Y; discriminate Y].
      + reflexivity. }
  rewrite G. split.
  - intros (A & B) [|i] s' x E; cbn [nth_error] in E.
    + injection E as <-. rewrite Nat.add_0_r. apply A.
    + replace (n + S i)%nat with (S n + i)%nat by lia. apply B, E.
  - intros H. split.
    + intros x. specialize (H 0%nat s x eq_refl). rewrite Nat.add_0_r in H. exact H.
    + intros i s' x E. replace (S n + i)%nat with (n + S i)%nat by lia. apply H. exact E.
Qed.

(** A stop reports an error exactly when the close of a socket of a server fails. *)
Theorem C85_stop_reports : forall tcp auto retry port ops l o o' l' e,
  Forall life_op_ok ops -> life_after tcp auto retry port ops = Ok l -> life_step (FStop o o') l = Ok (l', e) ->
  (e = None <->
   (forall i s x, nth_error (mg_multicast (lf_mgr l)) i = Some s -> ms_conn s = Some x -> or_close o i = false) /\
   (forall i s x, nth_error (mg_unicast (lf_mgr l)) i = Some s ->
      (us_udp s = Some x -> or_close o' (2 * i) = false) /\
      (us_tcpEnabled s = true -> us_tcp s = Some x -> or_close o' (2 * i + 1) = false))).
Proof.
  intros tcp auto retry port ops l o o' l' e H E ES. cbn [life_step] in ES. unfold Life_Stop, Manager_Stop, MManager_Stop in ES.
  pose proof (stop_multicast_error (mg_multicast (lf_mgr l)) o 0 (lf_world l)) as M.
  destruct (stop_multicast (mg_multicast (lf_mgr l)) o 0 (lf_world l)) as [w1 e1]. cbn [snd] in M.
  unfold UManager_Stop in ES. cbn [mg_unicast with_multicast] in ES.
  destruct (stop_unicast (mg_unicast (lf_mgr l)) o' 0 w1) as [[w2 e2]| |] eqn:EU; cbn [bind fst snd] in ES; try discriminate ES.
  apply stop_unicast_error in EU. injection ES as _ <-. cbn [Nat.add] in M, EU. rewrite <- M, <- EU.
  destruct e1, e2; cbn [orb]; intuition discriminate.
Qed.

(** A node that is not running sends nothing, whatever the application calls, until
    it is started. *)
Theorem C85_silent : forall tcp auto retry port ops l op l' e,
  Forall life_op_ok ops -> life_after tcp auto retry port ops = Ok l -> n_running (lf_node l) = false ->
  match op with FStart _ _ | FRestart _ _ _ _ => False | _ => True end ->
  life_step op l = Ok (l', e) -> lf_out l' = lf_out l.
Proof.
  intros tcp auto retry port ops l op l' e H E HR HO ES.
  destruct op as [so ok|o o'|o o' so ok|c ok|tcp' auto'|k|k]; try contradiction; cbn [life_step] in ES.
  - unfold Life_Stop in ES. destruct (Manager_Stop _ _ _ _) as [[[m w] e0]| |]; cbn [bind] in ES; [|discriminate ES..].
    injection ES as <- <-. reflexivity.
  - destruct (node_step (as_op c) (lf_node l)) as [nd| |] eqn:EN; cbn [bind] in ES; [|discriminate ES..]. injection ES as <- <-.
    apply call_quiet in EN; [|exact HR]. cbn [handing lf_out]. rewrite EN, skipn_all. apply app_nil_r.
  - unfold transport_only in ES. destruct (transport_step _ _) as [[[m w] e0]| |]; cbn [bind] in ES; [|discriminate ES..].
    injection ES as <- <-. reflexivity.
  - unfold transport_only in ES. destruct (transport_step _ _) as [[[m w] e0]| |]; cbn [bind] in ES; [|discriminate ES..].
    injection ES as <- <-. reflexivity.
  - unfold transport_only in ES. destruct (transport_step _ _) as [[[m w] e0]| |]; cbn [bind] in ES; [|discriminate ES..].
    injection ES as <- <-. reflexivity.
Qed.

(** Over the whole life, across stops and restarts, the k-th message carries
    transaction identifier k modulo 65536. *)
Theorem C85_tids : forall tcp auto retry port ops l i x us,
  Forall life_op_ok ops -> life_after tcp auto retry port ops = Ok l -> nth_error (lf_out l) i = Some (x, us) ->
  TID (sent_message x) = (Z.of_nat i + 1) mod 65536.
Proof.
  intros tcp auto retry port ops l i x us H E HN. destruct (life_lived tcp auto retry port ops H) as (l0 & nops & E0 & HL).
  rewrite E in E0. injection E0 as <-. destruct (C11_fresh_tids nops (lv_ok _ _ _ HL)) as (nd & E1 & HT).
  rewrite (lv_node _ _ _ HL) in E1. injection E1 as <-. apply (HT i x). rewrite <- (lv_out _ _ _ HL).
  rewrite (map_nth_error fst i _ HN). reflexivity.
Qed.

(** The state of the node is that of its transport: it is running exactly while it
    has unicast and multicast servers. *)
Theorem C85_running : forall tcp auto retry port ops l,
  Forall life_op_ok ops -> life_after tcp auto retry port ops = Ok l ->
  (n_running (lf_node l) = true <-> mg_unicast (lf_mgr l) <> [] /\ mg_multicast (lf_mgr l) <> []).
Proof.
  intros tcp auto retry port ops l H E. destruct (life_lived tcp auto retry port ops H) as (l0 & nops & E0 & HL).
  rewrite E in E0. injection E0 as <-. rewrite (lv_run _ _ _ HL). unfold IsRunning.
  destruct (mg_unicast (lf_mgr l)), (mg_multicast (lf_mgr l)); intuition congruence.
Qed.

(** It is not true that a start that reports an error leaves the node stopped: when
    no server can send the announcement, the node runs with open sockets. *)
Theorem C85_start_error_refuted : exists tcp auto retry port ops l so ok l' e,
  Forall life_op_ok ops /\ Forall leaves_lists ops /\ life_after tcp auto retry port ops = Ok l /\
  life_step (FStart so ok) l = Ok (l', Some e) /\ n_running (lf_node l') = true /\ w_open (lf_world l') <> [].
Proof.
  exists false, false, 5%nat, 3610, []. destruct (C85_no_panic false false 5 3610 [] (Forall_nil _)) as (l & E).
  exists l, (plain_start one_if), (fun _ _ => false).
  assert (HL : exists l' e, life_step (FStart (plain_start one_if) (fun _ _ => false)) l = Ok (l', Some e) /\
    n_running (lf_node l') = true /\ w_open (lf_world l') <> []).
  { vm_compute in E. injection E as <-. eexists _, _. split; [vm_compute; reflexivity|]. split; [reflexivity|discriminate]. }
  destruct HL as (l' & e & H1 & H2 & H3). exists l', e.
  split; [constructor|]. split; [constructor|]. auto.
Qed.

(** A restart whose stop reports an error does not start the node again. *)
Theorem C85_restart_refuted : exists tcp auto retry port ops l o o' so ok l' e,
  Forall life_op_ok ops /\ life_after tcp auto retry port ops = Ok l /\ n_running (lf_node l) = true /\
  life_step (FRestart o o' so ok) l = Ok (l', Some e) /\ n_running (lf_node l') = false /\
  exists l2, life_step (FStart so ok) l' = Ok (l2, None) /\ n_running (lf_node l2) = true.
Proof.
  set (ops := [FStart (plain_start one_if) (fun _ _ => true)]).
  exists false, false, 5%nat, 3610, ops. destruct (C85_no_panic false false 5 3610 ops) as (l & E); [repeat constructor|].
  set (o := mkOracle (fun _ _ _ _ => BOk) (fun _ _ _ _ => BOk) (fun _ _ _ => BOk) (fun _ => true)).
  exists l, o, o, (plain_start one_if), (fun _ _ => true).
  assert (HL : n_running (lf_node l) = true /\
    exists l' e, life_step (FRestart o o (plain_start one_if) (fun _ _ => true)) l = Ok (l', Some e) /\ n_running (lf_node l') = false /\
    exists l2, life_step (FStart (plain_start one_if) (fun _ _ => true)) l' = Ok (l2, None) /\ n_running (lf_node l2) = true).
  { vm_compute in E. injection E as <-. split; [reflexivity|]. eexists _, _. split; [vm_compute; reflexivity|]. split; [reflexivity|].
    eexists. split; vm_compute; reflexivity. }
  destruct HL as (HR & l' & e & H1 & H2 & H3). exists l', e. split; [repeat constructor|]. auto.
Qed.

(** A controller that is started forgets the nodes it found, whether or not the start
    succeeds; one that is stopped keeps them.  The local node starts and stops as above. *)
Theorem C85_controller : forall ct l so ok o o',
  (forall ct' l' e, Controller_Start ct l so ok = Ok (ct', l', e) ->
     ct_found ct' = [] /\ ct_told ct' = ct_told ct /\ life_step (FStart so ok) l = Ok (l', e)) /\
  (forall ct' l' e, Controller_Stop ct l o o' = Ok (ct', l', e) ->
     ct' = ct /\ life_step (FStop o o') l = Ok (l', e)).
Proof.
  intros ct l so ok o o'. unfold Controller_Start, Controller_Stop. cbn [life_step]. split; intros ct' l' e.
  - destruct (Life_Start l so ok) as [[l1 e1]| |]; cbn [bind fst snd]; [|discriminate..]. intros [= <- <- <-]. auto.
  - destruct (Life_Stop l o o') as [[l1 e1]| |]; cbn [bind fst snd]; [|discriminate..]. intros [= <- <- <-]. auto.
Qed.

(** An example: a device is added, the node started, a value written, the node
    restarted with one server that cannot send, and stopped. *)
Definition ex_life : list life_op :=
  [FCall (AddsDevice ex_dev) (fun _ _ => true);
   FStart (plain_start two_ifs) (fun _ _ => true);
   FCall (SetsData (DevRef 0) 0x80 [0x31]) (fun _ k => Nat.eqb k 1);
   FRestart all_ok all_ok (plain_start two_ifs) (fun _ k => Nat.eqb k 1);
   FStop all_ok all_ok;
   FCall (SetsData (DevRef 0) 0x80 [0x30]) (fun _ _ => true)].
Example C85_example :
  match life_after true true 5 3610 ex_life with
  | Ok l => n_running (lf_node l) = false /\
      map (fun o => map us_if (snd o)) (lf_out l) = [[1%nat]; [2%nat]; [2%nat]] /\
      map (fun o => TID (sent_message (fst o))) (lf_out l) = [1; 2; 3] /\
      map (fun o => m_ep (sent_message (fst o))) (lf_out l) =
        [[mkPProp 0xD5 [1; 2; 0x90; 1]]; [mkPProp 0x80 [0x31]]; [mkPProp 0xD5 [1; 2; 0x90; 1]]] /\
      map (fun o => option_map p_data (LookupProperty (o_props o) 0x80)) (n_devices (lf_node l)) = [Some [0x30]] /\
      w_open (lf_world l) = []
  | _ => False
  end.
Proof. vm_compute. auto 10. Qed.
Example C85_example_ok : Forall life_op_ok ex_life /\ Forall leaves_lists ex_life /\
  devices_added ex_life = [[2; 0x90; 1]].
Proof.
  split; [|split; [|reflexivity]].
  - unfold ex_life. apply Forall_cons; [exact (proj1 ex_dev_ok)|]. apply Forall_cons; [exact I|]. apply Forall_cons.
    { vm_compute. repeat constructor; discriminate. }
    apply Forall_cons; [exact I|]. apply Forall_cons; [exact I|]. apply Forall_cons; [|apply Forall_nil].
    vm_compute. repeat constructor; discriminate.
  - unfold ex_life. repeat (apply Forall_cons; [vm_compute; repeat split; try discriminate; auto|]). apply Forall_nil.
Qed.

Print Assumptions C85_no_panic.
Print Assumptions C85_objects.
Print Assumptions C85_start.
Print Assumptions C85_restart.
Print Assumptions C85_stop.
Print Assumptions C85_stop_reports.
Print Assumptions C85_silent.
Print Assumptions C85_tids.
Print Assumptions C85_running.
Print Assumptions C85_start_error_refuted.
Print Assumptions C85_restart_refuted.
Print Assumptions C85_controller.

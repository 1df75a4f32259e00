(** Properties C48, C54, C55: start, stop and sending of the transport. *)

From Coq Require Import String Ascii ZifyBool ZifyNat.
From Verif Require Import Go GoFacts Encoding Protocol Parser Transport TransportFacts TransportStart.
Local Open Scope Z_scope.
Local Open Scope list_scope.

(** The states that a transport can be in: any sequence of starts, stops,
    configuration changes and malformed datagrams, with any answers of the system. *)
Definition reachable (m : manager) (w : world) : Prop :=
  exists tcp auto retry port ops, transport_run (NewManager tcp auto retry port, new_world) ops = Ok (m, w).

Lemma reachable_good m w : reachable m w -> good (m, w).
Proof.
  intros (tcp & auto & retry & port & ops & E).
  destruct (run_good ops _ (good_new tcp auto retry port)) as (st & E' & G). rewrite E in E'. inv E'. exact G.
Qed.

Lemma new_reachable tcp auto retry port : reachable (NewManager tcp auto retry port) new_world.
Proof. exists tcp, auto, retry, port, []. reflexivity. Qed.

(** A concrete system for the examples: two interfaces, one address each. *)
Definition eth (n : nat) (a : string) : iface := mkIface n "eth" 19 (Some [(a ++ "/24")%string]).
Definition two_ifs : option (list iface) := Some [eth 1 "10.0.0.1"; eth 2 "10.0.1.1"].
Definition one_if : option (list iface) := Some [eth 1 "10.0.0.1"].
Definition all_ok : oracle := mkOracle (fun _ _ _ _ => BOk) (fun _ _ _ _ => BOk) (fun _ _ _ => BOk) (fun _ => false).
Definition plain_start (local : option (list iface)) : start_oracle := mkSO local local all_ok all_ok (fun _ => all_ok).
(** The interface [k] cannot be bound. *)
Definition failing (k : nat) : oracle :=
  mkOracle (fun _ i _ _ => if Nat.eqb i k then BListenFails else BOk) (fun _ _ _ _ => BOk) (fun _ _ _ => BOk) (fun _ => false).
Definition failing_start (local : option (list iface)) (o : oracle) : start_oracle :=
  mkSO local local o all_ok (fun _ => all_ok).

(** ** C48

    Full statement: a start reports success with a bound server for every usable
    interface, or an error and leaves nothing bound; after a stop nothing is
    bound; the transport reports running exactly between a successful start and
    the next stop.  Only the last part and the multicast half hold in general. *)

(** Never a panic (a channel closed twice or never made). *)
Theorem C48_no_panic : forall tcp auto retry port ops,
  exists m w, transport_run (NewManager tcp auto retry port, new_world) ops = Ok (m, w).
Proof.
  intros. destruct (run_good ops _ (good_new tcp auto retry port)) as ([m w] & E & _). eauto.
Qed.

Lemma started_running ifs ifs' m m' so w' : started ifs ifs' m m' so w' -> IsRunning m' = true.
Proof.
  intros [H1 H2 H3 _ _ _ H4 _ _]. unfold IsRunning.
  destruct (available_spec _ _ H1) as [Hne Ha]. destruct (available_spec _ _ H2) as [Hne' Ha'].
  destruct (exists_last Hne) as (pre & i & Ei).
  destruct (Ha i) as (addrs & EA & HA); [rewrite Ei, in_app_iff; right; left; reflexivity|].
  destruct addrs as [|a addrs]; [congruence|].
  destruct (H4 pre i Ei _ a EA (or_introl eq_refl)) as (u & Hu & _).
  destruct (mg_unicast m'); [destruct Hu|].
  pose proof (endpoints_nonempty _ Hne' Ha') as HE. destruct (mg_multicast m'); [cbn in H3; congruence|reflexivity].
Qed.

Lemma step_running m w op m' w' e : good (m, w) -> transport_step (m, w) op = Ok (m', w', e) ->
  IsRunning m' = match op with TStart _ => negb e | TStop _ _ => false | _ => IsRunning m end.
Proof.
  intros [HS F] E. cbn [fst snd] in *. destruct op as [so|o o'|tcp auto|p|k|k]; cbn [transport_step] in E.
  - destruct (Manager_Start_spec m so w HS F) as (m1 & w1 & e1 & E1 & _ & _ & _ & H1 & H2 & _).
    rewrite E1 in E. inv E. destruct e.
    + unfold IsRunning. rewrite H1 by reflexivity. destruct (mg_unicast m'); reflexivity.
    + destruct (H2 eq_refl) as (ifs & ifs' & HX). eapply started_running; exact HX.
  - destruct (Manager_Stop_ok m o o' w HS) as (w1 & e1 & E1 & _). rewrite E1 in E. inv E. reflexivity.
  - inv E. reflexivity.
  - inv E. reflexivity.
  - inv E. unfold IsRunning, stop_reading. cbn [mg_unicast mg_multicast with_unicast].
    destruct (nth_error (mg_unicast m) k) as [s|] eqn:En; [|reflexivity].
    destruct (mg_unicast m) as [|x ll]; [destruct k; discriminate En|]. destruct k; reflexivity.
  - destruct (nth_error (mg_multicast m) k) as [s|] eqn:En; inv E; [|reflexivity].
    unfold IsRunning, drop_conn. cbn [mg_unicast mg_multicast with_multicast]. rewrite En.
    destruct (mg_unicast m); [reflexivity|].
    destruct (mg_multicast m) as [|x ll]; [destruct k; discriminate En|]. destruct k; reflexivity.
Qed.

Definition is_start_or_stop (op : transport_op) : bool :=
  match op with TStart _ | TStop _ _ => true | _ => false end.

(** Running exactly between a successful start and the next start or stop: the
    last start or stop of a history decides. *)
Theorem C48_running : forall m w op m1 w1 e rest m2 w2,
  reachable m w -> is_start_or_stop op = true ->
  transport_step (m, w) op = Ok (m1, w1, e) ->
  Forall (fun op => is_start_or_stop op = false) rest ->
  transport_run (m1, w1) rest = Ok (m2, w2) ->
  IsRunning m2 = match op with TStart _ => negb e | _ => false end.
Proof.
  intros m w op m1 w1 e rest m2 w2 HR Hop E HF ER.
  apply reachable_good in HR.
  destruct (step_good m w op HR) as (m1' & w1' & e' & E' & G). rewrite E in E'. inv E'.
  assert (E1 : IsRunning m1' = match op with TStart _ => negb e' | _ => false end).
  { rewrite (step_running m w op m1' w1' e' HR E). destruct op; try reflexivity; discriminate Hop. }
  rewrite <- E1. clear - HF ER G. revert m1' w1' G ER.
  induction HF as [|x rest Hx _ IH]; intros m1 w1 G ER; cbn [transport_run] in ER; [inv ER; reflexivity|].
  destruct (step_good m1 w1 x G) as (m3 & w3 & e3 & E3 & G3). rewrite E3 in ER. cbn [bind fst] in ER.
  rewrite (IH m3 w3 G3 ER). rewrite (step_running m1 w1 x m3 w3 e3 G E3). destruct x; try reflexivity; discriminate Hx.
Qed.

Theorem C48_not_running_at_first : forall tcp auto retry port rest m w,
  Forall (fun op => is_start_or_stop op = false) rest ->
  transport_run (NewManager tcp auto retry port, new_world) rest = Ok (m, w) -> IsRunning m = false.
Proof.
  intros tcp auto retry port rest m w HF ER.
  assert (H : forall m1 w1, good (m1, w1) -> IsRunning m1 = false ->
              transport_run (m1, w1) rest = Ok (m, w) -> IsRunning m = false).
  { clear ER. induction HF as [|x rest Hx _ IH]; intros m1 w1 G E1 ER; cbn [transport_run] in ER; [inv ER; exact E1|].
    destruct (step_good m1 w1 x G) as (m3 & w3 & e3 & E3 & G3). rewrite E3 in ER. cbn [bind fst] in ER.
    apply (IH m3 w3 G3); [|exact ER]. rewrite (step_running m1 w1 x m3 w3 e3 G E3). destruct x; auto; discriminate Hx. }
  apply (H _ _ (good_new tcp auto retry port) eq_refl ER).
Qed.

Example C48_running_example :
  match transport_run (NewManager false false 5 3610, new_world) [TStart (plain_start two_ifs); TSetPort 3611] with
  | Ok (m, w) => IsRunning m = true /\ length (w_open w) = 4%nat | _ => False end /\
  match transport_run (NewManager false false 5 3610, new_world) [TStart (plain_start two_ifs); TStop all_ok all_ok] with
  | Ok (m, w) => IsRunning m = false /\ w_open w = [] | _ => False end /\
  match transport_run (NewManager false false 5 3610, new_world) [TStart (failing_start two_ifs (failing 2))] with
  | Ok (m, w) => IsRunning m = false | _ => False end.
Proof. vm_compute. auto. Qed.

(** A stop, whatever happened before, forgets every server and closes every
    socket that a server holds, even when closing reports errors. *)
Theorem C48_stop : forall m w o o', reachable m w ->
  exists m' w' e, transport_step (m, w) (TStop o o') = Ok (m', w', e) /\
    mg_unicast m' = [] /\ mg_multicast m' = [] /\
    forall x, In x (w_open w') <->
      In x (w_open w) /\
      ~ (exists s, In s (mg_unicast m) /\ (us_udp s = Some x \/ us_tcp s = Some x)) /\
      ~ (exists s, In s (mg_multicast m) /\ ms_conn s = Some x).
Proof.
  intros m w o o' HR. apply reachable_good in HR as [HS F]. cbn [fst snd] in *.
  destruct (Manager_Stop_ok m o o' w HS) as (w' & e & E & C & _).
  exists (stopped m), w', e. split; [exact E|]. split; [reflexivity|]. split; [reflexivity|].
  intros x. rewrite C. apply and_iff_compat_l.
  assert (HU : In x (flat_map uheld (mg_unicast m)) <-> exists s, In s (mg_unicast m) /\ (us_udp s = Some x \/ us_tcp s = Some x)).
  { rewrite in_flat_map. apply Morphisms_Prop.ex_iff_morphism. intros s. apply and_iff_compat_l. unfold uheld.
    rewrite in_app_iff. destruct (us_udp s), (us_tcp s); cbn; intuition congruence. }
  assert (HM : In x (flat_map mheld (mg_multicast m)) <-> exists s, In s (mg_multicast m) /\ ms_conn s = Some x).
  { rewrite in_flat_map. apply Morphisms_Prop.ex_iff_morphism. intros s. apply and_iff_compat_l. unfold mheld.
    destruct (ms_conn s); cbn; intuition congruence. }
  unfold held. rewrite in_app_iff, HU, HM. tauto.
Qed.

(** After a stop nothing is open, if no TCP bind failed while TCP was enabled and
    no multicast socket failed at its options.  (Sockets of failed starts are
    closed by the next stop.) *)
Theorem C48_stop_clean_partial : forall tcp auto retry port ops o o' m w,
  tidy_ops tcp ops ->
  transport_run (NewManager tcp auto retry port, new_world) (ops ++ [TStop o o']) = Ok (m, w) ->
  w_open w = [].
Proof.
  intros tcp auto retry port ops o o' m w HT E.
  assert (HT' : tidy_ops tcp (ops ++ [TStop o o'])).
  { clear E. revert tcp HT. induction ops as [|op ops IH]; intros tcp HT; [cbn; auto|].
    destruct HT as [H1 H2]. split; [exact H1|]. apply IH, H2. }
  pose proof (run_tidy _ _ _ _ _ (good_new tcp auto retry port) HT' (incl_nil_l _) E) as HI.
  assert (HM : mg_unicast m = [] /\ mg_multicast m = []).
  { revert E. generalize (good_new tcp auto retry port). generalize (NewManager tcp auto retry port) new_world. clear.
    induction ops as [|op ops IH]; intros m0 w0 G E; cbn [app transport_run] in E.
    - destruct G as [HS _]. cbn [fst] in HS. cbn [transport_step] in E.
      destruct (Manager_Stop_ok m0 o o' w0 HS) as (w1 & e1 & E1 & _). rewrite E1 in E. cbn [bind fst] in E. inv E. split; reflexivity.
    - destruct (step_good m0 w0 op G) as (m1 & w1 & e & E1 & G1). rewrite E1 in E. cbn [bind fst] in E. eapply IH; eassumption. }
  destruct HM as [HM1 HM2]. unfold held in HI. rewrite HM1, HM2 in HI. cbn in HI.
  destruct (w_open w) as [|x l]; [reflexivity|]. destruct (HI x (or_introl eq_refl)).
Qed.

(** A successful start has one multicast server per address of every usable
    interface, each with an open socket. *)
Theorem C48_multicast_complete : forall m w so m' w',
  reachable m w -> transport_step (m, w) (TStart so) = Ok (m', w', false) ->
  exists ifs, GetAvailableInterfaces (so_local' so) = Ok ifs /\
    map (fun s => (ms_if s, ms_addr s)) (mg_multicast m') = endpoints ifs /\
    Forall (fun s => exists c, ms_conn s = Some c /\ In c (w_open w')) (mg_multicast m').
Proof.
  intros m w so m' w' HR E. apply reachable_good in HR as [HS F]. cbn [fst snd transport_step] in *.
  destruct (Manager_Start_spec m so w HS F) as (m1 & w1 & e1 & E1 & _ & _ & _ & _ & H2 & _).
  rewrite E1 in E. inv E. destruct (H2 eq_refl) as (ifs & ifs' & [A B C D _ _ _ _ _]). exists ifs'. auto.
Qed.

(** A successful start has an open unicast server on the announced port for every
    address of the last usable interface (so for all of them if there is one
    usable interface), and only servers of usable interfaces. *)
Theorem C48_unicast_last_partial : forall m w so m' w',
  reachable m w -> transport_step (m, w) (TStart so) = Ok (m', w', false) ->
  exists pre i, GetAvailableInterfaces (so_local so) = Ok (pre ++ [i]) /\
    (forall addrs a, GetInterfaceAddresses i = Ok addrs -> In a addrs ->
       exists u s, In u (mg_unicast m') /\ us_if u = if_id i /\ us_addr u = a /\ us_port u = mg_port m' /\
                   us_udp u = Some s /\ In s (w_open w')) /\
    (forall u, In u (mg_unicast m') -> In (us_if u, us_addr u) (endpoints (pre ++ [i]))).
Proof.
  intros m w so m' w' HR E. apply reachable_good in HR as [HS F]. cbn [fst snd transport_step] in *.
  destruct (Manager_Start_spec m so w HS F) as (m1 & w1 & e1 & E1 & _ & _ & _ & _ & H2 & _).
  rewrite E1 in E. inv E. destruct (H2 eq_refl) as (ifs & ifs' & [A B C D G H I J K]).
  destruct (available_spec _ _ A) as [Hne _]. destruct (exists_last Hne) as (pre & i & Ei). rewrite Ei in *.
  exists pre, i. split; [exact A|].
  assert (HG : forall u, In u (mg_unicast m') -> (exists s, us_udp u = Some s) /\ In (us_if u, us_addr u) (endpoints (pre ++ [i]))).
  { intros u Hu. rewrite Forall_forall in G. destruct (G u Hu) as (c & _ & G2 & _ & _ & _ & _ & G3 & _).
    rewrite number_from_snd in G2. auto. }
  split.
  - intros addrs a EA Ha. destruct (I pre i eq_refl addrs a EA Ha) as (u & Hu & I1 & I2 & I3).
    destruct (HG u Hu) as [[s Es] _]. exists u, s. repeat split; auto.
    apply H. apply in_flat_map. exists u. split; [exact Hu|]. unfold uheld. rewrite Es. left. reflexivity.
  - intros u Hu. apply HG, Hu.
Qed.

(** When the system grants everything a start succeeds, with exactly one unicast
    server per address of every usable interface, on the configured port. *)
Theorem C48_all_granted : forall m w so ifs,
  reachable m w ->
  GetAvailableInterfaces (so_local so) = Ok ifs -> GetAvailableInterfaces (so_local' so) = Ok ifs ->
  (forall i a, In (i, a) (endpoints ifs) -> a <> EmptyString) ->
  (forall i, binds_ok (mg_tcp m) (so_unicast so) i) -> (forall n i a, or_multicast (so_multicast so) n i a = BOk) ->
  (forall k n, or_close (so_stop so k) n = false) ->
  exists m' w', transport_step (m, w) (TStart so) = Ok (m', w', false) /\
    map (fun u => (us_if u, us_addr u)) (mg_unicast m') = endpoints ifs /\
    Forall (fun u => us_port u = mg_port m /\ exists s, us_udp u = Some s /\ In s (w_open w')) (mg_unicast m') /\
    map (fun s => (ms_if s, ms_addr s)) (mg_multicast m') = endpoints ifs /\
    mg_port m' = mg_port m.
Proof.
  intros m w so ifs HR EL EL' HA HB HM HC.
  pose proof (reachable_good _ _ HR) as [HS F]. cbn [fst snd] in *.
  assert (Hrun : exists m' w', Manager_Start m so w = Ok (m', w', false) /\
            map (fun u => (us_if u, us_addr u)) (mg_unicast m') = endpoints ifs /\ mg_port m' = mg_port m /\
            Forall (fun u => us_port u = mg_port m) (mg_unicast m')).
  { unfold Manager_Start.
    destruct (Manager_Stop_ok m (so_stop so 0) (so_stop so 1) w HS) as (w1 & e1 & E1 & C1 & N1 & K1).
    pose proof (Manager_Stop_no_error _ _ _ _ _ _ _ (HC 0%nat) (HC 1%nat) E1) as ->. rewrite E1. cbn [bind].
    assert (F1 : fresh w1) by (intros x Hx; rewrite N1; apply F, C1, Hx).
    rewrite (UManager_Start_run (stopped m) _ _ _ w1 ifs eq_refl EL). cbv zeta.
    cbn [mg_tcp mg_auto mg_retry mg_port stopped with_multicast with_unicast].
    set (s0 := mkSt [] (mkWorld (w_open w1) (w_next w1) (S (w_calls w1))) false 0).
    assert (F0 : fresh (st_world s0)) by exact F1.
    set (nifs := number_from (w_calls w1) 0 ifs).
    destruct (start_ifs_all (mg_tcp m) (so_unicast so) (mg_port m) nifs (fun i _ => HB _) s0 F0 eq_refl) as (He & new & EN & EM).
    unfold nifs in EM. rewrite number_from_snd in EM. cbn [st_servers app] in EN. cbn [s0] in EN.
    rewrite (start_ports_first _ _ _ _ _ _ _ s0 He). cbn [fst snd bind]. rewrite He.
    pose proof (g_fresh _ _ _ _ _ (start_ifs_grows (mg_tcp m) (so_unicast so) (mg_port m) nifs s0 F0)) as F2.
    destruct (start_ifs_of (mg_tcp m) (so_unicast so) (mg_port m) nifs s0 F0) as (new' & EN' & FN).
    cbn [st_servers app s0] in EN'. rewrite EN in EN'. subst new'.
    set (m2 := with_port _ _).
    destruct (MManager_Start_spec m2 (so_multicast so) (so_stop so 3) (so_stop so 4) (so_local' so)
                (st_world (start_ifs (mg_tcp m) (so_unicast so) nifs (mg_port m) s0)) eq_refl F2)
      as (m3 & w3 & e3 & E3 & SC3 & P3 & U3 & F3 & N3 & X3 & Y3).
    rewrite E3.
    assert (He3 : e3 = false).
    { unfold MManager_Start, MManager_Stop in E3. cbn [mg_multicast m2 with_port with_unicast stopped with_multicast stop_multicast] in E3.
      unfold list_interfaces in E3. rewrite EL' in E3. cbn [bind] in E3.
      match type of E3 with context [mstart_ifs ?o ?l ?n ?L ?w] => pose proof (mstart_ifs_ok o l HM) as HO;
        specialize (fun H => HO H n L w); destruct (mstart_ifs o l n L w) as [[L' w'] e'] end.
      cbn [snd] in HO. rewrite HO in E3; [inv E3; reflexivity|].
      intros i a Hi addrs EA Ha. apply (HA (if_id (snd i))). unfold endpoints. apply in_flat_map. exists (snd i). split.
      - rewrite <- (number_from_snd (w_calls (st_world (start_ifs (mg_tcp m) (so_unicast so) nifs (mg_port m) s0))) ifs 0).
        apply in_map. exact Hi.
      - rewrite EA. apply in_map. exact Ha. }
    subst e3.
    assert (HU : mg_unicast m3 = new) by (rewrite U3; exact EN).
    destruct (available_spec _ _ EL) as [Hne Ha0].
    assert (HUne : mg_unicast m3 <> []).
    { rewrite HU. intros ->. symmetry in EM. cbn in EM. apply (endpoints_nonempty _ Hne Ha0). exact EM. }
    destruct (setUnicast_some (mg_multicast m3) (mg_unicast m3) HUne) as (l' & EL2 & _). rewrite EL2.
    eexists _, _. split; [reflexivity|]. cbn [mg_unicast mg_port with_port with_multicast]. rewrite HU. split; [exact EM|].
    split; [rewrite P3; reflexivity|]. eapply Forall_impl; [|exact FN]. intros u (_ & _ & Hp & _). lia. }
  destruct Hrun as (m' & w' & E & EU & EP & FP). exists m', w'. split; [exact E|]. split; [exact EU|].
  destruct (Manager_Start_spec m so w HS F) as (m1 & w1 & e1 & E1 & _ & _ & _ & _ & H2 & _).
  rewrite E in E1. inv E1. destruct (H2 eq_refl) as (ifs1 & ifs' & [A B C D G H I J K]).
  rewrite EL in A. inv A. rewrite EL' in B. inv B.
  split; [|split; [exact C|exact EP]].
  rewrite Forall_forall in *. intros u Hu. split; [apply FP, Hu|].
  destruct (G u Hu) as (c & _ & _ & _ & _ & _ & _ & [s Es] & _). exists s. split; [exact Es|].
  apply H. apply in_flat_map. exists u. split; [exact Hu|]. unfold uheld. rewrite Es. left. reflexivity.
Qed.

Example C48_all_granted_example :
  match transport_step (NewManager true false 5 3610, new_world) (TStart (plain_start two_ifs)) with
  | Ok (m, w, e) => e = false /\ map (fun u => (us_if u, us_addr u, us_port u)) (mg_unicast m)
                      = [(1%nat, "10.0.0.1"%string, 3610); (2%nat, "10.0.1.1"%string, 3610)] /\ length (w_open w) = 6%nat
  | _ => False end.
Proof. vm_compute. auto. Qed.

(** *** What does not hold *)

(** An interface that cannot be bound at all gets no server, and still the start
    succeeds if the last interface can be bound. *)
Theorem C48_missing_interface : forall m w so m' w' k,
  reachable m w -> transport_step (m, w) (TStart so) = Ok (m', w', false) ->
  (forall n a p, or_udp (so_unicast so) n k a p <> BOk) ->
  ~ exists u, In u (mg_unicast m') /\ us_if u = k.
Proof.
  intros m w so m' w' k HR E HK (u & Hu & <-). apply reachable_good in HR as [HS F]. cbn [fst snd transport_step] in *.
  destruct (Manager_Start_spec m so w HS F) as (m1 & w1 & e1 & E1 & _ & _ & _ & _ & H2 & _).
  rewrite E1 in E. inv E. destruct (H2 eq_refl) as (ifs1 & ifs' & [_ _ _ _ G _ _ _ _]).
  rewrite Forall_forall in G. destruct (G u Hu) as (c & _ & _ & _ & _ & _ & (n & En) & _). apply (HK _ _ _ En).
Qed.
Theorem C48_success_refuted :
  exists m w, reachable m w /\
    exists so m' w', transport_step (m, w) (TStart so) = Ok (m', w', false) /\
      In (1%nat, "10.0.0.1"%string) (endpoints [eth 1 "10.0.0.1"; eth 2 "10.0.1.1"]) /\
      GetAvailableInterfaces (so_local so) = Ok [eth 1 "10.0.0.1"; eth 2 "10.0.1.1"] /\
      ~ exists u, In u (mg_unicast m') /\ us_if u = 1%nat.
Proof.
  exists (NewManager false false 5 3610), new_world. split; [apply new_reachable|].
  set (so := failing_start two_ifs (failing 1)).
  destruct (transport_step (NewManager false false 5 3610, new_world) (TStart so)) as [[[m' w'] e]| |] eqn:E;
    try (vm_compute in E; discriminate E).
  assert (e = false) as -> by (vm_compute in E; injection E as _ _ <-; reflexivity).
  exists so, m', w'. split; [exact E|]. split; [left; reflexivity|]. split; [vm_compute; reflexivity|].
  apply (C48_missing_interface _ _ so m' w' 1%nat (new_reachable _ _ _ _) E).
  intros n a p. cbn. discriminate.
Qed.

(** A start that fails on its last interface leaves the servers of the first one
    bound, receiving and answering. *)
Theorem C48_failed_start_leaves : forall m w so i mid j addrs,
  reachable m w -> GetAvailableInterfaces (so_local so) = Ok (i :: mid ++ [j]) ->
  GetInterfaceAddresses i = Ok addrs ->
  binds_ok (mg_tcp m) (so_unicast so) (if_id i) ->
  (forall n a p, or_udp (so_unicast so) n (if_id j) a p <> BOk) ->
  (forall k n, or_close (so_stop so k) n = false) ->
  exists m' w', transport_step (m, w) (TStart so) = Ok (m', w', true) /\ IsRunning m' = false /\
    forall a, In a addrs -> exists u s, In u (mg_unicast m') /\ us_if u = if_id i /\ us_addr u = a /\
                                        us_udp u = Some s /\ In s (w_open w').
Proof.
  intros m w so i mid j addrs HR EL EA HB HF HC.
  pose proof (reachable_good _ _ HR) as [HS F]. cbn [fst snd] in *.
  assert (Hrun : exists m' w', Manager_Start m so w = Ok (m', w', true) /\
    forall a, In a addrs -> exists u s, In u (mg_unicast m') /\ us_if u = if_id i /\ us_addr u = a /\
                                        us_udp u = Some s /\ In s (w_open w')).
  { unfold Manager_Start.
    destruct (Manager_Stop_ok m (so_stop so 0) (so_stop so 1) w HS) as (w1 & e1 & E1 & C1 & N1 & K1).
    pose proof (Manager_Stop_no_error _ _ _ _ _ _ _ (HC 0%nat) (HC 1%nat) E1) as ->. rewrite E1. cbn [bind].
    assert (F1 : fresh w1) by (intros x Hx; rewrite N1; apply F, C1, Hx).
    rewrite (UManager_Start_run (stopped m) _ _ _ w1 _ eq_refl EL). cbv zeta.
    cbn [mg_tcp mg_auto mg_retry mg_port stopped with_multicast with_unicast].
    set (s0 := mkSt [] (mkWorld (w_open w1) (w_next w1) (S (w_calls w1))) false 0).
    assert (F0 : fresh (st_world s0)) by exact F1.
    set (nifs := number_from (w_calls w1) 0 (i :: mid ++ [j])).
    set (k := if mg_auto m then UDPPortRange else O).
    assert (ENI : exists rest c n, nifs = @cons (iptr * iface) (@pair iptr iface (w_calls w1, O) i) rest /\ nifs = removelast nifs ++ [((c, n), j)]).
    { unfold nifs. cbn [number_from]. eexists.
      assert (H : forall l c n, exists n', number_from c n (l ++ [j]) = removelast (number_from c n (l ++ [j])) ++ [((c, n'), j)]).
      { clear. induction l as [|x l IH]; intros c n; cbn [app number_from]; [exists n; reflexivity|].
        destruct (IH c (S n)) as [n' E]. exists n'.
        assert (Hne : number_from c (S n) (l ++ [j]) <> []) by (destruct l; discriminate).
        change (removelast ((c, n, x) :: number_from c (S n) (l ++ [j])))
          with (match number_from c (S n) (l ++ [j]) with [] => [] | _ => (c, n, x) :: removelast (number_from c (S n) (l ++ [j])) end).
        destruct (number_from c (S n) (l ++ [j])) as [|y t] eqn:E'; [congruence|].
        cbn [app]. exact (f_equal (cons (c, n, x)) E). }
      destruct (H (i :: mid) (w_calls w1) O) as [n' E]. exists (w_calls w1), n'. split; [reflexivity|exact E]. }
    destruct ENI as (rest & c & n & EN1 & EN2).
    assert (He : st_err (fst (start_ports (mg_tcp m) (mg_auto m) (mg_retry m) (so_unicast so) nifs (mg_port m) k s0)) = true).
    { destruct (start_ports_last (mg_tcp m) (mg_auto m) (mg_retry m) (so_unicast so) nifs k (mg_port m) s0 F0)
        as (s1 & p & _ & _ & E2 & _). rewrite E2, EN2.
      destruct (available_spec _ _ EL) as [_ Ha]. destruct (Ha j) as (al & EAl & Hal).
      { right. apply in_app_iff. right. left. reflexivity. }
      apply (start_ifs_last_fails _ _ _ _ (c, n, j) al); assumption. }
    pose proof (start_ports_keeps (mg_tcp m) (mg_auto m) (mg_retry m) (so_unicast so) (@pair iptr iface (w_calls w1, O) i) rest addrs k (mg_port m) s0 F0 EA) as HG.
    rewrite <- EN1 in HG.
    destruct (start_addrs_of (mg_tcp m) (so_unicast so) (@pair iptr iface (w_calls w1, O) i) (mg_port m) addrs EA addrs s0 (incl_refl _) F0)
      as (new & ENs & FN & EMn).
    pose proof (start_addrs_grows (mg_tcp m) (so_unicast so) (@pair iptr iface (w_calls w1, O) i) (mg_port m) addrs s0 F0) as HG0.
    specialize (EMn (start_addrs_ok (mg_tcp m) (so_unicast so) (@pair iptr iface (w_calls w1, O) i) (mg_port m) HB addrs s0 (or_intror eq_refl)) (or_intror eq_refl)).
    cbn [st_servers s0 app] in ENs.
    destruct (start_ports (mg_tcp m) (mg_auto m) (mg_retry m) (so_unicast so) nifs (mg_port m) k s0) as [sf po].
    cbn [fst snd] in *. cbn [bind]. rewrite He.
    eexists _, _. split; [reflexivity|].
    intros a Ha.
    assert (Hin : In (if_id i, a) (map (fun u => (us_if u, us_addr u)) new)).
    { rewrite EMn. apply in_map_iff. exists a. auto. }
    apply in_map_iff in Hin as (u & Eu & Hu). injection Eu as Eu1 Eu2.
    rewrite Forall_forall in FN. destruct (FN u Hu) as (_ & _ & _ & _ & _ & _ & [s Es] & _).
    exists u, s. destruct HG as [(new2 & EG & _) GK _ _ _]. destruct HG0 as [(new0 & EG0 & _ & GO & _) _ _ _ _].
    cbn [st_servers s0 app] in EG0. rewrite ENs in EG0. subst new0.
    split.
    - assert (Hs : In u (st_servers sf)) by (rewrite EG, ENs, in_app_iff; left; exact Hu).
      destruct po; exact Hs.
    - repeat split; auto. apply GK, GO. apply in_flat_map. exists u. split; [exact Hu|]. unfold uheld. rewrite Es. left. reflexivity. }
  destruct Hrun as (m' & w' & E & HX). exists m', w'. split; [exact E|]. split; [|exact HX].
  apply (step_running m w (TStart so) m' w' true (conj HS F) E).
Qed.
Theorem C48_failure_refuted : exists m w so m' w', reachable m w /\
  transport_step (m, w) (TStart so) = Ok (m', w', true) /\ mg_unicast m' <> [] /\ w_open w' <> [].
Proof.
  exists (NewManager false false 0 3610), new_world, (failing_start two_ifs (failing 2)).
  eexists _, _. split; [apply new_reachable|]. split; [vm_compute; reflexivity|]. split; discriminate.
Qed.
Example C48_failed_start_example :
  match transport_step (NewManager false false 0 3610, new_world) (TStart (failing_start two_ifs (failing 2))) with
  | Ok (m, w, e) => e = true /\ IsRunning m = false /\ w_open w = [0%nat] /\
      map (fun u => (us_if u, us_udp u, us_reading u)) (mg_unicast m) = [(1%nat, Some 0%nat, true)]
  | _ => False end.
Proof. vm_compute. auto. Qed.

(** A stop does not close the UDP socket of a server whose TCP bind failed: that
    server was never added to the list. *)
Definition tcp_taken : oracle :=
  mkOracle (fun n _ _ _ => match n with O => BOk | _ => BListenFails end) (fun _ _ _ _ => BListenFails)
           (fun _ _ _ => BOk) (fun _ => false).
Theorem C48_stop_refuted : exists tcp auto retry port ops o o' m w,
  transport_run (NewManager tcp auto retry port, new_world) (ops ++ [TStop o o']) = Ok (m, w) /\ w_open w <> [].
Proof.
  exists true, false, 5%nat, 3610, [TStart (failing_start one_if tcp_taken)], all_ok, all_ok.
  eexists _, _. split; [vm_compute; reflexivity|]. discriminate.
Qed.

(** With automatic port selection a successful start can leave servers on another
    port than the one it reports. *)
Definition port_taken : oracle :=
  mkOracle (fun _ i _ p => if Nat.eqb i 2 && (p =? 3610) then BListenFails
                           else if Nat.eqb i 1 && (p =? 3611) then BListenFails else BOk)
           (fun _ _ _ _ => BOk) (fun _ _ _ => BOk) (fun _ => false).
Theorem C48_port_refuted : exists m w so m' w', reachable m w /\
  transport_step (m, w) (TStart so) = Ok (m', w', false) /\
  mg_port m' = 3611 /\ map (fun u => (us_if u, us_port u)) (mg_unicast m') = [(1%nat, 3610); (2%nat, 3611)].
Proof.
  exists (NewManager false true 5 3610), new_world, (failing_start two_ifs port_taken).
  eexists _, _. split; [apply new_reachable|]. split; [vm_compute; reflexivity|]. split; reflexivity.
Qed.

(** Running is reported although every receiving goroutine has ended. *)
Theorem C48_deaf_refuted : exists m w, reachable m w /\ IsRunning m = true /\
  Forall (fun u => us_reading u = false) (mg_unicast m) /\ Forall (fun s => ms_conn s = None) (mg_multicast m).
Proof.
  destruct (transport_run (NewManager false false 5 3610, new_world)
              [TStart (plain_start one_if); TUnicastBad 0; TMulticastBad 0]) as [[m w]| |] eqn:E;
    try (vm_compute in E; discriminate E).
  exists m, w. split; [exists false, false, 5%nat, 3610; eexists; exact E|].
  vm_compute in E. injection E as <- <-. split; [reflexivity|]. split; repeat constructor.
Qed.

(** ** C54

    Full statement: the answer to a multicast request is sent from the interface
    that received it.  Start compares pointers of two different listings of the
    interfaces, which are never equal. *)

Theorem C54_first_server : forall m w so m' w' s,
  reachable m w -> transport_step (m, w) (TStart so) = Ok (m', w', false) -> In s (mg_multicast m') ->
  exists u rest, mg_unicast m' = u :: rest /\ answering_server m' s = Some u.
Proof.
  intros m w so m' w' s HR E Hs. apply reachable_good in HR as [HS F]. cbn [fst snd transport_step] in *.
  destruct (Manager_Start_spec m so w HS F) as (m1 & w1 & e1 & E1 & _ & _ & _ & _ & H2 & _).
  rewrite E1 in E. inv E. destruct (H2 eq_refl) as (ifs1 & ifs' & SD).
  pose proof (started_running _ _ _ _ _ _ SD) as HRun. destruct SD as [_ _ _ _ _ _ _ _ K].
  rewrite Forall_forall in K. unfold answering_server. rewrite (K s Hs).
  unfold IsRunning in HRun. destruct (mg_unicast m') as [|u rest]; [discriminate HRun|]. exists u, rest. auto.
Qed.

(** With one usable interface this is the right one ... *)
Theorem C54_single_partial : forall m w so m' w' s i,
  reachable m w -> transport_step (m, w) (TStart so) = Ok (m', w', false) -> In s (mg_multicast m') ->
  GetAvailableInterfaces (so_local so) = Ok [i] -> GetAvailableInterfaces (so_local' so) = Ok [i] ->
  exists u, answering_server m' s = Some u /\ us_if u = ms_if s.
Proof.
  intros m w so m' w' s i HR E Hs EL EL'.
  destruct (C54_first_server m w so m' w' s HR E Hs) as (u & rest & EU & EAns). exists u. split; [exact EAns|].
  destruct (C48_unicast_last_partial m w so m' w' HR E) as (pre & i' & EL2 & _ & HE).
  destruct (C48_multicast_complete m w so m' w' HR E) as (ifs' & EL3 & EM & _).
  rewrite EL in EL2. injection EL2 as EL2. rewrite EL' in EL3. injection EL3 as <-.
  assert (Hin : forall x a, In (x, a) (endpoints [i]) -> x = if_id i).
  { intros x a. unfold endpoints. cbn. rewrite app_nil_r. destruct (GetInterfaceAddresses i); cbn; try tauto.
    intros H. apply in_map_iff in H as (b & Eb & _). congruence. }
  rewrite <- EL2 in HE. rewrite (Hin (us_if u) (us_addr u)); [|apply HE; rewrite EU; left; reflexivity].
  symmetry. apply (Hin _ (ms_addr s)). rewrite <- EM. apply (in_map (fun s => (ms_if s, ms_addr s))). exact Hs.
Qed.

(** ... with two, requests of the second are answered from the first. *)
Theorem C54_refuted : exists m w so m' w' s u, reachable m w /\
  transport_step (m, w) (TStart so) = Ok (m', w', false) /\ In s (mg_multicast m') /\
  answering_server m' s = Some u /\ us_if u <> ms_if s /\
  exists u', In u' (mg_unicast m') /\ us_if u' = ms_if s.
Proof.
  exists (NewManager false false 5 3610), new_world, (plain_start two_ifs).
  eexists _, _, _, _. split; [apply new_reachable|]. split; [vm_compute; reflexivity|].
  split; [right; left; reflexivity|]. split; [reflexivity|]. split; [discriminate|].
  eexists. split; [right; left; reflexivity|reflexivity].
Qed.

(** ** C55

    Full statement: an announcement is sent on every interface. *)

(** It is sent by one server only: the first one that can send. *)
Theorem C55_first_only : forall m ok sent e, UManager_AnnounceMessage m ok = (sent, e) ->
  (e = true /\ sent = [] /\ forall k, (k < length (mg_unicast m))%nat -> ok k = false) \/
  (e = false /\ exists k s, nth_error (mg_unicast m) k = Some s /\ sent = [s] /\ ok k = true /\
     forall j, (j < k)%nat -> ok j = false).
Proof.
  intros m ok sent e. unfold UManager_AnnounceMessage.
  assert (H : forall l k0 sent e, try_servers l ok k0 = (sent, e) ->
    (e = true /\ sent = [] /\ forall k, (k < length l)%nat -> ok (k0 + k)%nat = false) \/
    (e = false /\ exists k s, nth_error l k = Some s /\ sent = [s] /\ ok (k0 + k)%nat = true /\
       forall j, (j < k)%nat -> ok (k0 + j)%nat = false)).
  { clear. induction l as [|s l IH]; intros k0 sent e E; cbn [try_servers] in E.
    - inv E. left. split; [reflexivity|]. split; [reflexivity|]. cbn. lia.
    - destruct (ok k0) eqn:E0.
      + inv E. right. split; [reflexivity|]. exists 0%nat, s. rewrite Nat.add_0_r. repeat split; auto. lia.
      + apply IH in E as [(-> & -> & H)|(-> & k & s' & H1 & H2 & H3 & H4)].
        * left. repeat split. intros [|k] Hk; [rewrite Nat.add_0_r; exact E0|].
          replace (k0 + S k)%nat with (S k0 + k)%nat by lia. apply H. cbn in Hk. lia.
        * right. split; [reflexivity|]. exists (S k), s'. split; [exact H1|]. split; [exact H2|].
          split; [replace (k0 + S k)%nat with (S k0 + k)%nat by lia; exact H3|].
          intros [|j] Hj; [rewrite Nat.add_0_r; exact E0|]. replace (k0 + S j)%nat with (S k0 + j)%nat by lia. apply H4. lia. }
  intros E. apply H in E. exact E.
Qed.

(** An error is reported exactly when nothing was sent. *)
Theorem C55_error_exact_partial : forall m ok sent e, UManager_AnnounceMessage m ok = (sent, e) ->
  (e = true <-> sent = []) /\ (length (mg_unicast m) = 1%nat -> e = false -> sent = mg_unicast m).
Proof.
  intros m ok sent e E. destruct (C55_first_only m ok sent e E) as [(-> & -> & _)|(-> & k & s & H1 & -> & _)].
  - split; [tauto|discriminate].
  - split; [split; discriminate|]. intros HL _. destruct (mg_unicast m) as [|x [|y l]]; try discriminate HL.
    destruct k as [|k]; [cbn in H1; congruence|destruct k; discriminate H1].
Qed.

(** With servers on two interfaces that both can send, the second stays silent. *)
Theorem C55_refuted : exists m w, reachable m w /\ IsRunning m = true /\
  map us_if (mg_unicast m) = [1%nat; 2%nat] /\
  map us_if (fst (UManager_AnnounceMessage m (fun _ => true))) = [1%nat].
Proof.
  destruct (transport_run (NewManager false false 5 3610, new_world) [TStart (plain_start two_ifs)]) as [[m w]| |] eqn:E;
    try (vm_compute in E; discriminate E).
  exists m, w. split; [exists false, false, 5%nat, 3610; eexists; exact E|].
  vm_compute in E. injection E as <- <-. repeat split; reflexivity.
Qed.

Print Assumptions C48_no_panic.
Print Assumptions C48_running.
Print Assumptions C48_not_running_at_first.
Print Assumptions C48_stop.
Print Assumptions C48_stop_clean_partial.
Print Assumptions C48_multicast_complete.
Print Assumptions C48_unicast_last_partial.
Print Assumptions C48_all_granted.
Print Assumptions C48_missing_interface.
Print Assumptions C48_success_refuted.
Print Assumptions C48_failed_start_leaves.
Print Assumptions C48_failure_refuted.
Print Assumptions C48_stop_refuted.
Print Assumptions C48_port_refuted.
Print Assumptions C48_deaf_refuted.
Print Assumptions C54_first_server.
Print Assumptions C54_single_partial.
Print Assumptions C54_refuted.
Print Assumptions C55_first_only.
Print Assumptions C55_error_exact_partial.
Print Assumptions C55_refuted.

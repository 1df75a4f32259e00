(** Property C108: the IP versions a node uses. *)

From Coq Require Import String Ascii ZifyBool ZifyNat.
From Verif Require Import Go GoFacts Encoding Protocol Parser Transport TransportFacts TransportStart.
From Verif Require Import PropsTransport PropsStart Life Bound PropsBound Family.
Local Open Scope Z_scope.
Local Open Scope list_scope.

(** ** C108

    Full statement: an interface is an IPv4 (IPv6) interface exactly when it has an
    IPv4 (IPv6) address; a node that starts serves every address of its usable
    interfaces; it announces to the multicast group of the version of the address, which
    is also the one that the server of this address listens to.  False in the code
    where IPv6 is concerned. *)

(** The system lists the address [a] for the interface, with the length of its network. *)
Definition has_address (i : iface) (a : string) : Prop :=
  exists addrs r, if_addrs i = Some addrs /\ In (a ++ String "/" r)%string addrs /\ has_char "/" a = false.
Definition is_v4 (a : string) : Prop := a <> ""%string /\ has_char ":" a = false.
Definition is_v6 (a : string) : Prop := has_char ":" a = true.

Definition C108_interfaces : Prop := forall i,
  (IsIPv4Interface i = true <-> exists a, has_address i a /\ is_v4 a) /\
  (IsIPv6Interface i = true <-> exists a, has_address i a /\ is_v6 a).

Lemma slash_unique h r h' r' : has_char "/" h = false -> has_char "/" h' = false ->
  (h ++ String "/" r = h' ++ String "/" r')%string -> h = h' /\ r = r'.
Proof.
  revert h'. induction h as [|c h IH]; intros [|c' h'] H H' E; cbn in *.
  - injection E as E. auto.
  - injection E as <- E. discriminate H'.
  - injection E as -> E. discriminate H.
  - injection E as <- E. apply orb_false_iff in H as [_ H]. apply orb_false_iff in H' as [_ H'].
    destruct (IH h' H H' E) as [-> ->]. auto.
Qed.

Lemma slash_none h r a : has_char "/" a = false -> (h ++ String "/" r)%string <> a.
Proof.
  revert a. induction h as [|c h IH]; intros [|c' a] H E; cbn in *; try discriminate E.
  - injection E as <- _. discriminate H.
  - injection E as <- E. apply orb_false_iff in H as [_ H]. apply (IH a H E).
Qed.

Lemma picked_in addrs l : picked addrs l -> forall a, In a l <->
  has_char ":" a = false /\ has_char "/" a = false /\ exists r, In (a ++ String "/" r)%string addrs.
Proof.
  induction 1 as [|h r addrs l S C _ IH|h r addrs l S C _ IH|h addrs l S _ IH]; intros a; cbn [In].
  - split; [tauto|]. intros (_ & _ & _ & []).
  - rewrite IH. split.
    + intros [<-|(A & B & x & X)]; [split; [exact C|]; split; [exact S|]; exists r; auto|]. split; [exact A|]. split; [exact B|]. exists x. auto.
    + intros (A & B & x & [X|X]); [left|right; split; [exact A|]; split; [exact B|]; exists x; exact X].
      apply slash_unique in X as [X _]; assumption.
  - rewrite IH. split.
    + intros (A & B & x & X). split; [exact A|]. split; [exact B|]. exists x. auto.
    + intros (A & B & x & [X|X]); [|split; [exact A|]; split; [exact B|]; exists x; exact X].
      apply slash_unique in X as [X _]; try assumption. congruence.
  - rewrite IH. split.
    + intros (A & B & x & X). split; [exact A|]. split; [exact B|]. exists x. auto.
    + intros (A & B & x & [X|X]); [|split; [exact A|]; split; [exact B|]; exists x; exact X].
      exfalso. symmetry in X. apply (slash_none _ _ _ S X).
Qed.

Lemma IsIPv4Address_spec a : IsIPv4Address a = true <-> is_v4 a.
Proof.
  unfold IsIPv4Address, is_v4. rewrite IsIPv6Address_spec. destruct a as [|c a]; cbn [is_empty].
  - split; [discriminate|]. intros [H _]. congruence.
  - rewrite negb_true_iff. split; [intros H; split; [discriminate|exact H]|tauto].
Qed.

(** The IPv4 half holds. *)
Theorem C108_v4 : forall i, IsIPv4Interface i = true <-> exists a, has_address i a /\ is_v4 a.
Proof.
  intros i. unfold IsIPv4Interface, GetInterfaceAddresses, has_address. destruct (if_addrs i) as [addrs|].
  - pose proof (picked_in _ _ (collect_picked addrs)) as P.
    assert (E : existsb IsIPv4Address (collect_addrs addrs) = true <-> exists a, (exists ad r, Some addrs = Some ad /\ In (a ++ String "/" r)%string ad /\ has_char "/" a = false) /\ is_v4 a).
    { rewrite existsb_exists. split.
      - intros (a & A & B). apply P in A as (A1 & A2 & r & A3). exists a. split; [|apply IsIPv4Address_spec, B]. exists addrs, r. auto.
      - intros (a & (ad & r & X & A & S) & B). injection X as <-. exists a. split; [|apply IsIPv4Address_spec, B]. apply P. destruct B as [_ B]. eauto. }
    rewrite <- E. destruct (collect_addrs addrs); [split; intros X; discriminate X|reflexivity].
  - split; [discriminate|]. intros (a & (ad & r & X & _) & _). discriminate X.
Qed.

(** No interface is ever an IPv6 interface: IsIPv6Interface looks at the addresses that
    GetInterfaceAddresses returns, and that leaves the IPv6 addresses out. *)
Theorem C108_v6_never : forall i, IsIPv6Interface i = false.
Proof.
  intros i. unfold IsIPv6Interface. destruct (GetInterfaceAddresses i) as [l| |] eqn:E; try reflexivity.
  destruct (existsb IsIPv6Address l) eqn:X; [|reflexivity]. apply existsb_exists in X as (a & A & B).
  rewrite (C51_no_ipv6 i l a E A) in B. discriminate B.
Qed.

Theorem C108_interfaces_refuted : ~ C108_interfaces.
Proof.
  intros H. destruct (H (mkIface 1 "eth0" 19 (Some ["fe80::1/64"%string]))) as [_ [_ H6]].
  rewrite C108_v6_never in H6. discriminate H6. exists "fe80::1"%string. split; [|reflexivity].
  exists ["fe80::1/64"%string], "64"%string. split; [reflexivity|]. split; [left; reflexivity|reflexivity].
Qed.

(** A computer whose interfaces have IPv6 addresses only: no start succeeds, whatever
    the system answers, and nothing is running. *)
Theorem C108_v6_only : forall m w so m' w' e ifs,
  reachable m w -> so_local so = Some ifs ->
  (forall i a, In i ifs -> has_address i a -> is_v6 a) ->
  transport_step (m, w) (TStart so) = Ok (m', w', e) ->
  e = true /\ IsRunning m' = false.
Proof.
  intros m w so m' w' e ifs HR L H6 E. pose proof (reachable_good _ _ HR) as G.
  assert (EL : GetAvailableInterfaces (so_local so) = Err ErrInvalid).
  { rewrite L. unfold GetAvailableInterfaces.
    assert (N : filter available ifs = []).
    { assert (A : forall i, In i ifs -> available i = false).
      { intros i Hi. unfold available. replace (match GetInterfaceAddresses i with Ok _ => true | _ => false end) with false; [apply andb_false_r|].
        destruct (GetInterfaceAddresses i) as [l| |] eqn:EG; try reflexivity. exfalso.
        apply C51_interface_addresses in EG as (addrs & EA & P & NE). destruct l as [|a l]; [congruence|].
        destruct (proj1 (picked_in _ _ P a) (or_introl eq_refl)) as (A & B & r & R).
        specialize (H6 i a Hi (ex_intro _ addrs (ex_intro _ r (conj EA (conj R B))))). unfold is_v6 in H6. congruence. }
      clear - A. induction ifs as [|i ifs IH]; [reflexivity|]. cbn [filter]. rewrite (A i (or_introl eq_refl)). apply IH. intros j Hj. apply A. right. exact Hj. }
    rewrite N. reflexivity. }
  pose proof (step_running m w (TStart so) m' w' e G E) as RN. cbn iota in RN.
  assert (X : e = true); [|subst e; split; [reflexivity|exact RN]].
  cbn [transport_step] in E. unfold Manager_Start in E.
  destruct (Manager_Stop m (so_stop so 0) (so_stop so 1) w) as [((m1, w1), e1)| |]; cbn [bind] in E; try discriminate E.
  destruct e1; [congruence|].
  destruct (UManager_Start m1 (so_unicast so) (so_stop so 2) (so_local so) w1) as [((m2, w2), e2)| |] eqn:EU; cbn [bind] in E; try discriminate E.
  unfold UManager_Start in EU. destruct (UManager_Stop m1 (so_stop so 2) w1) as [((m3, w3), e3)| |]; cbn [bind] in EU; try discriminate EU.
  destruct e3; [injection EU as <- <- <-; congruence|].
  unfold list_interfaces in EU. rewrite EL in EU. cbn [bind] in EU. injection EU as <- <- <-. congruence.
Qed.

(** ** Every server that ever runs has an IPv4 address. *)

Definition v4_servers (m : manager) : Prop :=
  Forall (fun u => has_char ":" (us_addr u) = false) (mg_unicast m) /\
  Forall (fun s => is_v4 (ms_addr s)) (mg_multicast m).

Definition ustarts (s : starting) : Prop := Forall (fun u => has_char ":" (us_addr u) = false) (st_servers s).

Lemma start_addrs_v4 tcp o pi port addrs : Forall (fun a => has_char ":" a = false) addrs ->
  forall s, ustarts s -> ustarts (start_addrs tcp o pi addrs port s).
Proof.
  induction 1 as [|a addrs A _ IH]; intros s H; cbn [start_addrs]; [exact H|].
  destruct (UServer_Start tcp o (st_n s) pi a port (st_world s)) as [[u|] w] eqn:E; [|exact H].
  apply IH. unfold ustarts. cbn [st_servers]. apply Forall_app. split; [exact H|]. constructor; [|constructor].
  unfold UServer_Start in E. destruct (UDP_Bind _ _) as [[x y] [|]]; [|discriminate E].
  destruct tcp; [|injection E as <- _; exact A]. destruct (TCP_Bind _ _) as [[x' y'] [|]]; [|discriminate E].
  injection E as <- _. exact A.
Qed.

Lemma addrs_v4 i l : GetInterfaceAddresses i = Ok l -> Forall (fun a => has_char ":" a = false) l.
Proof. intros E. apply Forall_forall. intros a A. rewrite <- IsIPv6Address_spec. apply (C51_no_ipv6 i l a E A). Qed.

Lemma start_ifs_v4 tcp o port ifs : forall s, ustarts s -> ustarts (start_ifs tcp o ifs port s).
Proof.
  induction ifs as [|i ifs IH]; intros s H; cbn [start_ifs]; [exact H|]. apply IH.
  destruct (GetInterfaceAddresses (snd i)) as [l| |] eqn:E; try exact H. apply start_addrs_v4; [apply (addrs_v4 _ _ E)|exact H].
Qed.

Lemma start_retry_v4 tcp o port ifs k : forall s, ustarts s -> ustarts (start_retry tcp o ifs port k s).
Proof.
  induction k as [|k IH]; intros s H; cbn [start_retry]; pose proof (start_ifs_v4 tcp o port ifs s H) as H1;
    destruct (st_err (start_ifs tcp o ifs port s)); auto.
Qed.

Lemma start_ports_v4 tcp auto retry o ifs k : forall port s, ustarts s -> ustarts (fst (start_ports tcp auto retry o ifs port k s)).
Proof.
  induction k as [|k IH]; intros port s H; cbn [start_ports];
    pose proof (start_retry_v4 tcp o port ifs (if auto then O else retry) s H) as H1;
    destruct (st_err (start_retry tcp o ifs port (if auto then O else retry) s)); auto.
Qed.

Definition mstarts (l : list mserver) : Prop := Forall (fun s => is_v4 (ms_addr s)) l.

Lemma mstart_addrs_v4 o pi addrs : Forall (fun a => has_char ":" a = false) addrs ->
  forall n l w, mstarts l -> mstarts (fst (fst (fst (mstart_addrs o pi addrs n l w)))).
Proof.
  induction 1 as [|a addrs A _ IH]; intros n l w H; cbn [mstart_addrs]; [exact H|].
  destruct (Multicast_Bind a (or_multicast o n (if_id (snd pi)) a) w) as [[c w'] [|]] eqn:E; [|exact H].
  apply IH. apply Forall_app. split; [exact H|]. constructor; [|constructor]. cbn [ms_addr].
  split; [|exact A]. intros ->. cbn in E. discriminate E.
Qed.

Lemma mstart_ifs_v4 o ifs : forall n l w, mstarts l -> mstarts (fst (fst (mstart_ifs o ifs n l w))).
Proof.
  induction ifs as [|i ifs IH]; intros n l w H; cbn [mstart_ifs]; [exact H|].
  destruct (GetInterfaceAddresses (snd i)) as [a| |] eqn:E; try (apply IH; exact H).
  pose proof (mstart_addrs_v4 o i a (addrs_v4 _ _ E) n l w H) as H1.
  destruct (mstart_addrs o i a n l w) as [[[l1 w1] [|]] n1]; cbn [fst] in *; auto.
Qed.

Lemma stop_v4 m o o' w m' w' e : Manager_Stop m o o' w = Ok (m', w', e) -> v4_servers m'.
Proof.
  unfold Manager_Stop, MManager_Stop, UManager_Stop. destruct (stop_multicast _ _ _ _) as [w1 e1].
  destruct (stop_unicast _ _ _ _) as [r| |]; cbn [bind]; intros E; try discriminate E. injection E as <- _ _. split; constructor.
Qed.

Lemma ustart_v4 m o stop local w m' w' e : v4_servers m -> UManager_Start m o stop local w = Ok (m', w', e) -> v4_servers m'.
Proof.
  intros (_ & B) E. unfold UManager_Start, UManager_Stop in E. destruct (stop_unicast (mg_unicast m) stop 0 w) as [(w1, e1)| |]; cbn [bind fst snd] in E; try discriminate E.
  destruct e1; [injection E as <- _ _; split; [constructor|exact B]|].
  destruct (list_interfaces local w1) as [[ifs| |] w2]; try (injection E as <- _ _; split; [constructor|exact B]).
  match type of E with context [start_ports ?t ?a ?r ?o ?i ?p ?k ?s] => pose proof (start_ports_v4 t a r o i k p s (Forall_nil _)) as S; destruct (start_ports t a r o i p k s) as [s1 p1] end.
  cbn [fst] in S. injection E as <- _ _. destruct p1; split; [exact S|exact B|exact S|exact B].
Qed.

Lemma mstart_v4 m o stop stop2 local w : v4_servers m -> v4_servers (fst (fst (MManager_Start m o stop stop2 local w))).
Proof.
  intros (A & _). unfold MManager_Start, MManager_Stop. destruct (stop_multicast (mg_multicast m) stop 0 w) as [w1 [|]]; [split; [exact A|constructor]|].
  destruct (list_interfaces local w1) as [[ifs| |] w2]; try (split; [exact A|constructor]).
  pose proof (mstart_ifs_v4 o ifs 0 [] w2 (Forall_nil _)) as S. destruct (mstart_ifs o ifs 0 [] w2) as [[l w3] [|]]; cbn [fst] in S.
  - destruct (stop_multicast _ _ _ _) as [w4 e4]. split; [exact A|constructor].
  - split; [exact A|exact S].
Qed.

Lemma set_unicast_v4 us : forall l l', setUnicastManager l us = Some l' -> mstarts l -> mstarts l'.
Proof.
  induction l as [|s l IH]; intros l' E H; cbn [setUnicastManager] in E; [injection E as <-; constructor|].
  destruct (getAppropriateServerForInterface us (ms_ifi s)); [|discriminate E].
  destruct (setUnicastManager l us) as [k|]; [|discriminate E]. injection E as <-. inversion H; subst. constructor; [assumption|]. apply IH; auto.
Qed.

Lemma step_v4 m w op m' w' e : v4_servers m -> transport_step (m, w) op = Ok (m', w', e) -> v4_servers m'.
Proof.
  intros V E. destruct op as [so|o o'|tcp auto|q|k|k]; cbn [transport_step] in E.
  - unfold Manager_Start in E.
    destruct (Manager_Stop m (so_stop so 0) (so_stop so 1) w) as [((m1, w1), e1)| |] eqn:E1; cbn [bind] in E; try discriminate E.
    apply stop_v4 in E1. destruct e1; [injection E as <- _ _; exact E1|].
    destruct (UManager_Start m1 (so_unicast so) (so_stop so 2) (so_local so) w1) as [((m2, w2), e2)| |] eqn:E2; cbn [bind] in E; try discriminate E.
    apply ustart_v4 in E2; [|exact E1]. destruct e2; [injection E as <- _ _; exact E2|].
    pose proof (mstart_v4 m2 (so_multicast so) (so_stop so 3) (so_stop so 4) (so_local' so) w2 E2) as E3.
    destruct (MManager_Start m2 (so_multicast so) (so_stop so 3) (so_stop so 4) (so_local' so) w2) as [[m3 w3] e3]. cbn [fst] in E3.
    assert (GU : forall x y z v, give_up m3 so w3 = Ok (x, y, z) -> v4_servers v -> v4_servers x).
    { intros x y z v X _. unfold give_up in X. destruct (Manager_Stop m3 _ _ w3) as [((m4, w4), e4)| |] eqn:E4; cbn [bind] in X; try discriminate X.
      injection X as <- _ _. apply (stop_v4 _ _ _ _ _ _ _ E4). }
    destruct e3; [apply (GU _ _ _ m3 E E3)|].
    destruct (setUnicastManager (mg_multicast m3) (mg_unicast m3)) as [l|] eqn:ES; [|apply (GU _ _ _ m3 E E3)].
    injection E as <- _ _. split; [apply E3|]. apply (set_unicast_v4 _ _ _ ES). apply E3.
  - apply (stop_v4 _ _ _ _ _ _ _ E).
  - injection E as <- _ _. exact V.
  - injection E as <- _ _. exact V.
  - injection E as <- _ _. split; [|apply V]. cbn [mg_unicast with_unicast].
    rewrite <- (Forall_map us_addr (fun a => has_char ":" a = false)), reading_map by reflexivity. rewrite Forall_map. apply V.
  - destruct (nth_error (mg_multicast m) k) as [s|]; injection E as <- _ _; [|exact V]. split; [apply V|]. cbn [mg_multicast with_multicast].
    rewrite <- (Forall_map ms_addr is_v4), drop_map, Forall_map. apply V.
Qed.

Theorem C108_servers : forall m w, reachable m w ->
  (forall u, In u (mg_unicast m) -> has_char ":" (us_addr u) = false) /\
  (forall s, In s (mg_multicast m) -> is_v4 (ms_addr s)).
Proof.
  intros m w (tcp & auto & retry & port & ops & E).
  assert (R : forall ops m w m' w', v4_servers m -> transport_run (m, w) ops = Ok (m', w') -> v4_servers m').
  { clear. induction ops as [|op ops IH]; intros m w m' w' V E; cbn [transport_run] in E; [injection E as <- _; exact V|].
    destruct (transport_step (m, w) op) as [((m1, w1), e1)| |] eqn:E1; cbn [bind fst] in E; try discriminate E.
    apply (IH m1 w1 m' w'); [apply (step_v4 _ _ _ _ _ _ V E1)|exact E]. }
  destruct (R ops (NewManager tcp auto retry port) new_world m w) as [A B]; [split; constructor|exact E|].
  rewrite Forall_forall in A, B. split; assumption.
Qed.

(** ** Groups *)

(** What a server announces goes to the group that the multicast server of the same
    address listens to. *)
Theorem C108_same_group : forall i port a g, port <> 0 -> joined_group a = Ok g ->
  announce_group (SetBoundStatus NewSocket i a port) = Ok g.
Proof.
  intros i port a g P E. unfold announce_group, Socket_Address, IsBound. cbn [SetBoundStatus sk_port sk_address].
  destruct (Z.eqb_spec port 0) as [|_]; [contradiction|]. cbn [negb bind]. unfold joined_group, IsIPv4Address in E.
  destruct (is_empty a) eqn:EE; [destruct a; [discriminate E|discriminate EE]|]. destruct (IsIPv6Address a); cbn [negb] in E; congruence.
Qed.

(** Whatever happened before, every server listens and announces in the IPv4 group,
    and none in the IPv6 group. *)
Theorem C108_group : forall m w, reachable m w ->
  (forall s, In s (mg_multicast m) -> joined_group (ms_addr s) = Ok "224.0.23.0"%string /\
     announce_group (multicast_socket s) = Ok "224.0.23.0"%string) /\
  (forall u, In u (mg_unicast m) -> us_port u <> 0 -> announce_group (unicast_socket u) = Ok "224.0.23.0"%string).
Proof.
  intros m w H. destruct (C108_servers m w H) as [A B]. split.
  - intros s Hs. specialize (B s Hs). assert (J : joined_group (ms_addr s) = Ok "224.0.23.0"%string).
    { unfold joined_group. apply IsIPv4Address_spec in B. rewrite B. reflexivity. }
    split; [exact J|]. apply C108_same_group; [discriminate|exact J].
  - intros u Hu P. unfold announce_group, unicast_socket, Socket_Address, IsBound. cbn [SetBoundStatus sk_port sk_address].
    destruct (Z.eqb_spec (us_port u) 0) as [|_]; [contradiction|]. cbn [negb bind]. rewrite IsIPv6Address_spec, (A u Hu). reflexivity.
Qed.

(** An announcement by the multicast servers leaves from each of them that can send,
    and reports an error exactly when one cannot. *)
Lemma announce_all_spec l ok : forall k,
  fst (announce_all l ok k) = map snd (filter (fun p => ok (fst p)) (combine (seq k (length l)) l)) /\
  (snd (announce_all l ok k) = false <-> forall j, (j < length l)%nat -> ok (k + j)%nat = true).
Proof.
  induction l as [|s l IH]; intros k; cbn [announce_all length seq combine filter map].
  - split; [reflexivity|]. split; [|reflexivity]. intros _ j Hj. cbn in Hj. lia.
  - destruct (IH (S k)) as [I1 I2]. destruct (announce_all l ok (S k)) as [sent e]. cbn [fst snd] in *.
    assert (N : (forall j, (j < S (length l))%nat -> ok (k + j)%nat = true) <-> ok k = true /\ forall j, (j < length l)%nat -> ok (S k + j)%nat = true).
    { split.
      - intros H. split; [rewrite <- (Nat.add_0_r k); apply H; lia|]. intros j Hj. replace (S k + j)%nat with (k + S j)%nat by lia. apply H. lia.
      - intros (H0 & H) [|j] Hj; [rewrite Nat.add_0_r; exact H0|]. replace (k + S j)%nat with (S k + j)%nat by lia. apply H. lia. }
    rewrite N. unfold announce_group, Socket_Address. cbn [multicast_socket SetBoundStatus sk_port IsBound StandardPort Z.eqb negb bind].
    destruct (ok k); cbn [fst snd map filter]; rewrite I1.
    + split; [reflexivity|]. rewrite I2. tauto.
    + split; [reflexivity|]. split; [discriminate|]. intros [X _]. discriminate X.
Qed.

Theorem C108_multicast_servers : forall m ok sent e, MManager_AnnounceMessage m ok = (sent, e) ->
  sent = map snd (filter (fun p => ok (fst p)) (combine (seq 0 (length (mg_multicast m))) (mg_multicast m))) /\
  (e = false <-> forall k, (k < length (mg_multicast m))%nat -> ok k = true).
Proof.
  intros m ok sent e E. pose proof (announce_all_spec (mg_multicast m) ok 0) as H. unfold MManager_AnnounceMessage in E.
  rewrite E in H. exact H.
Qed.

(** ** Examples *)

(** One interface with an address of each version, one with IPv6 only: only the IPv4
    address is served. *)
Definition dual : iface := mkIface 1 "eth0" 19 (Some ["10.0.0.1/24"%string; "fe80::1/64"%string]).
Definition modern : iface := mkIface 2 "eth1" 19 (Some ["2001:db8::7/64"%string]).
Example C108_example :
  IsIPv4Interface dual = true /\ IsIPv6Interface dual = false /\ IsIPv4Interface modern = false /\ IsIPv6Interface modern = false /\
  has_address dual "fe80::1" /\ is_v6 "fe80::1" /\
  match transport_run (NewManager false false 5 3610, new_world) [TStart (plain_start (Some [dual; modern]))] with
  | Ok (m, w) => map us_addr (mg_unicast m) = ["10.0.0.1"%string] /\ map ms_addr (mg_multicast m) = ["10.0.0.1"%string] /\
      snd (MManager_AnnounceMessage m (fun _ => true)) = false
  | _ => False
  end /\
  match transport_run (NewManager false false 5 3610, new_world) [TStart (plain_start (Some [modern]))] with
  | Ok (m, w) => IsRunning m = false
  | _ => False
  end.
Proof.
  split; [reflexivity|]. split; [reflexivity|]. split; [reflexivity|]. split; [reflexivity|]. split.
  - exists ["10.0.0.1/24"%string; "fe80::1/64"%string], "64"%string. split; [reflexivity|]. split; [right; left; reflexivity|reflexivity].
  - split; [reflexivity|]. split; vm_compute; auto.
Qed.

Print Assumptions C108_v4.
Print Assumptions C108_v6_never.
Print Assumptions C108_interfaces_refuted.
Print Assumptions C108_v6_only.
Print Assumptions C108_servers.
Print Assumptions C108_same_group.
Print Assumptions C108_group.
Print Assumptions C108_multicast_servers.

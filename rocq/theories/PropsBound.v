(** C93: a controller knows its own messages. *)

From Coq Require Import String Ascii ZifyBool ZifyNat.
From Verif Require Import Go GoFacts Encoding Protocol Parser StdDB Property PropertyFacts Object ObjectFacts Spec Node NodeFacts
  Handler HandlerFacts Remote Transport TransportFacts TransportStart PropsNode PropsStart Life Bound.
From Verif Require PropsHandler PropsRemote PropsTable PropsLife.
Local Open Scope Z_scope.
Local Open Scope list_scope.

(** ** Vocabulary *)

(** Both listings of the interfaces that a start makes give the same. *)
Definition lists_once (op : life_op) : Prop :=
  match op with FStart so _ | FRestart _ _ so _ => so_local so = so_local' so | _ => True end.
(** Automatic port binding stays off. *)
Definition port_fixed (op : life_op) : Prop := match op with FConfig _ auto => auto = false | _ => True end.

(** ** The servers of a running transport *)

Definition covered (m : manager) : Prop :=
  IsRunning m = true -> forall u, In u (mg_unicast m) -> In (us_addr u) (map ms_addr (mg_multicast m)).
Definition standing (p : Z) (m : manager) : Prop :=
  mg_auto m = false /\ mg_port m = p /\ (IsRunning m = true -> Forall (fun u => us_port u = p) (mg_unicast m)).

Lemma endpoints_addr ifs i a : In (i, a) (endpoints ifs) -> In a (map snd (endpoints ifs)).
Proof. intros H. change a with (snd (i, a)). apply in_map. exact H. Qed.

Lemma start_covered m so w m' w' : Forall stoppable (mg_unicast m) -> fresh w -> so_local so = so_local' so ->
  Manager_Start m so w = Ok (m', w', false) -> forall u, In u (mg_unicast m') -> In (us_addr u) (map ms_addr (mg_multicast m')).
Proof.
  intros HS F HL E u Hu. destruct (Manager_Start_spec m so w HS F) as (m1 & w1 & e1 & E1 & _ & _ & _ & _ & H & _).
  rewrite E in E1. injection E1 as <- <- <-. destruct (H eq_refl) as (ifs & ifs' & [S1 S2 S3 _ S5 _ _ _ _]).
  rewrite HL, S2 in S1. injection S1 as <-. rewrite Forall_forall in S5. destruct (S5 u Hu) as (c & _ & HE & _).
  rewrite number_from_snd in HE. apply endpoints_addr in HE. rewrite <- S3, map_map in HE. exact HE.
Qed.

Lemma start_port0 tcp retry o ifs port s q : snd (start_ports tcp false retry o ifs port 0 s) = Some q -> q = port.
Proof. cbn [start_ports]. destruct (st_err _); cbn [snd]; congruence. Qed.

Lemma ustart_port m o stop local w m' w' e : mg_auto m = false -> UManager_Start m o stop local w = Ok (m', w', e) ->
  mg_port m' = mg_port m.
Proof.
  intros HA. unfold UManager_Start, UManager_Stop. destruct (stop_unicast _ _ _ _) as [[w1 e1]| |]; cbn [bind fst snd]; [|discriminate..].
  destruct e1; [intros [= <- <- <-]; reflexivity|]. destruct (list_interfaces local w1) as [[ifs| |] w2]; [|intros [= <- <- <-]; reflexivity..].
  cbn [mg_tcp mg_auto mg_retry mg_port with_unicast]. rewrite HA.
  pose proof (start_port0 (mg_tcp m) (mg_retry m) o ifs (mg_port m) (mkSt [] w2 false 0)) as HP.
  destruct (start_ports _ _ _ _ _ _ _ _) as [s [p|]]; intros [= <- _ _]; cbn [mg_port with_port with_unicast]; [|reflexivity].
  apply HP. reflexivity.
Qed.
Lemma mstop_port m o w : mg_port (fst (fst (MManager_Stop m o w))) = mg_port m.
Proof. unfold MManager_Stop. destruct (stop_multicast _ _ _ _). reflexivity. Qed.
Lemma mstart_port m o s1 s2 local w : mg_port (fst (fst (MManager_Start m o s1 s2 local w))) = mg_port m.
Proof.
  unfold MManager_Start. pose proof (mstop_port m s1 w) as P. destruct (MManager_Stop m s1 w) as [[m1 w1] e1]. cbn [fst] in P.
  destruct e1; [exact P|]. destruct (list_interfaces local w1) as [[ifs| |] w2]; [|exact P..].
  destruct (mstart_ifs o ifs 0 [] w2) as [[l w3] e3]. destruct e3; [|exact P].
  pose proof (mstop_port (with_multicast m1 l) s2 w3) as Q. destruct (MManager_Stop _ s2 w3) as [[m4 w4] e4]. cbn [fst] in *.
  rewrite Q. exact P.
Qed.
Lemma stop_port m o o' w m' w' e : Manager_Stop m o o' w = Ok (m', w', e) -> mg_port m' = mg_port m /\ mg_auto m' = mg_auto m.
Proof.
  unfold Manager_Stop, MManager_Stop. destruct (stop_multicast _ _ _ _) as [w1 e1]. unfold UManager_Stop.
  destruct (stop_unicast _ _ _ _) as [[w2 e2]| |]; cbn [bind fst snd]; [|discriminate..]. intros [= <- _ _]. split; reflexivity.
Qed.
Lemma manager_start_port m so w m' w' e : mg_auto m = false -> Manager_Start m so w = Ok (m', w', e) -> mg_port m' = mg_port m.
Proof.
  intros HA. unfold Manager_Start, give_up. destruct (Manager_Stop m _ _ w) as [[[m1 w1] e1]| |] eqn:E1; cbn [bind]; [|discriminate..].
  apply stop_port in E1 as [P1 A1]. destruct e1; [intros [= <- _ _]; exact P1|].
  destruct (UManager_Start m1 _ _ _ w1) as [[[m2 w2] e2]| |] eqn:E2; cbn [bind]; [|discriminate..].
  apply ustart_port in E2; [|congruence]. destruct e2; [intros [= <- _ _]; congruence|].
  pose proof (mstart_port m2 (so_multicast so) (so_stop so 3) (so_stop so 4) (so_local' so) w2) as P3.
  destruct (MManager_Start m2 _ _ _ _ w2) as [[m3 w3] e3]. cbn [fst] in P3.
  assert (G : forall m4 w4 e4, (r <- Manager_Stop m3 (so_stop so 5) (so_stop so 6) w3 ;; let '(m, w, _) := r in Ok (m, w, true)) =
                Ok (m4, w4, e4) -> mg_port m4 = mg_port m).
  { intros m4 w4 e4. destruct (Manager_Stop m3 _ _ w3) as [[[m5 w5] e5]| |] eqn:E5; cbn [bind]; [|discriminate..].
    apply stop_port in E5 as [P5 _]. intros [= <- _ _]. congruence. }
  destruct e3; [apply G|]. destruct (setUnicastManager _ _); [|apply G]. intros [= <- _ _]. cbn [mg_port with_port with_multicast]. congruence.
Qed.

Lemma start_standing p m so w m' w' e : Forall stoppable (mg_unicast m) -> fresh w -> standing p m ->
  Manager_Start m so w = Ok (m', w', e) -> standing p m'.
Proof.
  intros HS F (A & P & _) E. pose proof (manager_start_port m so w m' w' e A E) as HP.
  destruct (Manager_Start_spec m so w HS F) as (m1 & w1 & e1 & E1 & (_ & SA & _) & _ & _ & H1 & H & _).
  rewrite E in E1. injection E1 as <- <- <-. split; [congruence|]. split; [congruence|]. intros HR. destruct e.
  { unfold IsRunning in HR. rewrite H1 in HR by reflexivity. destruct (mg_unicast m'); discriminate HR. }
  destruct (H eq_refl) as (ifs & ifs' & [_ _ _ _ S5 _ _ _ _]). eapply Forall_impl; [|exact S5].
  intros u (c & _ & _ & R & _). rewrite A in R. lia.
Qed.

Lemma map_split_nth {A B} (f : A -> B) l k a b : nth_error l k = Some a -> f b = f a ->
  map f (firstn k l ++ b :: skipn (S k) l) = map f l.
Proof.
  intros E H. apply nth_error_split in E as (l1 & l2 & -> & <-).
  rewrite firstn_app, firstn_all, Nat.sub_diag. cbn [firstn]. rewrite app_nil_r.
  rewrite skipn_app, skipn_all2 by lia. replace (S (length l1) - length l1)%nat with 1%nat by lia. cbn [app skipn].
  rewrite !map_app. cbn [map]. rewrite H. reflexivity.
Qed.
Lemma reading_map {B} (f : userver -> B) k l : (forall s b, f (mkUServer (us_if s) (us_ifi s) (us_addr s) (us_port s) (us_tcpEnabled s) (us_udp s)
    (us_udpChannel s) (us_tcp s) (us_tcpChannel s) b) = f s) -> map f (stop_reading k l) = map f l.
Proof.
  intros H. unfold stop_reading. destruct (nth_error l k) as [s|] eqn:E; [|reflexivity]. eapply map_split_nth; [exact E|apply H].
Qed.
Lemma drop_map k l : map ms_addr (drop_conn k l) = map ms_addr l.
Proof. unfold drop_conn. destruct (nth_error l k) as [s|] eqn:E; [|reflexivity]. eapply map_split_nth; [exact E|reflexivity]. Qed.

Lemma transport_standing p m w op m' w' e : good (m, w) -> standing p m ->
  match op with TSetConfig _ auto => auto = false | TSetPort _ => False | _ => True end ->
  transport_step (m, w) op = Ok (m', w', e) -> standing p m'.
Proof.
  intros G S HO E. pose proof (step_running m w op m' w' e G E) as RN. destruct G as [HS F]. cbn [fst snd] in *. destruct op as [so|o o'|tcp auto|q|k|k]; cbn [transport_step] in E.
  - eapply start_standing; eassumption.
  - apply stop_port in E as [P A]. destruct S as (S1 & S2 & _). split; [congruence|]. split; [congruence|]. rewrite RN. discriminate.
  - injection E as <- <- <-. destruct S as (S1 & S2 & S3). subst auto. split; [reflexivity|]. split; [exact S2|exact S3].
  - destruct HO.
  - injection E as <- <- <-. destruct S as (S1 & S2 & S3). split; [exact S1|]. split; [exact S2|]. rewrite RN. intros HR. specialize (S3 HR).
    cbn [mg_unicast with_unicast]. rewrite <- (Forall_map us_port (fun x => x = p)) in *. rewrite reading_map; [exact S3|reflexivity].
  - destruct (nth_error (mg_multicast m) k) as [s|]; injection E as <- <- <-; [|exact S].
    destruct S as (S1 & S2 & S3). split; [exact S1|]. split; [exact S2|]. rewrite RN. exact S3.
Qed.

Lemma transport_covered m w op m' w' e : good (m, w) -> covered m ->
  match op with TStart so => so_local so = so_local' so | _ => True end ->
  transport_step (m, w) op = Ok (m', w', e) -> covered m'.
Proof.
  intros G S HO E HR. pose proof (step_running m w op m' w' e G E) as RN. destruct G as [HS F]. cbn [fst snd] in *. destruct op as [so|o o'|tcp auto|q|k|k]; cbn [transport_step] in E.
  - rewrite HR in RN. destruct e; [discriminate RN|]. eapply start_covered; eassumption.
  - congruence.
  - injection E as <- <- <-. apply S. congruence.
  - injection E as <- <- <-. apply S. congruence.
  - injection E as <- <- <-. rewrite HR in RN. specialize (S (eq_sym RN)). cbn [mg_unicast mg_multicast with_unicast].
    intros u Hu. apply (in_map us_addr) in Hu. rewrite reading_map in Hu by reflexivity. apply in_map_iff in Hu as (v & <- & Hv). apply S. exact Hv.
  - destruct (nth_error (mg_multicast m) k) as [s|]; injection E as <- <- <-; [|apply S; congruence].
    cbn [mg_unicast mg_multicast with_multicast] in *. rewrite drop_map. apply S. congruence.
Qed.

(** ** Lives *)

(** What every step of the transport keeps, every step of a life keeps. *)
Lemma life_keeps (Q : manager -> Prop) (allowed : transport_op -> Prop) ops l nops op l' e :
  (forall m w t m' w' x, good (m, w) -> Q m -> allowed t -> transport_step (m, w) t = Ok (m', w', x) -> Q m') ->
  (forall o o', allowed (TStop o o')) -> (forall k, allowed (TUnicastBad k)) -> (forall k, allowed (TMulticastBad k)) ->
  match op with
  | FStart so _ | FRestart _ _ so _ => allowed (TStart so)
  | FConfig tcp auto => allowed (TSetConfig tcp auto)
  | _ => True
  end ->
  PropsLife.lived ops l nops -> Q (lf_mgr l) -> life_step op l = Ok (l', e) -> Q (lf_mgr l').
Proof.
  intros HK A1 A2 A3 HA HL HQ. pose proof (PropsLife.lv_good _ _ _ HL) as G.
  assert (START : forall so ok l0 x l1, good (lf_mgr l0, lf_world l0) -> Q (lf_mgr l0) -> allowed (TStart so) ->
            Life_Start l0 so ok = Ok (l1, x) -> Q (lf_mgr l1)).
  { intros so ok l0 x l1 G0 Q0 HS. unfold Life_Start. destruct (Manager_Start (lf_mgr l0) so (lf_world l0)) as [[[m w] b]| |] eqn:E;
      cbn [bind]; [|discriminate..]. pose proof (HK _ _ (TStart so) m w b G0 Q0 HS E) as X. destruct b.
    - intros [= <- _]. exact X.
    - destruct (Announce _) as [nd a]. intros [= <- _]. exact X. }
  assert (STOP : forall o o' l0 x l1, good (lf_mgr l0, lf_world l0) -> Q (lf_mgr l0) -> Life_Stop l0 o o' = Ok (l1, x) ->
            Q (lf_mgr l1) /\ good (lf_mgr l1, lf_world l1)).
  { intros o o' l0 x l1 G0 Q0. unfold Life_Stop. destruct (Manager_Stop (lf_mgr l0) o o' (lf_world l0)) as [[[m w] b]| |] eqn:E;
      cbn [bind]; [|discriminate..]. pose proof (HK _ _ (TStop o o') m w b G0 Q0 (A1 o o') E) as X. intros [= <- _]. split; [exact X|].
    destruct (step_good _ _ (TStop o o') G0) as (m2 & w2 & e2 & E2 & G2). cbn [transport_step] in E2. rewrite E in E2.
    injection E2 as <- <- <-. exact G2. }
  assert (ONLY : forall t l1 x, allowed t -> transport_only l t = Ok (l1, x) -> Q (lf_mgr l1)).
  { intros t l1 x HT. unfold transport_only. destruct (transport_step (lf_mgr l, lf_world l) t) as [[[m w] b]| |] eqn:E; cbn [bind]; [|discriminate..].
    pose proof (HK _ _ t m w b G HQ HT E) as X. intros [= <- _]. exact X. }
  destruct op as [so ok|o o'|o o' so ok|c ok|tcp auto|k|k]; cbn [life_step].
  - apply START; assumption.
  - intros E. apply STOP in E; [apply E|assumption..].
  - unfold Life_Restart. destruct (Life_Stop l o o') as [[l1 e1]| |] eqn:E1; cbn [bind fst snd]; [|discriminate..].
    apply STOP in E1; [|assumption..]. destruct E1 as [Q1 G1]. destruct e1; [intros [= <- _]; exact Q1|]. apply START; assumption.
  - destruct (node_step (as_op c) (lf_node l)) as [nd| |]; cbn [bind]; [|discriminate..]. intros [= <- _]. exact HQ.
  - apply ONLY. exact HA.
  - apply ONLY. apply A2.
  - apply ONLY. apply A3.
Qed.

Lemma life_induction (Q : life -> Prop) (ok : life_op -> Prop) tcp auto retry port :
  (forall l, new_life tcp auto retry port = Ok l -> Q l) ->
  (forall ops l nops op l' e, PropsLife.lived ops l nops -> Q l -> ok op -> life_step op l = Ok (l', e) -> Q l') ->
  forall ops l, Forall PropsLife.life_op_ok ops -> Forall ok ops -> life_after tcp auto retry port ops = Ok l -> Q l.
Proof.
  intros H0 HS. induction ops as [|op ops IH] using rev_ind; intros l HO HK E.
  - apply H0. unfold life_after in E. destruct (new_life _ _ _ _); [exact E|discriminate E..].
  - apply Forall_app in HO as [HO HO1]. apply Forall_app in HK as [HK HK1].
    destruct (PropsLife.life_snoc tcp auto retry port ops op l E) as (l0 & e & E0 & ES).
    destruct (PropsLife.life_lived tcp auto retry port ops HO) as (l1 & nops & E1 & HL). rewrite E0 in E1. injection E1 as <-.
    eapply HS; [exact HL|apply IH; assumption| |exact ES]. inversion HK1. assumption.
Qed.

Lemma life_covered tcp auto retry port ops l : Forall PropsLife.life_op_ok ops -> Forall lists_once ops ->
  life_after tcp auto retry port ops = Ok l -> covered (lf_mgr l).
Proof.
  apply (life_induction (fun l => covered (lf_mgr l)) lists_once).
  - intros l0. unfold new_life. destruct newLocalNode; cbn [bind]; [|discriminate..]. intros [= <-] HR. discriminate HR.
  - intros ops' l0 nops op l' e HL HC HK.
    apply (life_keeps covered (fun t => match t with TStart so => so_local so = so_local' so | _ => True end)) with (ops := ops') (nops := nops);
      try assumption; try (intros; exact I).
    intros m w t m' w' x G Q A. apply transport_covered; assumption.
Qed.
Lemma life_standing tcp retry port ops l : Forall PropsLife.life_op_ok ops -> Forall port_fixed ops ->
  life_after tcp false retry port ops = Ok l -> standing port (lf_mgr l).
Proof.
  apply (life_induction (fun l => standing port (lf_mgr l)) port_fixed).
  - intros l0. unfold new_life. destruct newLocalNode; cbn [bind]; [|discriminate..]. intros [= <-].
    split; [reflexivity|]. split; [reflexivity|]. intros HR. discriminate HR.
  - intros ops' l0 nops op l' e HL HC HK.
    apply (life_keeps (standing port) (fun t => match t with TSetConfig _ auto => auto = false | TSetPort _ => False | _ => True end)) with (ops := ops') (nops := nops);
      try assumption; try (intros; exact I).
    intros m w t m' w' x G Q A. apply transport_standing; assumption.
Qed.

(** ** What is reported *)

Lemma addresses_map l : addresses_of l = map ms_addr l.
Proof. induction l as [|s l IH]; [reflexivity|]. cbn. rewrite IH. reflexivity. Qed.
Lemma listening_map number m : listening number m = map (fun a => (Some 3610, Some (number a))) (Addresses m).
Proof. unfold listening, Addresses. rewrite addresses_map, map_map. reflexivity. Qed.

(** After a start that left the node running, Addresses lists every address of every
    usable interface, in the order of the interfaces. *)
Theorem C93_addresses : forall tcp auto retry port ops l so ok l' e, Forall PropsLife.life_op_ok ops ->
  life_after tcp auto retry port ops = Ok l -> Life_Start l so ok = Ok (l', e) -> n_running (lf_node l') = true ->
  GetAvailableAddresses (so_local' so) = Ok (Addresses (lf_mgr l')).
Proof.
  intros tcp auto retry port ops l so ok l' e HO E ES HR.
  destruct (PropsLife.life_lived tcp auto retry port ops HO) as (l1 & nops & E1 & HL). rewrite E in E1. injection E1 as <-.
  assert (HR' : IsRunning (lf_mgr l') = true).
  { destruct (PropsLife.step_lived _ _ _ (FStart so ok) _ _ HL I ES) as (nops' & HL'). rewrite <- (PropsLife.lv_run _ _ _ HL'). exact HR. }
  destruct (PropsLife.lv_good _ _ _ HL) as [HS F]. cbn [fst snd] in *.
  destruct (Manager_Start_spec (lf_mgr l) so (lf_world l) HS F) as (m & w & b & EM & _ & _ & _ & H1 & H2 & _).
  unfold Life_Start in ES. rewrite EM in ES. cbn [bind] in ES.
  assert (EX : lf_mgr l' = m). { destruct b; [|destruct (Announce _)]; injection ES as <- _; reflexivity. }
  rewrite EX in *. clear ES EX. destruct b.
  { unfold IsRunning in HR'. rewrite H1 in HR' by reflexivity. destruct (mg_unicast m); discriminate HR'. }
  destruct (H2 eq_refl) as (ifs & ifs' & [_ S2 S3 _ _ _ _ _ _]). unfold GetAvailableAddresses. rewrite S2. cbn [bind]. f_equal.
  unfold Addresses. rewrite addresses_map. transitivity (map snd (map (fun s => (ms_if s, ms_addr s)) (mg_multicast m))); [|rewrite map_map; reflexivity].
  rewrite S3. unfold endpoints. clear. induction ifs' as [|i ifs' IH]; [reflexivity|]. cbn [flat_map]. rewrite map_app, <- IH.
  f_equal. destruct (GetInterfaceAddresses i); try reflexivity. rewrite map_map. cbn [snd]. rewrite map_id. reflexivity.
Qed.

(** ** What a controller takes for its own *)

(** Exactly what comes from one of the addresses and the standard port, whatever the
    port the node really uses. *)
Theorem C93_taken_exact : forall number auto listener l m,
  isSelfMessage (controller_conf number auto listener l) m = true <->
  a_port (m_from m) = 3610 /\ In (a_ip (m_from m)) (map number (Addresses (lf_mgr l))).
Proof.
  intros number auto listener l m. rewrite PropsTable.self_iff. unfold PropsRemote.from_server, controller_conf. cbn [cc_servers].
  rewrite listening_map. split.
  - intros (p & i & I & ->). apply in_map_iff in I as (a & [= <- <-] & Ha). cbn. split; [reflexivity|]. apply in_map. exact Ha.
  - intros (P & I). apply in_map_iff in I as (a & Ea & Ha). exists 3610, (number a). split.
    + apply in_map_iff. exists a. auto.
    + destruct (m_from m) as [i p]. cbn in *. congruence.
Qed.

Lemma ignored conf nd ct m : received m -> n_self nd = false -> isSelfMessage conf m = true -> ctrl_receive conf nd ct m = ct.
Proof.
  intros HR HS HM. destruct (PropsHandler.valid_dec nd m HR) as [(r & o & HV)|HV].
  2:{ apply PropsRemote.receive_invalid; [assumption|]. tauto. }
  destruct (negb (n_self nd) && addr_eqb (m_from m) (n_addr nd)) eqn:EO.
  { unfold ctrl_receive, ProtocolMessageReceived. rewrite EO. reflexivity. }
  pose proof (PropsRemote.receive_valid conf nd ct m r o HR (PropsRemote.not_own_of nd m EO) HV) as E.
  unfold OnMessage in E. rewrite HS, HM in E. cbn [negb andb] in E. congruence.
Qed.

(** Full statement, false with automatic port binding (below): with self messages
    disabled a running controller ignores what it sent itself through any of its
    servers, and passes the valid messages of all others to its listener. *)
Definition C93_own_claim : Prop := forall number tcp auto retry port ops l listener ct m u,
  Forall PropsLife.life_op_ok ops -> Forall lists_once ops -> life_after tcp auto retry port ops = Ok l ->
  n_running (lf_node l) = true -> received m -> In u (mg_unicast (lf_mgr l)) -> m_from m = source number u ->
  controller_receives number auto listener false l ct m = ct.
Definition C93_others_claim : Prop := forall number tcp auto retry port ops l ct m r o,
  Forall PropsLife.life_op_ok ops -> Forall lists_once ops -> life_after tcp auto retry port ops = Ok l ->
  n_running (lf_node l) = true -> received m -> (forall u, In u (mg_unicast (lf_mgr l)) -> m_from m <> source number u) ->
  PropsHandler.valid (lf_node l) m r o ->
  ct_messages (controller_receives number auto true false l ct m) = ct_messages ct ++ [m].

Lemma life_runs tcp auto retry port ops l : Forall PropsLife.life_op_ok ops -> life_after tcp auto retry port ops = Ok l ->
  n_running (lf_node l) = IsRunning (lf_mgr l).
Proof.
  intros HO E. destruct (PropsLife.life_lived tcp auto retry port ops HO) as (l1 & nops & E1 & HL). rewrite E in E1. injection E1 as <-.
  apply (PropsLife.lv_run _ _ _ HL).
Qed.

(** Without automatic port binding, on the standard port: both. *)
Theorem C93_own_ignored_partial : forall number tcp retry ops l auto listener ct m u,
  Forall PropsLife.life_op_ok ops -> Forall lists_once ops -> Forall port_fixed ops -> life_after tcp false retry 3610 ops = Ok l ->
  n_running (lf_node l) = true -> received m -> In u (mg_unicast (lf_mgr l)) -> m_from m = source number u ->
  controller_receives number auto listener false l ct m = ct.
Proof.
  intros number tcp retry ops l auto listener ct m u HO HL HP E HR HM HU HF.
  rewrite (life_runs _ _ _ _ _ _ HO E) in HR.
  pose proof (life_covered _ _ _ _ _ _ HO HL E HR u HU) as HA. destruct (life_standing _ _ _ _ _ HO HP E) as (_ & _ & HS).
  specialize (HS HR). rewrite Forall_forall in HS. specialize (HS u HU).
  unfold controller_receives. apply ignored; [assumption|reflexivity|]. apply C93_taken_exact. rewrite HF. unfold source. cbn.
  split; [exact HS|]. apply in_map. unfold Addresses. rewrite addresses_map. exact HA.
Qed.

Lemma own_is_first number m u us : mg_unicast m = u :: us -> us_port u <> 0 -> own_address number m = mkAddress (number (us_addr u)) (mg_port m).
Proof.
  intros E HP. unfold own_address. rewrite E. cbn [map]. unfold unicast_socket, SetBoundStatus, Socket_Address, IsBound. cbn [sk_port sk_address].
  destruct (Z.eqb_spec (us_port u) 0); [contradiction|]. reflexivity.
Qed.

Lemma passed number auto l ct m r o : received m -> PropsHandler.valid (lf_node l) m r o ->
  m_from m <> own_address number (lf_mgr l) -> isSelfMessage (controller_conf number auto true l) m = false ->
  ct_messages (controller_receives number auto true false l ct m) = ct_messages ct ++ [m].
Proof.
  intros HR HV HO HS. unfold controller_receives.
  assert (HV' : PropsHandler.valid (controller_node number false l) m r o) by exact HV.
  pose proof (PropsRemote.receive_valid (controller_conf number auto true l) (controller_node number false l) ct m r o HR (or_intror HO) HV') as E.
  set (ct' := ctrl_receive _ _ ct m) in *. clearbody ct'. unfold OnMessage in E. rewrite HS in E. cbn [negb andb n_self controller_node with_address] in E.
  assert (X : forall c, (if isNodeProfileMessage m then parseNodeProfileMessage (controller_conf number auto true l) false ct m else Ok ct) = Ok c ->
              ct_messages c = ct_messages ct).
  { intros c. destruct (isNodeProfileMessage m); [|congruence]. unfold parseNodeProfileMessage. rewrite HS. cbn [negb andb].
    destruct (newRemoteNodeWithInstanceListMessageAndConfig m _); [|congruence|discriminate]. intros [= <-]. unfold addNode.
    destruct (existsb _ _); reflexivity. }
  destruct (if isNodeProfileMessage m then _ else _) as [c| |]; cbn [bind] in E; [|discriminate E..].
  specialize (X c eq_refl). cbn [cc_listener controller_conf] in E. injection E as <-. cbn [ct_messages]. rewrite X. reflexivity.
Qed.

Theorem C93_others_partial : forall number tcp retry ops l auto ct m r o,
  Forall PropsLife.life_op_ok ops -> Forall lists_once ops -> Forall port_fixed ops -> life_after tcp false retry 3610 ops = Ok l ->
  n_running (lf_node l) = true -> received m ->
  (forall a, In a (Addresses (lf_mgr l)) -> m_from m <> mkAddress (number a) 3610) ->
  PropsHandler.valid (lf_node l) m r o ->
  ct_messages (controller_receives number auto true false l ct m) = ct_messages ct ++ [m].
Proof.
  intros number tcp retry ops l auto ct m r o HO HL HP E HR HM HF HV.
  rewrite (life_runs _ _ _ _ _ _ HO E) in HR. apply (passed number auto l ct m r o); try assumption.
  - destruct (mg_unicast (lf_mgr l)) as [|u us] eqn:EU; [unfold IsRunning in HR; rewrite EU in HR; discriminate HR|].
    assert (HU : In u (mg_unicast (lf_mgr l))) by (rewrite EU; left; reflexivity).
    destruct (life_standing _ _ _ _ _ HO HP E) as (_ & SP & HS). specialize (HS HR). rewrite Forall_forall in HS. specialize (HS u HU).
    rewrite (own_is_first number _ u us EU), SP by (rewrite HS; discriminate). apply HF.
    unfold Addresses. rewrite addresses_map. exact (life_covered _ _ _ _ _ _ HO HL E HR u HU).
  - apply Bool.not_true_iff_false. intros X. apply C93_taken_exact in X as (P & I). apply in_map_iff in I as (a & Ea & Ha).
    apply (HF a Ha). destruct (m_from m) as [i p]. cbn in *. congruence.
Qed.

(** ** A neighbour on the same computer *)

(** A message from the standard port of an address of the controller leaves no trace,
    whatever the port of the controller. *)
Theorem C93_neighbour_ignored : forall number auto listener l ct m a, received m -> In a (Addresses (lf_mgr l)) ->
  m_from m = mkAddress (number a) 3610 -> controller_receives number auto listener false l ct m = ct.
Proof.
  intros number auto listener l ct m a HR HA HF. unfold controller_receives. apply ignored; [assumption|reflexivity|].
  apply C93_taken_exact. rewrite HF. cbn. split; [reflexivity|]. apply in_map. exact HA.
Qed.

(** So a node of another process that has the standard port of the computer is never
    found by a controller that records the ports of the nodes. *)
Theorem C93_never_found : forall number listener (es : list (life * message)) ip,
  Forall (fun e => received (snd e) /\ exists a, In a (Addresses (lf_mgr (fst e))) /\ number a = ip) es ->
  ~ In (mkAddress ip 3610)
      (map rn_addr (ct_found (fold_left (fun ct e => controller_receives number true listener false (fst e) ct (snd e)) es newCtrl))).
Proof.
  intros number listener es ip H.
  assert (X : forall ct, ~ In (mkAddress ip 3610) (map rn_addr (ct_found ct)) ->
     ~ In (mkAddress ip 3610)
      (map rn_addr (ct_found (fold_left (fun ct e => controller_receives number true listener false (fst e) ct (snd e)) es ct)))).
  2:{ apply X. intros []. }
  induction H as [|[l m] es (HR & a & HA & HN) _ IH]; intros ct HC; [exact HC|]. cbn [fold_left fst snd] in *. apply IH. clear IH.
  unfold controller_receives.
  destruct (PropsRemote.C38_step (controller_conf number true listener l) (controller_node number false l) ct m HR) as [(n & HJ & EF & _)|(_ & EF & _)].
  - rewrite EF, map_app, in_app_iff. intros [I|[I|[]]]; [contradiction|]. destruct HJ as ((_ & HF & _) & _ & codes & _ & _ & (EA & _)).
    rewrite EA in I. unfold PropsRemote.sender in I. cbn [cc_auto controller_conf] in I. destruct HF as [HF|[_ HF]]; [discriminate HF|].
    apply HF. apply PropsTable.self_iff. apply C93_taken_exact. injection I as -> ->. split; [reflexivity|]. subst ip. apply in_map. exact HA.
  - rewrite EF. exact HC.
Qed.

(** ** With automatic port binding *)

(** Another process has the standard port, so that the controller gets the next one. *)
Definition taken : oracle :=
  mkOracle (fun _ _ _ p => if p =? 3610 then BListenFails else BOk) (fun _ _ _ _ => BOk) (fun _ _ _ => BOk) (fun _ => false).
Definition beside : list life_op := [FStart (mkSO two_ifs two_ifs taken all_ok (fun _ => all_ok)) (fun _ _ => true)].
Definition ex_number (s : string) : Z := if String.eqb s "10.0.0.1" then 1 else 2.
(** An instance list with one light. *)
Definition ex_frame : list Z := [0x10; 0x81; 0; 1; 0x0E; 0xF0; 1; 0x0E; 0xF0; 1; 0x73; 1; 0xD5; 4; 1; 2; 0x90; 1].
Definition ex_message (a : address) : message :=
  match NewMessageWithBytes ex_frame with Ok m => SetPacketType (SetFrom m a) MulticastPacket | _ => NewMessage end.
Lemma ex_message_received a : received (ex_message a).
Proof.
  eexists ex_frame, _, a, MulticastPacket. split; [|split; [vm_compute; reflexivity|reflexivity]].
  unfold ex_frame. repeat (apply Forall_cons; [unfold is_byte; lia|]). apply Forall_nil.
Qed.

Lemma beside_life : exists l, life_after false true 0 3610 beside = Ok l /\ n_running (lf_node l) = true /\
  map (source ex_number) (mg_unicast (lf_mgr l)) = [mkAddress 1 3611; mkAddress 2 3611] /\
  (exists r o, PropsHandler.valid (lf_node l) (ex_message (mkAddress 1 3610)) r o) /\
  controller_receives ex_number true true false l newCtrl (ex_message (mkAddress 1 3610)) = newCtrl /\
  map rn_addr (ct_found (controller_receives ex_number true true false l newCtrl (ex_message (mkAddress 2 3611)))) = [mkAddress 2 3611] /\
  map rn_addr (ct_found (controller_receives ex_number true true false l newCtrl (ex_message (mkAddress 3 3610)))) = [mkAddress 3 3610].
Proof.
  destruct (PropsLife.C85_no_panic false true 0 3610 beside) as (l & E); [repeat constructor|]. exists l. split; [exact E|].
  vm_compute in E. injection E as <-. split; [reflexivity|]. split; [vm_compute; reflexivity|]. split.
  - exists (ProfRef 0). eexists. split; [split; vm_compute; reflexivity|]. split; [vm_compute; tauto|].
    intros [X|X]; vm_compute in X; exfalso; repeat (destruct X as [X|X]; [discriminate X|]); destruct X.
  - split; [vm_compute; reflexivity|]. split; vm_compute; reflexivity.
Qed.

Lemma beside_ok : Forall PropsLife.life_op_ok beside /\ Forall lists_once beside.
Proof. repeat constructor. Qed.

(** The controller takes what it sent through its second server for that of another
    node, and finds itself. *)
Theorem C93_own_refuted : ~ C93_own_claim.
Proof.
  intros H. destruct beside_life as (l & E & HR & HS & _ & _ & HF & _). destruct beside_ok as [O1 O2].
  assert (HU : In (mkAddress 2 3611) (map (source ex_number) (mg_unicast (lf_mgr l)))) by (rewrite HS; right; left; reflexivity).
  apply in_map_iff in HU as (u & EU & HU).
  specialize (H ex_number false true 0%nat 3610 beside l true newCtrl (ex_message (mkAddress 2 3611)) u O1 O2 E HR (ex_message_received _) HU).
  rewrite EU in H. specialize (H eq_refl). rewrite H in HF. discriminate HF.
Qed.
(** The message of the process that has the standard port does not reach the listener. *)
Theorem C93_others_refuted : ~ C93_others_claim.
Proof.
  intros H. destruct beside_life as (l & E & HR & HS & (r & o & HV) & HC & _). destruct beside_ok as [O1 O2].
  specialize (H ex_number false true 0%nat 3610 beside l newCtrl (ex_message (mkAddress 1 3610)) r o O1 O2 E HR (ex_message_received _)).
  rewrite HC in H. assert (X : @nil message = [] ++ [ex_message (mkAddress 1 3610)]); [|discriminate X]. apply H; [|exact HV].
  intros u HU. apply (in_map (source ex_number)) in HU. rewrite HS in HU. destruct HU as [<-|[<-|[]]]; discriminate.
Qed.

(** ** What a socket reports *)

(** Whatever was done to a socket before: it reports interface, address and port of the
    last binding, and nothing after Close, before any binding or for port zero. *)
Inductive sock_call : Type := Binds (i : iptr) (addr : string) (port : Z) | Closes.
Definition sock_run (h : list sock_call) : socket :=
  fold_left (fun s c => match c with Binds i a p => SetBoundStatus s i a p | Closes => Socket_Close s end) h NewSocket.
Definition reports (s : socket) (b : option (iptr * string * Z)) : Prop :=
  match b with
  | Some (i, a, p) => IsBound s = true /\ Socket_Interface s = Ok (Some i) /\ Socket_Address s = Ok a /\ Socket_Port s = Ok p
  | None => IsBound s = false /\ (exists e, Socket_Interface s = Err e) /\ (exists e, Socket_Address s = Err e) /\ (exists e, Socket_Port s = Err e)
  end.
Theorem C93_socket :
  (forall h i a p, p <> 0 -> reports (sock_run (h ++ [Binds i a p])) (Some (i, a, p))) /\
  (forall h i a, reports (sock_run (h ++ [Binds i a 0])) None) /\
  (forall h, reports (sock_run (h ++ [Closes])) None) /\
  reports (sock_run []) None.
Proof.
  repeat split; unfold sock_run; rewrite ?fold_left_app; cbn [fold_left];
    unfold IsBound, Socket_Interface, Socket_Address, Socket_Port, IsBound, SetBoundStatus, Socket_Close, NewSocket; cbn [sk_port sk_interface sk_address];
    try (replace (p =? 0) with false by lia); try reflexivity; try (eexists; reflexivity).
Qed.

(** ** Examples *)

(** On the standard port: its own messages leave no trace, that of a third computer does. *)
Example C93_example :
  match life_after false false 5 3610 [FStart (plain_start two_ifs) (fun _ _ => true)] with
  | Ok l => Addresses (lf_mgr l) = ["10.0.0.1"%string; "10.0.1.1"%string] /\
      own_address ex_number (lf_mgr l) = mkAddress 1 3610 /\
      map (source ex_number) (mg_unicast (lf_mgr l)) = [mkAddress 1 3610; mkAddress 2 3610] /\
      map (fun a => map rn_addr (ct_found (controller_receives ex_number true true false l newCtrl (ex_message a))))
        [mkAddress 1 3610; mkAddress 2 3610; mkAddress 3 3610; mkAddress 2 3611] =
      [[]; []; [mkAddress 3 3610]; [mkAddress 2 3611]]
  | _ => False
  end.
Proof. vm_compute. auto. Qed.
(** A closed socket reports nothing; closing a UDP connection does not close the status. *)
Example C93_socket_example :
  Socket_Address NewSocket = Err ErrOther /\
  Socket_Port (SetBoundStatus NewSocket (0%nat, 0%nat) "10.0.0.1" 3610) = Ok 3610 /\
  Socket_Interface (SetBoundStatus NewSocket (0%nat, 1%nat) "10.0.0.1" 3610) = Ok (Some (0%nat, 1%nat)) /\
  Socket_Address (Socket_Close (SetBoundStatus NewSocket (0%nat, 0%nat) "10.0.0.1" 3610)) = Err ErrOther.
Proof. vm_compute. auto. Qed.

Print Assumptions C93_addresses.
Print Assumptions C93_socket.
Print Assumptions C93_taken_exact.
Print Assumptions C93_own_ignored_partial.
Print Assumptions C93_others_partial.
Print Assumptions C93_neighbour_ignored.
Print Assumptions C93_never_found.
Print Assumptions C93_own_refuted.
Print Assumptions C93_others_refuted.

(** Lemmas about start and stop of the transport. *)

From Coq Require Import String Ascii ZifyBool ZifyNat.
From Verif Require Import Go GoFacts Encoding Protocol Parser Transport TransportFacts.
Local Open Scope Z_scope.
Local Open Scope list_scope.

Definition opt_list {A} (o : option A) : list A := match o with None => [] | Some a => [a] end.

(** The sockets that servers hold. *)
Definition uheld (s : userver) : list nat := opt_list (us_udp s) ++ opt_list (us_tcp s).
Definition mheld (s : mserver) : list nat := opt_list (ms_conn s).
Definition held (m : manager) : list nat := flat_map uheld (mg_unicast m) ++ flat_map mheld (mg_multicast m).

(** A server that Stop can stop, completely. *)
Definition stoppable (s : userver) : Prop :=
  us_udpChannel s = ChOpen /\
  if us_tcpEnabled s then us_tcpChannel s = ChOpen else us_tcp s = None.

Definition fresh (w : world) : Prop := forall x, In x (w_open w) -> (x < w_next w)%nat.

(** ** Stop *)

Lemma close_opt_open s w x :
  In x (w_open (close_opt s w)) <-> In x (w_open w) /\ ~ In x (opt_list s).
Proof.
  destruct s as [s|]; cbn; [|tauto]. split.
  - intros H. apply in_remove in H. intuition congruence.
  - intros [H1 H2]. apply in_in_remove; intuition congruence.
Qed.
Lemma close_opt_next s w : w_next (close_opt s w) = w_next w /\ w_calls (close_opt s w) = w_calls w.
Proof. destruct s; split; reflexivity. Qed.

Definition closed_exactly (l : list nat) (w w' : world) : Prop :=
  (forall x, In x (w_open w') <-> In x (w_open w) /\ ~ In x l) /\ w_next w' = w_next w /\ w_calls w' = w_calls w.

Lemma closed_nil w : closed_exactly [] w w.
Proof. split; [|auto]. intros x. cbn. tauto. Qed.
Lemma closed_app l k w w' w'' : closed_exactly l w w' -> closed_exactly k w' w'' -> closed_exactly (l ++ k) w w''.
Proof.
  intros (H1 & H2 & H3) (G1 & G2 & G3). split; [|split; congruence].
  intros x. rewrite G1, H1, in_app_iff. tauto.
Qed.
Lemma closed_opt s w : closed_exactly (opt_list s) w (close_opt s w).
Proof. split; [intros x; apply close_opt_open|apply close_opt_next]. Qed.

Lemma closed_fresh l w w' : closed_exactly l w w' -> fresh w -> fresh w'.
Proof. intros (H1 & H2 & _) F x Hx. rewrite H2. apply F. apply H1. exact Hx. Qed.

Lemma UServer_Stop_ok s a b w : stoppable s ->
  exists w' e, UServer_Stop s a b w = Ok (w', e) /\ closed_exactly (uheld s) w w'.
Proof.
  intros [H1 H2]. unfold UServer_Stop. rewrite H1. cbn [close_chan bind].
  unfold uheld. destruct (us_tcpEnabled s).
  - rewrite H2. cbn [close_chan bind]. eexists _, _. split; [reflexivity|].
    eapply closed_app; apply closed_opt.
  - rewrite H2. cbn [opt_list]. rewrite app_nil_r. eexists _, _. split; [reflexivity|]. apply closed_opt.
Qed.

Lemma stop_unicast_ok l o : Forall stoppable l -> forall n w,
  exists w' e, stop_unicast l o n w = Ok (w', e) /\ closed_exactly (flat_map uheld l) w w'.
Proof.
  induction 1 as [|s l Hs _ IH]; intros n w.
  - exists w, false. split; [reflexivity|apply closed_nil].
  - cbn [stop_unicast flat_map].
    destruct (UServer_Stop_ok s (or_close o (2 * n)) (or_close o (2 * n + 1)) w Hs) as (w1 & e1 & E1 & C1).
    rewrite E1. cbn [bind fst snd]. destruct (IH (S n) w1) as (w2 & e2 & E2 & C2).
    rewrite E2. cbn [bind fst snd]. eexists _, _. split; [reflexivity|]. eapply closed_app; eassumption.
Qed.

Lemma stop_multicast_ok l o : forall n w,
  closed_exactly (flat_map mheld l) w (fst (stop_multicast l o n w)).
Proof.
  induction l as [|s l IH]; intros n w; [apply closed_nil|]. cbn [stop_multicast flat_map].
  specialize (IH (S n) (close_opt (ms_conn s) w)).
  destruct (stop_multicast l o (S n) (close_opt (ms_conn s) w)) as [w' e]. cbn [fst] in *.
  eapply closed_app; [apply closed_opt|exact IH].
Qed.

Definition stopped (m : manager) : manager := with_multicast (with_unicast m []) [].

Lemma Manager_Stop_ok m o o' w : Forall stoppable (mg_unicast m) ->
  exists w' e, Manager_Stop m o o' w = Ok (stopped m, w', e) /\
    (forall x, In x (w_open w') <-> In x (w_open w) /\ ~ In x (held m)) /\
    w_next w' = w_next w /\ w_calls w' = w_calls w.
Proof.
  intros HS. unfold Manager_Stop, MManager_Stop.
  pose proof (stop_multicast_ok (mg_multicast m) o 0 w) as C1.
  destruct (stop_multicast (mg_multicast m) o 0 w) as [w1 e1]. cbn [fst] in C1.
  unfold UManager_Stop. cbn [mg_unicast with_multicast].
  destruct (stop_unicast_ok _ o' HS 0%nat w1) as (w2 & e2 & E2 & C2). rewrite E2. cbn [bind fst snd].
  eexists _, _. split; [reflexivity|]. destruct (closed_app _ _ _ _ _ C1 C2) as (H1 & H2 & H3).
  split; [|auto]. intros x. rewrite H1. unfold held. rewrite !in_app_iff. tauto.
Qed.

(** ** Start of the unicast servers *)

(** No bind leaves a socket behind. *)
Definition tidy_unicast (tcp : bool) (o : oracle) : Prop :=
  tcp = true -> forall n i a p, or_tcp o n i a p = BOk.
Definition tidy_multicast (o : oracle) : Prop := forall n i a, or_multicast o n i a <> BOptionFails.

(** How the servers and the open sockets grow. *)
Record grows (tidy : Prop) (L L' : list userver) (w w' : world) : Prop := mkGrows {
  g_servers : exists new, L' = L ++ new /\ Forall stoppable new /\
                (forall x, In x (flat_map uheld new) -> In x (w_open w')) /\
                (tidy -> forall x, In x (w_open w') -> In x (w_open w) \/ In x (flat_map uheld new));
  g_keep : forall x, In x (w_open w) -> In x (w_open w');
  g_fresh : fresh w';
  g_next : (w_next w <= w_next w')%nat;
  g_calls : w_calls w' = w_calls w }.

Lemma grows_refl tidy L w : fresh w -> grows tidy L L w w.
Proof.
  intros F. split; auto. exists []. rewrite app_nil_r. split; [reflexivity|]. split; [constructor|].
  split; [intros x []|auto].
Qed.

Lemma grows_trans tidy L1 L2 L3 w1 w2 w3 :
  grows tidy L1 L2 w1 w2 -> grows tidy L2 L3 w2 w3 -> grows tidy L1 L3 w1 w3.
Proof.
  intros [(n1 & -> & S1 & O1 & T1) K1 F1 N1 C1] [(n2 & -> & S2 & O2 & T2) K2 F2 N2 C2].
  split; auto; try congruence; try lia.
  exists (n1 ++ n2). rewrite app_assoc. split; [reflexivity|]. split; [apply Forall_app; auto|].
  split.
  - intros x. rewrite flat_map_app, in_app_iff. intros [H|H]; auto.
  - intros HT x Hx. rewrite flat_map_app, in_app_iff. destruct (T2 HT x Hx) as [H|H]; [|tauto].
    destruct (T1 HT x H); tauto.
Qed.

Lemma remove_fresh w : fresh w -> remove Nat.eq_dec (w_next w) (w_next w :: w_open w) = w_open w.
Proof.
  intros F. cbn [remove]. destruct (Nat.eq_dec (w_next w) (w_next w)); [|congruence].
  apply notin_remove. intros H. apply F in H. lia.
Qed.

Lemma open_fresh w : fresh w -> fresh (snd (open_socket w)).
Proof. intros F x. cbn. intros [<-|H]; [lia|]. apply F in H. lia. Qed.

(** One bind of a unicast server. *)
Lemma UServer_Start_grows tcp o n pi a port w L : fresh w ->
  match UServer_Start tcp o n pi a port w with
  | (Some u, w') =>
      grows (tidy_unicast tcp o) L (L ++ [u]) w w' /\
      us_if u = if_id (snd pi) /\ us_ifi u = fst pi /\ us_addr u = a /\ us_port u = port /\
      us_tcpEnabled u = tcp /\ us_reading u = true /\
      (exists s, us_udp u = Some s) /\ (tcp = true -> exists s, us_tcp u = Some s)
  | (None, w') => grows (tidy_unicast tcp o) L L w w'
  end.
Proof.
  intros F. pose proof (open_fresh w F) as F1. pose proof (open_fresh _ F1) as F2.
  unfold UServer_Start, UDP_Bind.
  assert (Hfail : grows (tidy_unicast tcp o) L L w (close_socket (snd (open_socket w)) (w_next w))).
  { unfold close_socket, open_socket. cbn [snd w_open w_next w_calls]. rewrite remove_fresh by exact F.
    split; cbn [w_open w_next w_calls]; auto.
    - exists []. rewrite app_nil_r. split; [reflexivity|]. split; [constructor|]. cbn. tauto.
    - intros x Hx. apply F in Hx. cbn. lia. }
  destruct (or_udp o n (if_id (snd pi)) a port) eqn:EU; cbn [open_socket].
  2: apply grows_refl; exact F.
  2, 3: exact Hfail.
  destruct tcp.
  - unfold TCP_Bind. destruct (or_tcp o n (if_id (snd pi)) a port) eqn:ET; cbn [open_socket].
    + cbn [us_if us_ifi us_addr us_port us_tcpEnabled us_reading us_udp us_tcp w_next].
      split; [|repeat split; eauto].
      split; cbn [w_open w_next w_calls]; auto.
      * eexists. split; [reflexivity|]. split; [constructor; [split; reflexivity|constructor]|].
        cbn. tauto.
      * cbn. tauto.
    + split; cbn [w_open w_next w_calls]; auto.
      * exists []. rewrite app_nil_r. split; [reflexivity|]. split; [constructor|].
        split; [intros x []|]. intros HT. rewrite HT in ET by reflexivity. discriminate ET.
      * cbn. tauto.
    + split; cbn [w_open w_next w_calls]; auto.
      * exists []. rewrite app_nil_r. split; [reflexivity|]. split; [constructor|].
        split; [intros x []|]. intros HT. rewrite HT in ET by reflexivity. discriminate ET.
      * cbn. tauto.
    + split; cbn [w_open w_next w_calls]; auto.
      * exists []. rewrite app_nil_r. split; [reflexivity|]. split; [constructor|].
        split; [intros x []|]. intros HT. rewrite HT in ET by reflexivity. discriminate ET.
      * cbn. tauto.
  - cbn [us_if us_ifi us_addr us_port us_tcpEnabled us_reading us_udp us_tcp w_next].
    split; [|repeat split; eauto; intros HH; discriminate HH].
    split; cbn [w_open w_next w_calls]; auto.
    + eexists. split; [reflexivity|]. split; [constructor; [split; reflexivity|constructor]|].
      cbn. tauto.
    + cbn. tauto.
Qed.

Definition st_grows (tidy : Prop) (s s' : starting) : Prop :=
  grows tidy (st_servers s) (st_servers s') (st_world s) (st_world s').

Lemma start_addrs_grows tcp o pi port addrs : forall s, fresh (st_world s) ->
  st_grows (tidy_unicast tcp o) s (start_addrs tcp o pi addrs port s).
Proof.
  induction addrs as [|a addrs IH]; intros s F; cbn [start_addrs]; [apply grows_refl; exact F|].
  pose proof (UServer_Start_grows tcp o (st_n s) pi a port (st_world s) (st_servers s) F) as H.
  destruct (UServer_Start tcp o (st_n s) pi a port (st_world s)) as [[u|] w']; [|exact H].
  destruct H as [H _]. eapply grows_trans; [exact H|].
  apply (IH (mkSt (st_servers s ++ [u]) w' false (S (st_n s)))). apply (g_fresh _ _ _ _ _ H).
Qed.

Lemma start_ifs_grows tcp o port ifs : forall s, fresh (st_world s) ->
  st_grows (tidy_unicast tcp o) s (start_ifs tcp o ifs port s).
Proof.
  induction ifs as [|i ifs IH]; intros s F; cbn [start_ifs]; [apply grows_refl; exact F|].
  destruct (GetInterfaceAddresses (snd i)) as [addrs| |]; [|apply IH; exact F..].
  pose proof (start_addrs_grows tcp o i port addrs s F) as H.
  eapply grows_trans; [exact H|]. apply IH. apply (g_fresh _ _ _ _ _ H).
Qed.

Lemma start_retry_grows tcp o port ifs k : forall s, fresh (st_world s) ->
  st_grows (tidy_unicast tcp o) s (start_retry tcp o ifs port k s).
Proof.
  induction k as [|k IH]; intros s F; cbn [start_retry];
    pose proof (start_ifs_grows tcp o port ifs s F) as H;
    destruct (st_err (start_ifs tcp o ifs port s)); try exact H.
  eapply grows_trans; [exact H|]. apply IH. apply (g_fresh _ _ _ _ _ H).
Qed.

Lemma start_ports_grows tcp auto retry o ifs k : forall port s, fresh (st_world s) ->
  st_grows (tidy_unicast tcp o) s (fst (start_ports tcp auto retry o ifs port k s)).
Proof.
  induction k as [|k IH]; intros port s F; cbn [start_ports];
    pose proof (start_retry_grows tcp o port ifs (if auto then O else retry) s F) as H;
    destruct (st_err (start_retry tcp o ifs port (if auto then O else retry) s)); try exact H.
  eapply grows_trans; [exact H|]. apply IH. apply (g_fresh _ _ _ _ _ H).
Qed.

(** ** Start of the multicast servers *)

Record mgrows (tidy : Prop) (L L' : list mserver) (w w' : world) : Prop := mkMGrows {
  mg_servers : exists new, L' = L ++ new /\
                (forall x, In x (flat_map mheld new) -> In x (w_open w')) /\
                (tidy -> forall x, In x (w_open w') -> In x (w_open w) \/ In x (flat_map mheld new));
  mg_keep : forall x, In x (w_open w) -> In x (w_open w');
  mg_fresh : fresh w';
  mg_calls : w_calls w' = w_calls w }.

Lemma mgrows_refl tidy L w : fresh w -> mgrows tidy L L w w.
Proof.
  intros F. split; auto. exists []. rewrite app_nil_r. split; [reflexivity|].
  split; [intros x []|auto].
Qed.

Lemma mgrows_trans tidy L1 L2 L3 w1 w2 w3 :
  mgrows tidy L1 L2 w1 w2 -> mgrows tidy L2 L3 w2 w3 -> mgrows tidy L1 L3 w1 w3.
Proof.
  intros [(n1 & -> & O1 & T1) K1 F1 C1] [(n2 & -> & O2 & T2) K2 F2 C2].
  split; auto; try congruence; try lia.
  exists (n1 ++ n2). rewrite app_assoc. split; [reflexivity|].
  split.
  - intros x. rewrite flat_map_app, in_app_iff. intros [H|H]; auto.
  - intros HT x Hx. rewrite flat_map_app, in_app_iff. destruct (T2 HT x Hx) as [H|H]; [|tauto].
    destruct (T1 HT x H); tauto.
Qed.

Lemma Multicast_Bind_grows a ans w L : fresh w ->
  match Multicast_Bind a ans w with
  | (c, w', true) => (exists s, c = Some s) /\ forall f i,
      mgrows (ans <> BOptionFails) L (L ++ [mkMServer i f a c None]) w w'
  | (_, w', false) => mgrows (ans <> BOptionFails) L L w w'
  end.
Proof.
  intros F. pose proof (open_fresh w F) as F1. unfold Multicast_Bind.
  destruct (IsIPv4Address a || IsIPv6Address a); [|apply mgrows_refl; exact F].
  destruct ans; cbn [open_socket].
  - split; [eauto|]. intros f i. split; cbn [w_open w_next w_calls]; auto.
    + eexists. split; [reflexivity|]. cbn. tauto.
    + cbn. tauto.
  - apply mgrows_refl; exact F.
  - unfold close_socket. cbn [w_open w_next w_calls]. rewrite remove_fresh by exact F.
    split; cbn [w_open w_next w_calls]; auto.
    + exists []. rewrite app_nil_r. split; [reflexivity|]. cbn. tauto.
    + intros x Hx. apply F in Hx. cbn. lia.
  - split; cbn [w_open w_next w_calls]; auto.
    + exists []. rewrite app_nil_r. split; [reflexivity|]. split; [intros x []|]. congruence.
    + cbn. tauto.
Qed.

Lemma mgrows_weaken (t t' : Prop) L L' w w' : (t' -> t) -> mgrows t L L' w w' -> mgrows t' L L' w w'.
Proof. intros H [(n1 & -> & O1 & T1) K1 F1 C1]. split; auto. exists n1. auto. Qed.

Lemma mstart_addrs_grows o pi addrs : forall n L w, fresh w ->
  match mstart_addrs o pi addrs n L w with
  | (L', w', e, _) => mgrows (tidy_multicast o) L L' w w' /\
      (e = false -> exists new, L' = L ++ new /\
         map (fun s => (ms_if s, ms_addr s)) new = map (fun a => (if_id (snd pi), a)) addrs /\
         Forall (fun s => ms_ifi s = fst pi /\ (exists c, ms_conn s = Some c)) new)
  end.
Proof.
  induction addrs as [|a addrs IH]; intros n L w F; cbn [mstart_addrs].
  - split; [apply mgrows_refl; exact F|]. intros _. exists []. rewrite app_nil_r. repeat split; constructor.
  - pose proof (Multicast_Bind_grows a (or_multicast o n (if_id (snd pi)) a) w L F) as H.
    destruct (Multicast_Bind a (or_multicast o n (if_id (snd pi)) a) w) as [[c w'] [|]].
    + destruct H as [[c' ->] H]. specialize (H (fst pi) (if_id (snd pi))).
      specialize (IH (S n) (L ++ [mkMServer (if_id (snd pi)) (fst pi) a (Some c') None]) w' (mg_fresh _ _ _ _ _ H)).
      destruct (mstart_addrs o pi addrs (S n) (L ++ [mkMServer (if_id (snd pi)) (fst pi) a (Some c') None]) w') as [[[L' w''] e] n'].
      destruct IH as [IH1 IH2]. split.
      * eapply mgrows_trans; [|exact IH1]. eapply mgrows_weaken; [|exact H]. intros T. apply T.
      * intros He. destruct (IH2 He) as (new & -> & E & FF).
        exists (mkMServer (if_id (snd pi)) (fst pi) a (Some c') None :: new).
        rewrite <- app_assoc. split; [reflexivity|]. split; [cbn; rewrite E; reflexivity|].
        constructor; [cbn; eauto|exact FF].
    + split; [|discriminate]. eapply mgrows_weaken; [|exact H]. intros T. apply T.
Qed.

(** The (interface, address) pairs that a start should serve. *)
Definition endpoints (ifs : list iface) : list (nat * string) :=
  flat_map (fun i => match GetInterfaceAddresses i with Ok l => map (fun a => (if_id i, a)) l | _ => [] end) ifs.

Lemma mstart_ifs_grows o ifs : forall n L w, fresh w ->
  match mstart_ifs o ifs n L w with
  | (L', w', e) => mgrows (tidy_multicast o) L L' w w' /\
      (e = false -> exists new, L' = L ++ new /\
         map (fun s => (ms_if s, ms_addr s)) new = endpoints (map snd ifs) /\
         Forall (fun s => In (ms_ifi s) (map fst ifs) /\ (exists c, ms_conn s = Some c)) new)
  end.
Proof.
  induction ifs as [|i ifs IH]; intros n L w F; cbn [mstart_ifs].
  - split; [apply mgrows_refl; exact F|]. intros _. exists []. rewrite app_nil_r. repeat split; constructor.
  - unfold endpoints. cbn [map flat_map]. fold (endpoints (map snd ifs)).
    destruct (GetInterfaceAddresses (snd i)) as [addrs| |].
    + pose proof (mstart_addrs_grows o i addrs n L w F) as H.
      destruct (mstart_addrs o i addrs n L w) as [[[L1 w1] [|]] n1].
      * destruct H as [H _]. split; [exact H|discriminate].
      * destruct H as [H HX]. destruct (HX eq_refl) as (new & -> & E & FF).
        specialize (IH n1 (L ++ new) w1 (mg_fresh _ _ _ _ _ H)).
        destruct (mstart_ifs o ifs n1 (L ++ new) w1) as [[L2 w2] e2].
        destruct IH as [IH1 IH2]. split; [eapply mgrows_trans; eassumption|].
        intros He. destruct (IH2 He) as (new2 & -> & E2 & FF2).
        exists (new ++ new2). rewrite app_assoc. split; [reflexivity|].
        split; [rewrite map_app, E, E2; reflexivity|].
        apply Forall_app. split.
        -- eapply Forall_impl; [|exact FF]. cbn. intros s [-> Hs]. auto.
        -- eapply Forall_impl; [|exact FF2]. cbn. intros s [Hs1 Hs]. auto.
    + specialize (IH n L w F). destruct (mstart_ifs o ifs n L w) as [[L' w'] e'].
      destruct IH as [IH1 IH2]. split; [exact IH1|]. intros He.
      destruct (IH2 He) as (new & -> & E & FF). exists new. repeat split; auto.
      eapply Forall_impl; [|exact FF]. cbn. intros s [Hs1 Hs]. auto.
    + specialize (IH n L w F). destruct (mstart_ifs o ifs n L w) as [[L' w'] e'].
      destruct IH as [IH1 IH2]. split; [exact IH1|]. intros He.
      destruct (IH2 He) as (new & -> & E & FF). exists new. repeat split; auto.
      eapply Forall_impl; [|exact FF]. cbn. intros s [Hs1 Hs]. auto.
Qed.

(** ** Which unicast servers there are *)

(** What is known of a server started with oracle [o] for one of [ifs]. *)
Definition server_of (tcp : bool) (o : oracle) (ifs : list (iptr * iface)) (lo hi : Z) (u : userver) : Prop :=
  In (us_ifi u) (map fst ifs) /\ In (us_if u, us_addr u) (endpoints (map snd ifs)) /\ lo <= us_port u <= hi /\
  us_tcpEnabled u = tcp /\ us_reading u = true /\
  (exists n, or_udp o n (us_if u) (us_addr u) (us_port u) = BOk) /\
  (exists s, us_udp u = Some s) /\ (tcp = true -> exists s, us_tcp u = Some s).

Lemma server_of_mono tcp o ifs ifs' lo lo' hi hi' u : lo' <= lo -> hi <= hi' -> incl ifs ifs' ->
  server_of tcp o ifs lo hi u -> server_of tcp o ifs' lo' hi' u.
Proof.
  intros H1 H2 H3 (A & B & C & D). split; [|split; [|split; [lia|exact D]]].
  - apply in_map_iff in A as (x & <- & A). apply in_map. auto.
  - unfold endpoints in *. apply in_flat_map in B as (x & B & B'). apply in_flat_map. exists x. split; [|exact B'].
    apply in_map_iff in B as (y & <- & B). apply in_map. auto.
Qed.

Lemma UServer_Start_of tcp o n pi a port w u w' addrs :
  GetInterfaceAddresses (snd pi) = Ok addrs -> In a addrs -> fresh w ->
  UServer_Start tcp o n pi a port w = (Some u, w') -> server_of tcp o [pi] port port u.
Proof.
  intros EA Ha F E. pose proof (UServer_Start_grows tcp o n pi a port w [] F) as H. rewrite E in H.
  destruct H as (_ & H1 & H2 & H3 & H4 & H5 & H6 & H7 & H8).
  split; [left; congruence|]. split.
  { unfold endpoints. cbn. rewrite EA, app_nil_r, H1, H3. apply in_map_iff. eauto. }
  split; [lia|]. split; [exact H5|]. split; [exact H6|]. split; [|auto].
  exists n. rewrite H1, H3, H4. unfold UServer_Start, UDP_Bind in E.
  destruct (or_udp o n (if_id (snd pi)) a port); [reflexivity|discriminate E..].
Qed.

Lemma start_addrs_of tcp o pi port addrs0 : GetInterfaceAddresses (snd pi) = Ok addrs0 -> forall addrs s,
  incl addrs addrs0 -> fresh (st_world s) ->
  exists new, st_servers (start_addrs tcp o pi addrs port s) = st_servers s ++ new /\
    Forall (server_of tcp o [pi] port port) new /\
    (st_err (start_addrs tcp o pi addrs port s) = false -> (addrs <> [] \/ st_err s = false) ->
     map (fun u => (us_if u, us_addr u)) new = map (fun a => (if_id (snd pi), a)) addrs).
Proof.
  intros EA. induction addrs as [|a addrs IH]; intros s HI F; cbn [start_addrs].
  - exists []. rewrite app_nil_r. repeat split; constructor.
  - pose proof (UServer_Start_grows tcp o (st_n s) pi a port (st_world s) (st_servers s) F) as H.
    destruct (UServer_Start tcp o (st_n s) pi a port (st_world s)) as [[u|] w'] eqn:E.
    + destruct H as (H & H1 & H2 & H3 & _).
      destruct (IH (mkSt (st_servers s ++ [u]) w' false (S (st_n s)))) as (new & E1 & E2 & E3).
      * intros x Hx. apply HI. right. exact Hx.
      * apply (g_fresh _ _ _ _ _ H).
      * exists (u :: new). cbn [st_servers] in E1. rewrite E1, <- app_assoc. split; [reflexivity|]. split.
        -- constructor; [|exact E2]. eapply UServer_Start_of; eauto. apply HI. left. reflexivity.
        -- intros He _. cbn [map]. rewrite E3; [|exact He|right; reflexivity]. rewrite H1, H3. reflexivity.
    + exists []. rewrite app_nil_r. split; [reflexivity|]. split; [constructor|]. intros He. discriminate He.
Qed.

Lemma start_ifs_of tcp o port ifs : forall s, fresh (st_world s) ->
  exists new, st_servers (start_ifs tcp o ifs port s) = st_servers s ++ new /\
    Forall (server_of tcp o ifs port port) new.
Proof.
  induction ifs as [|i ifs IH]; intros s F; cbn [start_ifs].
  - exists []. rewrite app_nil_r. split; constructor.
  - destruct (GetInterfaceAddresses (snd i)) as [addrs| |] eqn:EA.
    + destruct (start_addrs_of tcp o i port addrs EA addrs s (incl_refl _) F) as (n1 & E1 & F1 & _).
      destruct (IH (start_addrs tcp o i addrs port s)) as (n2 & E2 & F2).
      { apply (g_fresh _ _ _ _ _ (start_addrs_grows tcp o i port addrs s F)). }
      exists (n1 ++ n2). rewrite E2, E1, app_assoc. split; [reflexivity|]. apply Forall_app. split.
      * eapply Forall_impl; [|exact F1]. intros u. apply server_of_mono; try lia. intros x [<-|[]]. left. reflexivity.
      * eapply Forall_impl; [|exact F2]. intros u. apply server_of_mono; try lia. intros x Hx. right. exact Hx.
    + destruct (IH s F) as (n2 & E2 & F2). exists n2. split; [exact E2|].
      eapply Forall_impl; [|exact F2]. intros u. apply server_of_mono; try lia. intros x Hx. right. exact Hx.
    + destruct (IH s F) as (n2 & E2 & F2). exists n2. split; [exact E2|].
      eapply Forall_impl; [|exact F2]. intros u. apply server_of_mono; try lia. intros x Hx. right. exact Hx.
Qed.

Lemma start_ifs_app tcp o port ifs1 ifs2 s :
  start_ifs tcp o (ifs1 ++ ifs2) port s = start_ifs tcp o ifs2 port (start_ifs tcp o ifs1 port s).
Proof. revert s. induction ifs1 as [|i ifs1 IH]; intros s; cbn; auto. Qed.

(** A successful round has bound every address of the last interface. *)
Lemma start_ifs_last tcp o port pre i addrs s : fresh (st_world s) ->
  GetInterfaceAddresses (snd i) = Ok addrs -> addrs <> [] ->
  st_err (start_ifs tcp o (pre ++ [i]) port s) = false ->
  forall a, In a addrs -> exists u, In u (st_servers (start_ifs tcp o (pre ++ [i]) port s)) /\
    us_if u = if_id (snd i) /\ us_addr u = a /\ us_port u = port.
Proof.
  intros F EA HA. rewrite start_ifs_app. cbn [start_ifs]. rewrite EA.
  intros He a Ha.
  assert (F1 : fresh (st_world (start_ifs tcp o pre port s)))
    by apply (g_fresh _ _ _ _ _ (start_ifs_grows tcp o port pre s F)).
  destruct (start_addrs_of tcp o i port addrs EA addrs _ (incl_refl _) F1) as (new & E1 & F2 & E3).
  specialize (E3 He (or_introl HA)).
  assert (Hin : In (if_id (snd i), a) (map (fun u => (us_if u, us_addr u)) new)).
  { rewrite E3. apply in_map_iff. eauto. }
  apply in_map_iff in Hin as (u & Eu & Hu). injection Eu as E1' E2'.
  exists u. rewrite E1, in_app_iff. split; [auto|]. split; [exact E1'|]. split; [exact E2'|].
  rewrite Forall_forall in F2. destruct (F2 u Hu) as (_ & _ & Hp & _). lia.
Qed.

Lemma start_retry_last tcp o ifs port k : forall s, fresh (st_world s) ->
  exists s0, fresh (st_world s0) /\ start_retry tcp o ifs port k s = start_ifs tcp o ifs port s0.
Proof.
  induction k as [|k IH]; intros s F; cbn [start_retry].
  - exists s. split; [exact F|]. destruct (st_err (start_ifs tcp o ifs port s)); reflexivity.
  - destruct (st_err (start_ifs tcp o ifs port s)) eqn:E; [|eauto].
    apply IH. apply (g_fresh _ _ _ _ _ (start_ifs_grows tcp o port ifs s F)).
Qed.

Lemma start_ports_last tcp auto retry o ifs k : forall port s, fresh (st_world s) ->
  exists s0 p, fresh (st_world s0) /\ port <= p <= port + Z.of_nat k /\
    fst (start_ports tcp auto retry o ifs port k s) = start_ifs tcp o ifs p s0 /\
    (st_err (fst (start_ports tcp auto retry o ifs port k s)) = false ->
     snd (start_ports tcp auto retry o ifs port k s) = Some p).
Proof.
  induction k as [|k IH]; intros port s F; cbn [start_ports];
    destruct (start_retry_last tcp o ifs port (if auto then O else retry) s F) as (s0 & F0 & E0);
    destruct (st_err (start_retry tcp o ifs port (if auto then O else retry) s)) eqn:Ee; cbn [fst snd].
  - exists s0, port. split; [exact F0|]. split; [lia|]. split; [exact E0|]. congruence.
  - exists s0, port. split; [exact F0|]. split; [lia|]. split; [exact E0|]. reflexivity.
  - destruct (IH (port + 1) (start_retry tcp o ifs port (if auto then O else retry) s)) as (s1 & p & H1 & H2 & H3 & H4).
    { apply (g_fresh _ _ _ _ _ (start_retry_grows tcp o port ifs _ s F)). }
    exists s1, p. split; [exact H1|]. split; [lia|]. split; [exact H3|exact H4].
  - exists s0, port. split; [exact F0|]. split; [lia|]. split; [exact E0|]. reflexivity.
Qed.

Lemma start_retry_of tcp o ifs port k : forall s, fresh (st_world s) ->
  exists new, st_servers (start_retry tcp o ifs port k s) = st_servers s ++ new /\
    Forall (server_of tcp o ifs port port) new.
Proof.
  induction k as [|k IH]; intros s F; cbn [start_retry];
    destruct (start_ifs_of tcp o port ifs s F) as (n1 & E1 & F1);
    destruct (st_err (start_ifs tcp o ifs port s)); eauto.
  destruct (IH (start_ifs tcp o ifs port s)) as (n2 & E2 & F2).
  { apply (g_fresh _ _ _ _ _ (start_ifs_grows tcp o port ifs s F)). }
  exists (n1 ++ n2). rewrite E2, E1, app_assoc. split; [reflexivity|]. apply Forall_app. auto.
Qed.

Lemma start_ports_of tcp auto retry o ifs k : forall port s, fresh (st_world s) ->
  exists new, st_servers (fst (start_ports tcp auto retry o ifs port k s)) = st_servers s ++ new /\
    Forall (server_of tcp o ifs port (port + Z.of_nat k)) new.
Proof.
  induction k as [|k IH]; intros port s F; cbn [start_ports];
    destruct (start_retry_of tcp o ifs port (if auto then O else retry) s F) as (n1 & E1 & F1);
    destruct (st_err (start_retry tcp o ifs port (if auto then O else retry) s)); cbn [fst snd].
  - exists n1. split; [exact E1|]. eapply Forall_impl; [|exact F1]. intros u. apply server_of_mono; try lia. apply incl_refl.
  - exists n1. split; [exact E1|]. eapply Forall_impl; [|exact F1]. intros u. apply server_of_mono; try lia. apply incl_refl.
  - destruct (IH (port + 1) (start_retry tcp o ifs port (if auto then O else retry) s)) as (n2 & E2 & F2).
    { apply (g_fresh _ _ _ _ _ (start_retry_grows tcp o port ifs _ s F)). }
    exists (n1 ++ n2). rewrite E2, E1, app_assoc. split; [reflexivity|]. apply Forall_app. split.
    + eapply Forall_impl; [|exact F1]. intros u. apply server_of_mono; try lia. apply incl_refl.
    + eapply Forall_impl; [|exact F2]. intros u. apply server_of_mono; try lia. apply incl_refl.
  - exists n1. split; [exact E1|]. eapply Forall_impl; [|exact F1]. intros u. apply server_of_mono; try lia. apply incl_refl.
Qed.

(** Binds that all succeed. *)
Definition binds_ok (tcp : bool) (o : oracle) (i : nat) : Prop :=
  (forall n a p, or_udp o n i a p = BOk) /\ (tcp = true -> forall n a p, or_tcp o n i a p = BOk).

Lemma UServer_Start_ok tcp o n pi a port w : binds_ok tcp o (if_id (snd pi)) ->
  exists u w', UServer_Start tcp o n pi a port w = (Some u, w').
Proof.
  intros [H1 H2]. unfold UServer_Start, UDP_Bind, TCP_Bind. rewrite H1. cbn [open_socket].
  destruct tcp; [rewrite H2 by reflexivity|]; cbn [open_socket]; eauto.
Qed.

Lemma start_addrs_ok tcp o pi port : binds_ok tcp o (if_id (snd pi)) -> forall addrs s,
  (addrs <> [] \/ st_err s = false) -> st_err (start_addrs tcp o pi addrs port s) = false.
Proof.
  intros HB. induction addrs as [|a addrs IH]; intros s Hs; cbn [start_addrs]; [destruct Hs; congruence|].
  destruct (UServer_Start_ok tcp o (st_n s) pi a port (st_world s) HB) as (u & w' & E). rewrite E.
  apply IH. right. reflexivity.
Qed.

(** A round is a success as soon as the last interface can be bound. *)
Lemma start_ifs_last_ok tcp o port pre i addrs s :
  GetInterfaceAddresses (snd i) = Ok addrs -> addrs <> [] -> binds_ok tcp o (if_id (snd i)) ->
  st_err (start_ifs tcp o (pre ++ [i]) port s) = false.
Proof.
  intros EA HA HB. rewrite start_ifs_app. cbn [start_ifs]. rewrite EA.
  apply start_addrs_ok; auto.
Qed.

Lemma start_ports_first tcp auto retry o ifs port k s :
  st_err (start_ifs tcp o ifs port s) = false ->
  start_ports tcp auto retry o ifs port k s = (start_ifs tcp o ifs port s, Some port).
Proof.
  intros He.
  assert (E : forall j, start_retry tcp o ifs port j s = start_ifs tcp o ifs port s).
  { intros [|j]; cbn [start_retry]; rewrite He; reflexivity. }
  destruct k; cbn [start_ports]; rewrite E, He; reflexivity.
Qed.

(** When every bind succeeds there is exactly one server per endpoint. *)
Lemma start_ifs_all tcp o port ifs : (forall i, In i ifs -> binds_ok tcp o (if_id (snd i))) -> forall s,
  fresh (st_world s) -> st_err s = false ->
  st_err (start_ifs tcp o ifs port s) = false /\
  exists new, st_servers (start_ifs tcp o ifs port s) = st_servers s ++ new /\
    map (fun u => (us_if u, us_addr u)) new = endpoints (map snd ifs).
Proof.
  induction ifs as [|i ifs IH]; intros HB s F He; cbn [start_ifs].
  - split; [exact He|]. exists []. rewrite app_nil_r. split; reflexivity.
  - unfold endpoints. cbn [map flat_map]. fold (endpoints (map snd ifs)).
    assert (HB' : forall i0, In i0 ifs -> binds_ok tcp o (if_id (snd i0))) by (intros; apply HB; right; assumption).
    destruct (GetInterfaceAddresses (snd i)) as [addrs| |] eqn:EA; [|apply IH; auto..].
    pose proof (start_addrs_ok tcp o i port (HB i (or_introl eq_refl)) addrs s (or_intror He)) as E0.
    destruct (start_addrs_of tcp o i port addrs EA addrs s (incl_refl _) F) as (n1 & E1 & _ & E3).
    destruct (IH HB' (start_addrs tcp o i addrs port s)) as (E4 & n2 & E5 & E6).
    { apply (g_fresh _ _ _ _ _ (start_addrs_grows tcp o i port addrs s F)). }
    { exact E0. }
    split; [exact E4|]. exists (n1 ++ n2). rewrite E5, E1, app_assoc. split; [reflexivity|].
    rewrite map_app, E6, E3; auto.
Qed.

(** ** The available interfaces *)

Lemma number_from_snd c l : forall n, map snd (number_from c n l) = l.
Proof. induction l as [|i l IH]; intros n; cbn; [reflexivity|]. rewrite IH. reflexivity. Qed.
Lemma number_from_fst c l : forall n p, In p (map fst (number_from c n l)) -> fst p = c.
Proof. induction l as [|i l IH]; intros n p; cbn; [tauto|]. intros [<-|H]; [reflexivity|eauto]. Qed.

Lemma available_spec local l : GetAvailableInterfaces local = Ok l ->
  l <> [] /\ forall i, In i l -> exists addrs, GetInterfaceAddresses i = Ok addrs /\ addrs <> [].
Proof.
  unfold GetAvailableInterfaces. destruct local as [all|]; [|discriminate].
  destruct (filter available all) as [|x l0] eqn:E; [discriminate|]. intros H. injection H as <-.
  split; [discriminate|]. intros i Hi. rewrite <- E in Hi. apply filter_In in Hi as [_ Hi].
  unfold available in Hi. destruct (GetInterfaceAddresses i) as [addrs| |] eqn:EA;
    [|rewrite andb_false_r in Hi; discriminate Hi..].
  exists addrs. split; [reflexivity|]. unfold GetInterfaceAddresses in EA.
  destruct (if_addrs i) as [as0|]; [|discriminate EA].
  destruct (collect_addrs as0); [discriminate EA|]. injection EA as <-. discriminate.
Qed.

Lemma endpoints_nonempty l : l <> [] ->
  (forall i, In i l -> exists addrs, GetInterfaceAddresses i = Ok addrs /\ addrs <> []) -> endpoints l <> [].
Proof.
  destruct l as [|i l]; [congruence|]. intros _ H. destruct (H i (or_introl eq_refl)) as (addrs & E & HA).
  unfold endpoints. cbn. rewrite E. destruct addrs; [congruence|]. discriminate.
Qed.

(** ** Start *)

Lemma getAppropriate_some us p : us <> [] -> exists n, getAppropriateServerForInterface us p = Some n.
Proof.
  intros H. unfold getAppropriateServerForInterface. destruct us as [|u us]; [congruence|].
  destruct (find_ifi p (u :: us) 0); eauto.
Qed.

Lemma setUnicast_some l us : us <> [] ->
  exists l', setUnicastManager l us = Some l' /\ flat_map mheld l' = flat_map mheld l /\
    map (fun s => (ms_if s, ms_addr s)) l' = map (fun s => (ms_if s, ms_addr s)) l /\
    map ms_conn l' = map ms_conn l /\
    Forall (fun s => ms_unicast s = getAppropriateServerForInterface us (ms_ifi s)) l' /\
    map ms_ifi l' = map ms_ifi l.
Proof.
  intros H. induction l as [|s l IH]; cbn [setUnicastManager].
  - exists []. repeat split; constructor.
  - destruct (getAppropriate_some us (ms_ifi s) H) as [n E]. rewrite E.
    destruct IH as (l' & -> & E1 & E2 & E3 & E4 & E5). eexists. split; [reflexivity|].
    cbn [flat_map map]. rewrite E1, E2, E3, E5. repeat split; auto; try (constructor; [cbn; congruence|exact E4]).
Qed.

Lemma find_ifi_none p us : forall n, (forall u, In u us -> us_ifi u <> p) -> find_ifi p us n = None.
Proof.
  induction us as [|u us IH]; intros n H; cbn [find_ifi]; [reflexivity|].
  replace (iptr_eqb (us_ifi u) p) with false.
  - apply IH. intros u' Hu'. apply H. right. exact Hu'.
  - symmetry. apply not_true_is_false. intros E. apply (H u (or_introl eq_refl)).
    unfold iptr_eqb in E. apply andb_prop in E as [E1 E2].
    apply Nat.eqb_eq in E1. apply Nat.eqb_eq in E2. destruct (us_ifi u), p. cbn in *. congruence.
Qed.

Definition same_config (m m' : manager) : Prop :=
  mg_tcp m' = mg_tcp m /\ mg_auto m' = mg_auto m /\ mg_retry m' = mg_retry m.

(** What a successful start of the whole transport establishes. *)
Record started (sd_ifs sd_ifs' : list iface) (m m' : manager) (so : start_oracle) (w' : world) : Prop := mkStarted {
  sd_local : GetAvailableInterfaces (so_local so) = Ok sd_ifs;
  sd_local' : GetAvailableInterfaces (so_local' so) = Ok sd_ifs';
  sd_multicast : map (fun s => (ms_if s, ms_addr s)) (mg_multicast m') = endpoints sd_ifs';
  sd_mopen : Forall (fun s => exists c, ms_conn s = Some c /\ In c (w_open w')) (mg_multicast m');
  sd_of : Forall (fun u => exists c, server_of (mg_tcp m) (so_unicast so) (number_from c 0 sd_ifs)
             (mg_port m) (mg_port m + if mg_auto m then 100 else 0) u) (mg_unicast m');
  sd_uopen : forall x, In x (flat_map uheld (mg_unicast m')) -> In x (w_open w');
  sd_last : forall pre i, sd_ifs = pre ++ [i] -> forall addrs a, GetInterfaceAddresses i = Ok addrs -> In a addrs ->
             exists u, In u (mg_unicast m') /\ us_if u = if_id i /\ us_addr u = a /\ us_port u = mg_port m';
  sd_port : mg_port m <= mg_port m' <= mg_port m + if mg_auto m then 100 else 0;
  sd_answer : Forall (fun s => ms_unicast s = Some O) (mg_multicast m') }.

Lemma UManager_Start_spec m o stop local w : mg_unicast m = [] -> fresh w ->
  exists m' w' e, UManager_Start m o stop local w = Ok (m', w', e) /\ same_config m m' /\
    mg_multicast m' = mg_multicast m /\
    grows (tidy_unicast (mg_tcp m) o) [] (mg_unicast m') w (mkWorld (w_open w') (w_next w') (w_calls w)) /\
    (w_calls w < w_calls w')%nat /\
    (e = false -> exists ifs, GetAvailableInterfaces local = Ok ifs /\
       Forall (server_of (mg_tcp m) o (number_from (w_calls w) 0 ifs) (mg_port m)
                 (mg_port m + if mg_auto m then 100 else 0)) (mg_unicast m') /\
       mg_port m <= mg_port m' <= mg_port m + (if mg_auto m then 100 else 0) /\
       forall pre i, ifs = pre ++ [i] -> forall addrs a, GetInterfaceAddresses i = Ok addrs -> In a addrs ->
         exists u, In u (mg_unicast m') /\ us_if u = if_id i /\ us_addr u = a /\ us_port u = mg_port m').
Proof.
  intros EU F. unfold UManager_Start, UManager_Stop. rewrite EU. cbn [stop_unicast bind fst snd].
  cbn [mg_unicast with_unicast mg_tcp mg_auto mg_retry mg_port].
  unfold list_interfaces. destruct (GetAvailableInterfaces local) as [ifs| |] eqn:EL; cbn [bind].
  2, 3: eexists _, _, true; split; [reflexivity|]; split; [repeat split|]; split; [reflexivity|];
        split; [destruct (grows_refl (tidy_unicast (mg_tcp m) o) [] w F); split; auto|]; split; [cbn; lia|discriminate].
  set (w1 := mkWorld (w_open w) (w_next w) (S (w_calls w))).
  set (k := if mg_auto m then UDPPortRange else O).
  set (nifs := number_from (w_calls w) 0 ifs).
  assert (F1 : fresh (st_world (mkSt [] w1 false 0))) by exact F.
  pose proof (start_ports_grows (mg_tcp m) (mg_auto m) (mg_retry m) o nifs k (mg_port m) _ F1) as HG.
  destruct (start_ports_of (mg_tcp m) (mg_auto m) (mg_retry m) o nifs k (mg_port m) _ F1) as (new & EN & FN).
  destruct (start_ports_last (mg_tcp m) (mg_auto m) (mg_retry m) o nifs k (mg_port m) _ F1) as (s0 & p & F0 & Hp & E1 & E2).
  destruct (start_ports (mg_tcp m) (mg_auto m) (mg_retry m) o nifs (mg_port m) k (mkSt [] w1 false 0)) as [s po].
  cbn [fst snd] in *. cbn [st_servers app] in EN.
  assert (Hk : Z.of_nat k = if mg_auto m then 100 else 0) by (unfold k; destruct (mg_auto m); reflexivity).
  rewrite Hk in *.
  eexists _, _, _. split; [reflexivity|].
  split; [destruct po; repeat split|]. split; [destruct po; reflexivity|].
  unfold st_grows in HG. cbn [st_servers st_world] in HG.
  assert (EM : mg_unicast (match po with Some p0 => with_port (with_unicast (with_unicast m []) (st_servers s)) p0
                 | None => with_unicast (with_unicast m []) (st_servers s) end) = st_servers s) by (destruct po; reflexivity).
  rewrite EM. destruct HG as [G1 G2 G3 G4 G5].
  split; [split; auto|]. split; [rewrite G5; cbn; lia|].
  intros He. exists ifs. split; [reflexivity|]. rewrite (E2 He). cbn [mg_port with_port].
  split; [rewrite EN; exact FN|]. split; [exact Hp|].
  intros pre i Ei addrs a EA Ha. rewrite E1. unfold nifs.
  assert (ENU : exists c n, number_from (w_calls w) 0 ifs = number_from (w_calls w) 0 pre ++ [((c, n), i)]).
  { rewrite Ei. clear. generalize 0%nat. induction pre as [|x pre IH]; intros n; cbn; [eauto|].
    destruct (IH (S n)) as (c & n' & ->). eauto. }
  destruct ENU as (c & n & ENU). rewrite ENU.
  apply (start_ifs_last (mg_tcp m) o p (number_from (w_calls w) 0 pre) ((c, n), i) addrs s0 F0 EA).
  - intros ->. destruct Ha.
  - rewrite E1 in He. unfold nifs in He. rewrite ENU in He. exact He.
  - exact Ha.
Qed.

Lemma MManager_Start_spec m o stop stop2 local w : mg_multicast m = [] -> fresh w ->
  exists m' w' e, MManager_Start m o stop stop2 local w = (m', w', e) /\ same_config m m' /\
    mg_port m' = mg_port m /\ mg_unicast m' = mg_unicast m /\
    fresh w' /\ (forall x, In x (w_open w) -> (x < w_next w')%nat) /\
    (e = true -> mg_multicast m' = [] /\
                 (tidy_multicast o -> forall x, In x (w_open w') -> In x (w_open w))) /\
    (e = false -> mgrows (tidy_multicast o) [] (mg_multicast m') w (mkWorld (w_open w') (w_next w') (w_calls w)) /\
       exists ifs, GetAvailableInterfaces local = Ok ifs /\
       map (fun s => (ms_if s, ms_addr s)) (mg_multicast m') = endpoints ifs /\
       Forall (fun s => fst (ms_ifi s) = w_calls w /\ exists c, ms_conn s = Some c) (mg_multicast m')).
Proof.
  intros EU F. unfold MManager_Start, MManager_Stop. rewrite EU. cbn [stop_multicast].
  unfold list_interfaces. destruct (GetAvailableInterfaces local) as [ifs| |] eqn:EL; cbn [bind].
  2, 3: eexists _, _, true; split; [reflexivity|]; split; [repeat split|]; split; [reflexivity|];
        split; [reflexivity|]; split; [exact F|]; split; [exact F|]; split; [split; [reflexivity|auto]|discriminate].
  set (w1 := mkWorld (w_open w) (w_next w) (S (w_calls w))).
  set (nifs := number_from (w_calls w) 0 ifs).
  assert (F1 : fresh w1) by exact F.
  pose proof (mstart_ifs_grows o nifs 0 [] w1 F1) as H.
  destruct (mstart_ifs o nifs 0 [] w1) as [[l w2] [|]]; destruct H as [HG HX].
  - cbn [mg_multicast with_multicast].
    pose proof (stop_multicast_ok l stop2 0 w2) as (C1 & C2 & C3).
    destruct (stop_multicast l stop2 0 w2) as [w3 e3]. cbn [fst] in *.
    destruct HG as [(new & E & O1 & T1) G2 G3 G4]. cbn [app] in E. subst new.
    eexists _, _, true. split; [reflexivity|]. split; [repeat split|]. split; [reflexivity|]. split; [reflexivity|].
    split; [intros x Hx; rewrite C2; apply G3; apply C1; exact Hx|].
    split; [intros x Hx; rewrite C2; apply G3, G2; exact Hx|].
    split; [|discriminate]. intros _. split; [reflexivity|].
    intros HT x Hx. apply C1 in Hx as [H1 H2]. destruct (T1 HT x H1); [assumption|contradiction].
  - destruct HG as [G1 G2 G3 G4]. destruct (HX eq_refl) as (new & E & EM & FM). cbn [app] in E. subst new.
    eexists _, _, false. split; [reflexivity|]. split; [repeat split|]. split; [reflexivity|]. split; [reflexivity|].
    split; [exact G3|]. split; [intros x Hx; apply G3, G2; exact Hx|]. split; [discriminate|].
    intros _. cbn [mg_multicast with_multicast]. split; [split; auto|].
    exists ifs. split; [reflexivity|].
    unfold nifs in EM. rewrite number_from_snd in EM. split; [exact EM|].
    eapply Forall_impl; [|exact FM]. cbn. intros s [Hs Hc]. split; [|exact Hc].
    apply (number_from_fst (w_calls w) ifs 0). exact Hs.
Qed.

Lemma Manager_Start_spec m so w : Forall stoppable (mg_unicast m) -> fresh w ->
  exists m' w' e, Manager_Start m so w = Ok (m', w', e) /\ same_config m m' /\
    Forall stoppable (mg_unicast m') /\ fresh w' /\
    (e = true -> mg_multicast m' = []) /\
    (e = false -> exists ifs ifs', started ifs ifs' m m' so w') /\
    (tidy_unicast (mg_tcp m) (so_unicast so) -> tidy_multicast (so_multicast so) ->
     incl (w_open w) (held m) -> incl (w_open w') (held m')).
Proof.
  intros HS F. unfold Manager_Start.
  destruct (Manager_Stop_ok m (so_stop so 0) (so_stop so 1) w HS) as (w1 & e1 & E1 & C1 & N1 & K1).
  rewrite E1. cbn [bind].
  assert (F1 : fresh w1) by (intros x Hx; rewrite N1; apply F, C1, Hx).
  assert (Z1 : incl (w_open w) (held m) -> w_open w1 = []).
  { intros HI. destruct (w_open w1) as [|x l] eqn:E; [reflexivity|].
    destruct (proj1 (C1 x) (or_introl eq_refl)) as [H1 H2]. exfalso. auto. }
  destruct e1.
  { eexists _, _, true. split; [reflexivity|]. split; [repeat split|]. split; [constructor|]. split; [exact F1|].
    split; [reflexivity|]. split; [discriminate|]. intros _ _ HI. rewrite (Z1 HI). intros x []. }
  destruct (UManager_Start_spec (stopped m) (so_unicast so) (so_stop so 2) (so_local so) w1 eq_refl F1)
    as (m2 & w2 & e2 & E2 & SC2 & M2 & G2 & L2 & X2).
  rewrite E2. cbn [bind]. destruct G2 as [(new & EN & S2 & O2 & T2) K2 F2 N2 _]. cbn [app] in EN. subst new.
  cbn [w_open w_next] in *. change (mg_multicast (stopped m)) with (@nil mserver) in M2.
  destruct e2.
  { eexists _, _, true. split; [reflexivity|]. split; [exact SC2|]. split; [exact S2|]. split; [exact F2|].
    split; [intros _; exact M2|]. split; [discriminate|].
    intros HT _ HI x Hx. unfold held. rewrite in_app_iff. left.
    destruct (T2 HT x Hx) as [H|H]; [|exact H]. rewrite (Z1 HI) in H. destruct H. }
  destruct (X2 eq_refl) as (ifs & EL & FS & HP & HLast).
  destruct (MManager_Start_spec m2 (so_multicast so) (so_stop so 3) (so_stop so 4) (so_local' so) w2 M2)
    as (m3 & w3 & e3 & E3 & SC3 & P3 & U3 & F3 & N3 & X3 & Y3).
  { exact F2. }
  rewrite E3.
  assert (SC : same_config m m3).
  { destruct SC2 as (A1 & A2 & A3), SC3 as (B1 & B2 & B3). repeat split; [rewrite B1, A1|rewrite B2, A2|rewrite B3, A3]; reflexivity. }
  assert (S3 : Forall stoppable (mg_unicast m3)) by (rewrite U3; exact S2).
  destruct e3.
  { unfold give_up. destruct (Manager_Stop_ok m3 (so_stop so 5) (so_stop so 6) w3 S3) as (w4 & e4 & E4 & C4 & N4 & K4).
    rewrite E4. cbn [bind]. eexists _, _, true. split; [reflexivity|]. split; [exact SC|]. split; [constructor|].
    split; [intros x Hx; rewrite N4; apply F3, C4, Hx|]. split; [reflexivity|]. split; [discriminate|].
    intros HT HM HI x Hx. exfalso. apply C4 in Hx as [H1 H2]. destruct (X3 eq_refl) as [M3 T3].
    apply T3 in H1; [|exact HM]. apply H2. unfold held. rewrite in_app_iff, U3. left.
    destruct (T2 HT x H1) as [H|H]; [|exact H]. rewrite (Z1 HI) in H. destruct H. }
  destruct (Y3 eq_refl) as (G3 & ifs' & EL' & EM' & FM').
  destruct (available_spec _ _ EL) as [Hne Haddr].
  assert (HU : mg_unicast m3 <> []).
  { rewrite U3. destruct (exists_last Hne) as (pre & i & Ei).
    destruct (Haddr i) as (addrs & EA & HA); [rewrite Ei, in_app_iff; right; left; reflexivity|].
    destruct addrs as [|a addrs]; [congruence|].
    destruct (HLast pre i Ei _ a EA (or_introl eq_refl)) as (u & Hu & _). intros HH. rewrite HH in Hu. destruct Hu. }
  destruct (setUnicast_some (mg_multicast m3) (mg_unicast m3) HU) as (l' & EL2 & H1 & H2 & H3 & H4 & H5).
  rewrite EL2. eexists _, _, false. split; [reflexivity|]. split; [exact SC|].
  cbn [mg_unicast mg_multicast with_port with_multicast]. split; [exact S3|]. split; [exact F3|].
  split; [discriminate|].
  destruct G3 as [(new & EN & O3 & T3) K3 _ _]. cbn [app] in EN. subst new. cbn [w_open] in *.
  split.
  - intros _. exists ifs, ifs'. split; cbn [mg_unicast mg_multicast mg_port with_port with_multicast]; auto.
    + rewrite H2. exact EM'.
    + rewrite Forall_forall. intros s Hs.
      assert (Hc : In (ms_conn s) (map ms_conn (mg_multicast m3))) by (rewrite <- H3; apply in_map; exact Hs).
      apply in_map_iff in Hc as (s' & Ec & Hs'). rewrite Forall_forall in FM'.
      destruct (FM' s' Hs') as [_ (c & Hc)]. exists c. split; [congruence|].
      apply O3. apply in_flat_map. exists s'. split; [exact Hs'|]. unfold mheld. rewrite Hc. left. reflexivity.
    + rewrite U3. eapply Forall_impl; [|exact FS]. intros u Hu. eexists. exact Hu.
    + intros x Hx. apply K3, O2. rewrite <- U3. exact Hx.
    + intros pre i Ei addrs a EA Ha. destruct (HLast pre i Ei addrs a EA Ha) as (u & Hu & A1 & A2 & A3).
      exists u. rewrite U3, P3. auto.
    + rewrite P3. exact HP.
    + (* the pointers of the two listings differ *)
      rewrite Forall_forall. intros s Hs. rewrite Forall_forall in H4. rewrite (H4 s Hs).
      unfold getAppropriateServerForInterface.
      rewrite find_ifi_none; [destruct (mg_unicast m3); [congruence|reflexivity]|].
      intros u Hu Hp.
      assert (Hc : In (ms_ifi s) (map ms_ifi (mg_multicast m3))) by (rewrite <- H5; apply in_map; exact Hs).
      apply in_map_iff in Hc as (s' & Ec & Hs'). rewrite Forall_forall in FM'.
      destruct (FM' s' Hs') as [Hcall _]. rewrite U3 in Hu. rewrite Forall_forall in FS.
      destruct (FS u Hu) as (Hin & _). apply number_from_fst in Hin.
      rewrite Hp, <- Ec, Hcall in Hin. lia.
  - intros HT HM HI x Hx. unfold held. cbn [mg_unicast mg_multicast with_port with_multicast].
    rewrite H1, in_app_iff, U3. destruct (T3 HM x Hx) as [H|H]; [|tauto].
    left. destruct (T2 HT x H) as [HH|HH]; [|exact HH]. rewrite (Z1 HI) in HH. destruct HH.
Qed.

(** ** Histories *)

Definition good (st : manager * world) : Prop := Forall stoppable (mg_unicast (fst st)) /\ fresh (snd st).

Lemma good_new tcp auto retry port : good (NewManager tcp auto retry port, new_world).
Proof. split; [constructor|intros x []]. Qed.

Lemma Forall_split_nth {A} (P : A -> Prop) l k a b : nth_error l k = Some a -> (P a -> P b) ->
  Forall P l -> Forall P (firstn k l ++ b :: skipn (S k) l).
Proof.
  intros E HP H. apply nth_error_split in E as (l1 & l2 & -> & <-).
  rewrite firstn_app, firstn_all, Nat.sub_diag. cbn [firstn]. rewrite app_nil_r.
  rewrite skipn_app, skipn_all2 by lia. replace (S (length l1) - length l1)%nat with 1%nat by lia. cbn [app skipn].
  apply Forall_app in H as [H1 H2]. inv H2. apply Forall_app. split; [exact H1|]. constructor; auto.
Qed.

Lemma flat_map_split_nth {A B} (f : A -> list B) l k a : nth_error l k = Some a ->
  forall x, In x (flat_map f l) <-> In x (flat_map f (firstn k l ++ skipn (S k) l)) \/ In x (f a).
Proof.
  intros E x. apply nth_error_split in E as (l1 & l2 & -> & <-).
  rewrite firstn_app, firstn_all, Nat.sub_diag. cbn [firstn]. rewrite app_nil_r.
  rewrite skipn_app, skipn_all2 by lia. replace (S (length l1) - length l1)%nat with 1%nat by lia. cbn [app skipn].
  rewrite !flat_map_app. cbn [flat_map]. rewrite !in_app_iff. tauto.
Qed.

Lemma step_good m w op : good (m, w) ->
  exists m' w' e, transport_step (m, w) op = Ok (m', w', e) /\ good (m', w').
Proof.
  intros [HS F]. cbn [fst snd] in *. destruct op as [so|o o'|tcp auto|p|k|k]; cbn [transport_step].
  - destruct (Manager_Start_spec m so w HS F) as (m' & w' & e & E & _ & S' & F' & _). exists m', w', e. split; [exact E|split; auto].
  - destruct (Manager_Stop_ok m o o' w HS) as (w' & e & E & C & N & _). exists (stopped m), w', e.
    split; [exact E|]. split; [constructor|]. intros x Hx. cbn [snd] in *. rewrite N. apply F, C, Hx.
  - eexists _, _, _. split; [reflexivity|]. split; assumption.
  - eexists _, _, _. split; [reflexivity|]. split; assumption.
  - eexists _, _, _. split; [reflexivity|]. split; [|assumption]. cbn [fst mg_unicast with_unicast]. unfold stop_reading.
    destruct (nth_error (mg_unicast m) k) as [s|] eqn:E; [|assumption].
    apply (Forall_split_nth _ _ _ s _ E); [|assumption]. intros H. exact H.
  - destruct (nth_error (mg_multicast m) k) as [s|] eqn:E; [|eexists _, _, _; split; [reflexivity|split; assumption]].
    eexists _, _, _. split; [reflexivity|]. split; [assumption|]. cbn [snd].
    eapply closed_fresh; [apply closed_opt|exact F].
Qed.

Lemma run_good ops : forall st, good st -> exists st', transport_run st ops = Ok st' /\ good st'.
Proof.
  induction ops as [|op ops IH]; intros [m w] G; cbn [transport_run]; [eauto|].
  destruct (step_good m w op G) as (m' & w' & e & E & G'). rewrite E. cbn [bind fst]. apply IH. exact G'.
Qed.

(** Operations that leave no socket behind, given whether TCP is enabled. *)
Definition tidy_op (tcp : bool) (op : transport_op) : Prop :=
  match op with
  | TStart so => tidy_unicast tcp (so_unicast so) /\ tidy_multicast (so_multicast so)
  | _ => True
  end.
Fixpoint tidy_ops (tcp : bool) (ops : list transport_op) : Prop :=
  match ops with
  | [] => True
  | op :: ops => tidy_op tcp op /\ tidy_ops (match op with TSetConfig t _ => t | _ => tcp end) ops
  end.

Lemma step_tidy m w op m' w' e : good (m, w) -> tidy_op (mg_tcp m) op -> incl (w_open w) (held m) ->
  transport_step (m, w) op = Ok (m', w', e) ->
  incl (w_open w') (held m') /\ mg_tcp m' = match op with TSetConfig t _ => t | _ => mg_tcp m end.
Proof.
  intros [HS F] HT HI E. cbn [fst snd] in *. destruct op as [so|o o'|tcp auto|p|k|k]; cbn [transport_step] in E.
  - destruct (Manager_Start_spec m so w HS F) as (m1 & w1 & e1 & E1 & SC & _ & _ & _ & _ & HX).
    rewrite E1 in E. inv E. destruct HT. split; [auto|apply SC].
  - destruct (Manager_Stop_ok m o o' w HS) as (w1 & e1 & E1 & C & N & _). rewrite E1 in E. inv E.
    split; [|reflexivity]. intros x Hx. exfalso. apply C in Hx as [H1 H2]. auto.
  - inv E. split; [exact HI|reflexivity].
  - inv E. split; [exact HI|reflexivity].
  - inv E. split; [|reflexivity]. intros x Hx. apply HI in Hx. unfold held in *.
    cbn [mg_unicast mg_multicast with_unicast]. rewrite in_app_iff in *. destruct Hx as [Hx|Hx]; [left|right; exact Hx].
    unfold stop_reading. destruct (nth_error (mg_unicast m) k) as [s|] eqn:En; [|exact Hx].
    apply (flat_map_split_nth uheld _ _ s En) in Hx. rewrite flat_map_app in *. cbn [flat_map] in *.
    rewrite !in_app_iff in *. cbn [uheld us_udp us_tcp]. unfold uheld at 2. cbn [us_udp us_tcp]. fold (uheld s). tauto.
  - destruct (nth_error (mg_multicast m) k) as [s|] eqn:En; inv E; [|split; [exact HI|reflexivity]].
    split; [|reflexivity]. intros x Hx. apply close_opt_open in Hx as [Hx Hn]. apply HI in Hx. unfold held in *.
    cbn [mg_unicast mg_multicast with_multicast]. rewrite in_app_iff in *. destruct Hx as [Hx|Hx]; [left; exact Hx|right].
    unfold drop_conn. rewrite En. apply (flat_map_split_nth mheld _ _ s En) in Hx.
    rewrite flat_map_app in *. cbn [flat_map] in *. rewrite !in_app_iff in *. unfold mheld in Hx at 3. tauto.
Qed.

Lemma run_tidy ops : forall m w m' w', good (m, w) -> tidy_ops (mg_tcp m) ops -> incl (w_open w) (held m) ->
  transport_run (m, w) ops = Ok (m', w') -> incl (w_open w') (held m').
Proof.
  induction ops as [|op ops IH]; intros m w m' w' G HT HI E; cbn [transport_run] in E.
  - inv E. exact HI.
  - destruct (step_good m w op G) as (m1 & w1 & e & E1 & G1). rewrite E1 in E. cbn [bind fst] in E.
    destruct HT as [HT1 HT2]. destruct (step_tidy m w op m1 w1 e G HT1 HI E1) as [HI1 ET].
    apply (IH m1 w1 m' w' G1); auto. rewrite ET. exact HT2.
Qed.

(** ** Errors and successes of a start *)

Lemma no_close_error s : close_err s false = false.
Proof. destruct s; reflexivity. Qed.

Lemma stop_unicast_no_error l o : (forall n, or_close o n = false) -> forall n w w' e,
  stop_unicast l o n w = Ok (w', e) -> e = false.
Proof.
  intros HC. induction l as [|s l IH]; intros n w w' e E; cbn [stop_unicast] in E; [inv E; reflexivity|].
  unfold UServer_Stop in E. rewrite !HC, !no_close_error in E.
  destruct (close_chan (us_udpChannel s)); cbn [bind] in E; [|discriminate E..].
  destruct (us_tcpEnabled s); [destruct (close_chan (us_tcpChannel s)); cbn [bind] in E; [|discriminate E..]|cbn [bind] in E].
  - cbn [fst snd orb] in E.
    destruct (stop_unicast l o (S n) (close_opt (us_tcp s) (close_opt (us_udp s) w))) as [[w2 e2]| |] eqn:E2;
      cbn [bind fst snd] in E; [|discriminate E..].
    apply IH in E2. inv E. reflexivity.
  - cbn [fst snd orb] in E.
    destruct (stop_unicast l o (S n) (close_opt (us_udp s) w)) as [[w2 e2]| |] eqn:E2;
      cbn [bind fst snd] in E; [|discriminate E..].
    apply IH in E2. inv E. reflexivity.
Qed.

Lemma stop_multicast_no_error l o : (forall n, or_close o n = false) -> forall n w,
  snd (stop_multicast l o n w) = false.
Proof.
  intros HC. induction l as [|s l IH]; intros n w; cbn [stop_multicast]; [reflexivity|].
  specialize (IH (S n) (close_opt (ms_conn s) w)).
  destruct (stop_multicast l o (S n) (close_opt (ms_conn s) w)) as [w' e]. cbn [snd] in *.
  rewrite HC, no_close_error. exact IH.
Qed.

Lemma Manager_Stop_no_error m o o' w m' w' e :
  (forall n, or_close o n = false) -> (forall n, or_close o' n = false) ->
  Manager_Stop m o o' w = Ok (m', w', e) -> e = false.
Proof.
  intros H1 H2 E. unfold Manager_Stop, MManager_Stop in E.
  pose proof (stop_multicast_no_error (mg_multicast m) o H1 0 w) as HM.
  destruct (stop_multicast (mg_multicast m) o 0 w) as [w1 e1]. cbn [snd] in HM. subst e1.
  unfold UManager_Stop in E. cbn [mg_unicast with_multicast] in E.
  destruct (stop_unicast (mg_unicast m) o' 0 w1) as [[w2 e2]| |] eqn:E2; cbn [bind fst snd] in E; [|discriminate E..].
  apply stop_unicast_no_error in E2; [|exact H2]. inv E. reflexivity.
Qed.

Lemma UServer_Start_fails tcp o n pi a port w : (forall n a p, or_udp o n (if_id (snd pi)) a p <> BOk) ->
  fst (UServer_Start tcp o n pi a port w) = None.
Proof.
  intros H. specialize (H n a port). unfold UServer_Start, UDP_Bind.
  destruct (or_udp o n (if_id (snd pi)) a port); [congruence|reflexivity..].
Qed.

Lemma start_ifs_last_fails tcp o port pre i addrs s :
  GetInterfaceAddresses (snd i) = Ok addrs -> addrs <> [] ->
  (forall n a p, or_udp o n (if_id (snd i)) a p <> BOk) ->
  st_err (start_ifs tcp o (pre ++ [i]) port s) = true.
Proof.
  intros EA HA HB. rewrite start_ifs_app. cbn [start_ifs]. rewrite EA.
  destruct addrs as [|a addrs]; [congruence|]. cbn [start_addrs].
  pose proof (UServer_Start_fails tcp o (st_n (start_ifs tcp o pre port s)) i a port (st_world (start_ifs tcp o pre port s)) HB) as E.
  destruct (UServer_Start tcp o (st_n (start_ifs tcp o pre port s)) i a port (st_world (start_ifs tcp o pre port s))) as [[u|] w'];
    cbn [fst] in E; [discriminate E|reflexivity].
Qed.

(** The servers of the first interface survive everything that follows. *)
Lemma start_ports_keeps tcp auto retry o i ifs addrs k port s : fresh (st_world s) ->
  GetInterfaceAddresses (snd i) = Ok addrs ->
  st_grows (tidy_unicast tcp o) (start_addrs tcp o i addrs port s)
    (fst (start_ports tcp auto retry o (i :: ifs) port k s)).
Proof.
  intros F EA.
  pose proof (start_addrs_grows tcp o i port addrs s F) as G0.
  pose proof (start_ifs_grows tcp o port ifs _ (g_fresh _ _ _ _ _ G0)) as G1.
  assert (E1 : start_ifs tcp o (i :: ifs) port s = start_ifs tcp o ifs port (start_addrs tcp o i addrs port s))
    by (cbn [start_ifs]; rewrite EA; reflexivity).
  assert (G2 : forall j, st_grows (tidy_unicast tcp o) (start_addrs tcp o i addrs port s)
                 (start_retry tcp o (i :: ifs) port j s)).
  { intros j. destruct j as [|j].
    - cbn [start_retry]. rewrite E1. destruct (st_err (start_ifs tcp o ifs port (start_addrs tcp o i addrs port s))); exact G1.
    - cbn [start_retry]. rewrite E1. destruct (st_err (start_ifs tcp o ifs port (start_addrs tcp o i addrs port s))); [|exact G1].
      eapply grows_trans; [exact G1|]. apply start_retry_grows. apply (g_fresh _ _ _ _ _ G1). }
  specialize (G2 (if auto then O else retry)).
  destruct k as [|k]; cbn [start_ports];
    destruct (st_err (start_retry tcp o (i :: ifs) port (if auto then O else retry) s)); try exact G2.
  eapply grows_trans; [exact G2|]. apply start_ports_grows. apply (g_fresh _ _ _ _ _ G2).
Qed.

(** What UManager_Start does when its first Stop succeeds. *)
Lemma UManager_Start_run m o stop local w ifs : mg_unicast m = [] ->
  GetAvailableInterfaces local = Ok ifs ->
  UManager_Start m o stop local w =
  let r := start_ports (mg_tcp m) (mg_auto m) (mg_retry m) o (number_from (w_calls w) 0 ifs) (mg_port m)
             (if mg_auto m then UDPPortRange else O)
             (mkSt [] (mkWorld (w_open w) (w_next w) (S (w_calls w))) false 0) in
  Ok (match snd r with
      | Some p => with_port (with_unicast (with_unicast m []) (st_servers (fst r))) p
      | None => with_unicast (with_unicast m []) (st_servers (fst r)) end,
      st_world (fst r), st_err (fst r)).
Proof.
  intros EU EL. unfold UManager_Start, UManager_Stop. rewrite EU. cbn [stop_unicast bind fst snd].
  unfold list_interfaces. rewrite EL. cbn [bind mg_tcp mg_auto mg_retry mg_port with_unicast].
  destruct (start_ports _ _ _ _ _ _ _ _) as [s po]. reflexivity.
Qed.

(** Multicast binds that all succeed. *)
Lemma mstart_addrs_ok o pi : (forall n a, or_multicast o n (if_id (snd pi)) a = BOk) -> forall addrs n L w,
  (forall a, In a addrs -> IsIPv4Address a || IsIPv6Address a = true) ->
  snd (fst (mstart_addrs o pi addrs n L w)) = false.
Proof.
  intros HO. induction addrs as [|a addrs IH]; intros n L w HA; cbn [mstart_addrs]; [reflexivity|].
  unfold Multicast_Bind. rewrite HA by (left; reflexivity). rewrite HO. cbn [open_socket].
  apply IH. intros x Hx. apply HA. right. exact Hx.
Qed.

Lemma mstart_ifs_ok o ifs : (forall n i a, or_multicast o n i a = BOk) ->
  (forall i a, In i ifs -> forall addrs, GetInterfaceAddresses (snd i) = Ok addrs -> In a addrs -> a <> EmptyString) ->
  forall n L w, snd (mstart_ifs o ifs n L w) = false.
Proof.
  intros HO. induction ifs as [|i ifs IH]; intros HA n L w; cbn [mstart_ifs]; [reflexivity|].
  assert (HA' : forall i0 a, In i0 ifs -> forall addrs, GetInterfaceAddresses (snd i0) = Ok addrs -> In a addrs -> a <> EmptyString).
  { intros i0 a Hi. apply HA. right. exact Hi. }
  destruct (GetInterfaceAddresses (snd i)) as [addrs| |] eqn:EA; [|apply IH; exact HA'..].
  pose proof (mstart_addrs_ok o i (fun n a => HO n _ a) addrs n L w) as E.
  destruct (mstart_addrs o i addrs n L w) as [[[L' w'] e] n']. cbn [fst snd] in E. rewrite E; [apply IH; exact HA'|].
  intros a Ha. unfold IsIPv4Address. assert (a <> EmptyString) by (eapply HA; eauto; left; reflexivity).
  destruct a; [congruence|]. cbn [is_empty]. destruct (IsIPv6Address (String a a0)); reflexivity.
Qed.

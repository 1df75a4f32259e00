(** C79, C80: a whole network. *)

From Verif Require Import Go GoFacts Encoding EncodingFacts Protocol Parser MessageFacts ParserFacts
  ProtocolFacts Reader StdDB Property PropertyFacts Object ObjectFacts Spec Node NodeFacts
  Handler HandlerFacts PropsHandler Remote RemoteFacts PropsRemote Transport TransportFacts Exchange ExchangeFacts
  PropsExchange PropsSearch Lan LanFacts.
From Verif Require PropsProtocol PropsNode.
From Coq Require Import ZifyBool ZifyNat Permutation.
Local Open Scope Z_scope.

(** ** The networks

    A member is a running node after any history of calls in which the
    application leaves the lists of the node profile to the library, at any
    address, with up to 84 devices of standard classes (without these limits
    nodes are not found, C28, C37). *)
Definition lan_node (nd : node) : Prop :=
  exists ops nd0 a self, Forall node_op_ok ops /\ Forall keeps_lists ops /\ node_after ops = Ok nd0 /\
    nd = at_address nd0 a self /\ n_running nd = true /\ (length (n_devices nd) <= 84)%nat /\
    Forall (fun c => known_class c /\ is_profile c = false) (map o_codes (n_devices nd)).

(** The address under which the controller records a node. *)
Definition recorded (conf : ctrl_conf) (nd : node) : address :=
  mkAddress (a_ip (n_addr nd)) (if cc_auto conf then a_port (n_addr nd) else 3610).

(** Applications react to messages without changing their node and without error;
    different members are recorded under different addresses; a controller that
    ignores its own messages has no other member at the address of one of its
    multicast servers. *)
Definition network {W} (conf : ctrl_conf) (s : lan W) : Prop :=
  Forall lan_node (members s) /\
  Forall (fun h => keeps_node (h_cb h) /\ never_fails (h_cb h)) (l_hosts s) /\
  NoDup (map (recorded conf) (members s)) /\
  (n_self (l_node s) = true \/
   Forall (fun h => let a := n_addr (h_node h) in ~ In (Some (a_port a), Some (a_ip a)) (cc_servers conf)) (l_hosts s)).

(** The members a controller hears: all, or all but itself. *)
Definition audible {W} (s : lan W) : list node :=
  if n_self (l_node s) then members s else map h_node (l_hosts s).

(** What the application sees of a node in the table, and what it should see. *)
Definition view (n : rnode) : address * list (list Z) := (rn_addr n, map o_codes (rn_devices n)).
Definition expected (conf : ctrl_conf) (nd : node) : address * list (list Z) :=
  (recorded conf nd, map o_codes (n_devices nd)).

Definition lossless (e : lan_event) : Prop := match e with LLose _ | LClear => False | _ => True end.

(** ** Discovery *)

Section Discovery.
Context {W : Type}.
Implicit Types (s : lan W).
Variable conf : ctrl_conf.

Lemma lan_node_ready nd : lan_node nd -> ready nd.
Proof.
  intros (ops & nd0 & a & self & H1 & H2 & E & -> & HR & H84 & HC).
  destruct (PropsNode.history_state keeps_lists (fun k => lists_ok k /\ readable_list k) ops) as (nd' & E' & HI & (HL & HG) & _).
  - intros op k K1 K2 K3 (K4 & K5). split; [apply core_step_lists; assumption|apply step_readable; assumption].
  - split; [apply initial_lists|apply initial_readable].
  - assumption.
  - assumption.
  - assert (nd' = nd0) by congruence. subst nd'. clear E'.
    destruct (node_after_ok ops nd0 H1 E) as (_ & HT).
    split; [exact HI|]. split; [exact HL|]. split; [exact HG|]. split; [exact HT|]. auto.
Qed.

Lemma recorded_seen nd : recorded conf nd = seen conf (n_addr nd).
Proof. reflexivity. Qed.

Lemma NoDup_addr (ms : list node) : NoDup (map (recorded conf) ms) -> NoDup (map n_addr ms).
Proof.
  intros H. apply (NoDup_map_inv (seen conf)). rewrite map_map. exact H.
Qed.

Lemma network_inv s : network conf s -> l_packets s = [] -> lan_inv s.
Proof.
  intros (H1 & H2 & H3 & _) HP. split; [eapply Forall_impl; [|exact H1]; apply lan_node_ready|].
  split; [exact H2|]. split; [apply NoDup_addr, H3|]. rewrite HP. constructor.
Qed.

(** What stays true of a network. *)
Definition settled (s0 s : lan W) : Prop :=
  lan_inv s /\ Forall2 same (members s0) (members s) /\ network conf s0.

Lemma same_at (ms ms' : list node) j nd : Forall2 same ms ms' -> nth_error ms' j = Some nd ->
  exists nd0, nth_error ms j = Some nd0 /\ same nd0 nd.
Proof.
  intros H. revert j. induction H as [|a b l l' H _ IH]; intros [|j] E; cbn [nth_error] in *; try discriminate E.
  - injection E as <-. eauto.
  - apply IH, E.
Qed.

Lemma same_at' (ms ms' : list node) j nd0 : Forall2 same ms ms' -> nth_error ms j = Some nd0 ->
  exists nd, nth_error ms' j = Some nd /\ same nd0 nd.
Proof.
  intros H. revert j. induction H as [|a b l l' H _ IH]; intros [|j] E; cbn [nth_error] in *; try discriminate E.
  - injection E as <-. eauto.
  - apply IH, E.
Qed.

(** Member [j] is heard. *)
Definition heard_member (s0 : lan W) (j : nat) : Prop := n_self (l_node s0) = true \/ j <> O.

Lemma heeds_iff s0 s j nd : settled s0 s -> nth_error (members s) j = Some nd ->
  heeds conf (l_node s) (n_addr nd) <-> heard_member s0 j.
Proof.
  intros ((_ & _ & HD & _) & HS & (_ & _ & _ & HN)) E.
  assert (ES : n_self (l_node s) = n_self (l_node s0)).
  { unfold members in HS. inversion HS as [|? ? ? ? (_ & X & _) _]; subst. exact X. }
  unfold heeds, heard_member. rewrite ES. split.
  - intros [H|(H & _)]; [left; exact H|]. right. intros ->. cbn [members nth_error] in E. injection E as <-. apply H. reflexivity.
  - intros [H|H]; [left; exact H|]. destruct HN as [HN|HN]; [left; exact HN|]. right.
    destruct j as [|j]; [exfalso; apply H; reflexivity|]. split.
    + intros X. cbn [members map] in HD. inversion HD as [|? ? N _]; subst. apply N. rewrite <- X.
      apply in_map. cbn [members nth_error] in E. eapply nth_error_In, E.
    + destruct (same_at _ _ _ _ HS E) as (nd0 & E0 & (X & _)). rewrite X. cbn [members nth_error] in E0.
      rewrite nth_error_map in E0. destruct (nth_error (l_hosts s0) j) as [h|] eqn:EH; [|discriminate E0]. injection E0 as <-.
      rewrite Forall_forall in HN. apply HN. eapply nth_error_In, EH.
Qed.

Lemma audible_iff s0 nd : In nd (audible s0) <-> exists j, nth_error (members s0) j = Some nd /\ heard_member s0 j.
Proof.
  unfold audible, heard_member. destruct (n_self (l_node s0)).
  - split; [|intros (j & E & _); eapply nth_error_In, E]. intros H. apply In_nth_error in H. destruct H as (j & E). eauto.
  - split.
    + intros H. apply In_nth_error in H. destruct H as (j & E). exists (S j). split; [exact E|]. right. discriminate.
    + intros (j & E & [H|H]); [discriminate H|]. destruct j as [|j]; [exfalso; apply H; reflexivity|].
      cbn [members nth_error] in E. eapply nth_error_In, E.
Qed.

(** What the controller makes of a datagram. *)
Lemma hears_spec s0 s p j nd c : settled s0 s -> from_member (members s) p j nd c ->
  (exists t esv code, pk_to p = O /\ heard_member s0 j /\ c = lists t esv code nd /\ In code [0xD5; 0xD6] /\
     ((known (l_ctrl s) (seen conf (n_addr nd)) /\ ct_found (ctrl_hears conf s p) = ct_found (l_ctrl s)) \/
      (~ known (l_ctrl s) (seen conf (n_addr nd)) /\
       exists n, ct_found (ctrl_hears conf s p) = ct_found (l_ctrl s) ++ [n] /\ shows conf nd n))) \/
  (ct_found (ctrl_hears conf s p) = ct_found (l_ctrl s) /\
   ~ (pk_to p = O /\ heard_member s0 j /\ exists t esv code, c = lists t esv code nd /\ In code [0xD5; 0xD6])).
Proof.
  intros HS HF. pose proof HF as (E & ED & Hsp & HT). pose proof HS as ((I1 & _) & _).
  assert (Rn : ready nd) by (rewrite Forall_forall in I1; apply I1; eapply nth_error_In, E).
  assert (Rc : ready (l_node s)) by (unfold members in I1; inversion I1; assumption).
  destruct (speech_ok nd c Rn Hsp) as (HL & Hlen & _).
  destruct (wire_arrives c (n_addr nd) HL Hlen) as (m & EM & FM & RM & VM).
  unfold ctrl_hears. rewrite ED, EM. destruct (pk_to p) as [|i] eqn:EP.
  2:{ right. split; [reflexivity|]. intros (X & _). discriminate X. }
  pose proof (heeds_iff s0 s j nd HS E) as HH.
  destruct Hsp as [t esv Ht HE|t esv code Ht HE Hc|t seoj code v Ht Hs Hc Hn Hv].
  - right. split.
    + eapply ctrl_other; [exact Rn|constructor; [exact Ht|exact HE]| |exact RM|apply VM].
      intros t' esv' code' _ X. apply (f_equal c_props) in X. discriminate X.
    + intros (_ & _ & t' & esv' & code' & X & _). apply (f_equal c_props) in X. discriminate X.
  - destruct (heeds_dec conf (l_node s) (n_addr nd)) as [HD|HD].
    + left. exists t, esv, code. split; [reflexivity|]. split; [apply HH, HD|]. split; [reflexivity|]. split; [exact Hc|].
      apply (ctrl_list conf (l_node s) (l_ctrl s) nd t esv code m (pk_type p) Rc Rn Ht HE Hc RM FM (VM _) HD).
    + right. split; [|intros (_ & X & _); apply HD, HH, X].
      rewrite not_foreign; [reflexivity|apply VM|]. intros X. apply HD.
      apply (heeds_foreign conf (l_node s) (SetPacketType m (pk_type p)) (n_addr nd)); [exact FM|exact X].
  - assert (X : forall t' esv' code', In code' [0xD5; 0xD6] -> tells t seoj code v <> lists t' esv' code' nd).
    { intros t' esv' code' I X. apply (f_equal c_props) in X. cbn [tells lists c_props] in X. injection X as X _.
      apply Hn. rewrite X. exact I. }
    right. split; [|intros (_ & _ & t' & esv' & code' & Y & I); exact (X t' esv' code' I Y)].
    apply (ctrl_other conf (l_node s) (l_ctrl s) nd (tells t seoj code v) m (pk_type p) Rn); [|exact X|exact RM|apply VM].
    apply SpTells; assumption.
Qed.

Lemma settled_start s0 : network conf s0 -> l_packets s0 = [] -> settled s0 s0.
Proof.
  intros H HP. split; [apply network_inv; assumption|]. split; [|exact H].
  induction (members s0); constructor; [apply same_refl|assumption].
Qed.

Lemma settled_step s0 s e : settled s0 s -> allowed e -> settled s0 (lan_step conf s e).
Proof.
  intros (H1 & H2 & H3) HA. destruct (step_cases conf s e H1 HA) as (A & B & _).
  split; [exact A|]. split; [|exact H3]. eapply same_members_trans; eassumption.
Qed.

(** The table shows members only. *)
Definition table_shows (s0 s : lan W) : Prop :=
  NoDup (map rn_addr (ct_found (l_ctrl s))) /\
  forall n, In n (ct_found (l_ctrl s)) -> exists j nd, nth_error (members s0) j = Some nd /\ heard_member s0 j /\ shows conf nd n.

Lemma shows_same nd nd' n : same nd nd' -> shows conf nd' n -> shows conf nd n.
Proof. intros (A & _ & D & _) S. unfold shows in *. rewrite <- A, <- D. exact S. Qed.

Lemma table_step s0 s e : settled s0 s -> allowed e -> table_shows s0 s -> table_shows s0 (lan_step conf s e).
Proof.
  intros HS HA (T1 & T2). pose proof HS as (H1 & H2 & H3).
  destruct (step_cases conf s e H1 HA) as (_ & _ & [C|[C|[C|[C|[C|C]]]]]).
  - destruct C as (i & nd & cs & _ & _ & E & _). unfold table_shows. rewrite E. auto.
  - destruct C as (k & p & j & ndi & ndj & c & rs & _ & _ & HF & _ & E & _). unfold table_shows. rewrite E.
    destruct (hears_spec s0 s p j ndj c HS HF) as [(t & esv & code & _ & Hj & _ & _ & [(_ & F)|(N & n & F & S)])|(F & _)]; rewrite F; [auto| |auto].
    split.
    + rewrite map_app. cbn [map]. apply NoDup_Add with (a := rn_addr n) (l := map rn_addr (ct_found (l_ctrl s))).
      * rewrite <- (app_nil_r (map rn_addr (ct_found (l_ctrl s)))) at 1. apply Add_app.
      * split; [exact T1|]. destruct S as (-> & _). exact N.
    + intros x Hx. apply in_app_or in Hx. destruct Hx as [Hx|[<-|[]]]; [apply T2, Hx|].
      destruct HF as (EJ & _). destruct (same_at _ _ _ _ H2 EJ) as (nd0 & E0 & Sm).
      exists j, nd0. split; [exact E0|]. split; [exact Hj|]. eapply shows_same; eassumption.
  - destruct C as (k & _ & E & _). unfold table_shows. rewrite E. auto.
  - destruct C as (k & p & _ & _ & E & _). unfold table_shows. rewrite E. auto.
  - destruct C as (_ & E & _). unfold table_shows. rewrite E. cbn [Clear ct_found map]. split; [constructor|intros n []].
  - destruct C as (E & _). unfold table_shows. rewrite E. auto.
Qed.

Lemma run_table_shows s0 es : forall s, settled s0 s -> Forall allowed es -> table_shows s0 s ->
  settled s0 (lan_run conf s es) /\ table_shows s0 (lan_run conf s es).
Proof.
  induction es as [|e es IH]; intros s HS HA HT; [auto|]. inversion HA; subst. cbn [lan_run fold_left].
  apply IH; [apply settled_step; assumption|assumption|apply table_step; assumption].
Qed.

(** Member [j] is in the table or its list or a search for it is on its way. *)
Definition coming (s0 s : lan W) (j : nat) : Prop :=
  exists nd, nth_error (members s) j = Some nd /\
  (known (l_ctrl s) (seen conf (n_addr nd)) \/
   (exists p t esv code, In p (l_packets s) /\ pk_to p = O /\ In code [0xD5; 0xD6] /\
      from_member (members s) p j nd (lists t esv code nd)) \/
   (exists p t esv, In p (l_packets s) /\ pk_to p = j /\ In esv [0x62; 0x63] /\
      from_member (members s) p O (l_node s) (asks t esv))).

Lemma found_grows s0 s p j nd c : settled s0 s -> from_member (members s) p j nd c ->
  forall a, known (l_ctrl s) a -> known (ctrl_hears conf s p) a.
Proof.
  intros HS HF a K. unfold known in *.
  destruct (hears_spec s0 s p j nd c HS HF) as [(t & esv & code & _ & _ & _ & _ & [(_ & F)|(_ & n & F & _)])|(F & _)]; rewrite F; auto.
  rewrite map_app. apply in_or_app. left. exact K.
Qed.

(** The sender and the content of a datagram are determined. *)
Lemma from_unique (ms : list node) p j nd c j' nd' c' : Forall ready ms -> NoDup (map n_addr ms) ->
  from_member ms p j nd c -> from_member ms p j' nd' c' -> j' = j /\ nd' = nd /\ c' = c.
Proof.
  intros HR HD (E & D & S & _) (E' & D' & S' & _). rewrite D in D'.
  assert (DW := f_equal d_bytes D'). assert (DA := f_equal d_from D'). cbn [d_bytes d_from] in DW, DA.
  assert (j' = j).
  { pose proof (owner_of ms HD j nd E) as O1. pose proof (owner_of ms HD j' nd' E') as O2. congruence. }
  subst j'. assert (nd' = nd) by congruence. subst nd'. split; [reflexivity|]. split; [reflexivity|].
  assert (Rn : ready nd) by (rewrite Forall_forall in HR; apply HR; eapply nth_error_In, E).
  destruct (speech_ok nd c Rn S) as (L & Hlen & _). destruct (speech_ok nd c' Rn S') as (L' & _ & _).
  symmetry. apply wire_inj; assumption.
Qed.

Lemma from_same (ms ms' : list node) p j nd c : Forall2 same ms ms' -> from_member ms p j nd c ->
  exists nd', nth_error ms' j = Some nd' /\ same nd nd' /\ from_member ms' p j nd' c.
Proof.
  intros HS (E & D & S & T). destruct (same_at' _ _ _ _ HS E) as (nd' & E' & Sm). exists nd'.
  split; [exact E'|]. split; [exact Sm|]. split; [exact E'|]. split.
  - rewrite D. f_equal. symmetry. apply Sm.
  - split; [eapply speech_same; eassumption|]. rewrite <- (Forall2_len _ _ _ HS). exact T.
Qed.

Lemma in_without (ps : list packet) k p x : nth_error ps k = Some p -> In x ps -> x = p \/ In x (without ps k).
Proof.
  intros E H. rewrite (take_out ps k p E) in H. apply in_app_or in H. unfold without. rewrite in_app_iff. cbn [In] in H.
  destruct H as [H|[H|H]]; auto.
Qed.

Lemma coming_same s0 s s' j : Forall2 same (members s) (members s') -> coming s0 s j ->
  (forall a, known (l_ctrl s) a -> known (l_ctrl s') a) -> incl (l_packets s) (l_packets s') -> coming s0 s' j.
Proof.
  intros HS (nd & E & H) HK HP. destruct (same_at' _ _ _ _ HS E) as (nd' & E' & Sm). exists nd'. split; [exact E'|].
  pose proof Sm as (SA & _). rewrite SA. destruct H as [H|[(p & t & esv & code & I & T & Hc & HF)|(p & t & esv & I & T & He & HF)]].
  - left. apply HK, H.
  - right. left. exists p, t, esv, code. split; [apply HP, I|]. split; [exact T|]. split; [exact Hc|].
    destruct (from_same _ _ _ _ _ _ HS HF) as (nd1 & E1 & _ & HF1). assert (nd1 = nd') by congruence. subst nd1.
    unfold lists. rewrite (same_list _ _ Sm). exact HF1.
  - right. right. exists p, t, esv. split; [apply HP, I|]. split; [exact T|]. split; [exact He|].
    destruct (from_same _ _ _ _ _ _ HS HF) as (nd1 & E1 & _ & HF1). cbn [members nth_error] in E1. injection E1 as <-. exact HF1.
Qed.

Lemma coming_step s0 s e j : settled s0 s -> allowed e -> lossless e -> heard_member s0 j -> coming s0 s j ->
  coming s0 (lan_step conf s e) j.
Proof.
  intros HS HA HL Hj HC. pose proof HS as (H1 & H2 & H3). pose proof H1 as (I1 & I2 & I3 & I4).
  destruct (step_cases conf s e H1 HA) as (_ & B & [C|[C|[C|[C|[C|C]]]]]).
  - destruct C as (i & nd & cs & _ & _ & E & P). eapply coming_same; [exact B|exact HC|rewrite E; auto|].
    rewrite P. apply incl_appl, incl_refl.
  - destruct C as (k & p & j0 & ndi & ndj & c & rs & _ & Ek & HF & ET & E & P & HAn).
    assert (KN : forall a, known (l_ctrl s) a -> known (l_ctrl (lan_step conf s e)) a).
    { rewrite E. apply (found_grows s0 s p j0 ndj c HS HF). }
    destruct HC as (nd & En & H). destruct (same_at' _ _ _ _ B En) as (nd' & En' & Sm).
    assert (Hold : incl (without (l_packets s) k) (l_packets (lan_step conf s e))) by (rewrite P; apply incl_appl, incl_refl).
    exists nd'. split; [exact En'|]. pose proof Sm as (SA & _). rewrite SA.
    destruct H as [H|[(q & t & esv & code & I & T & Hc & HFq)|(q & t & esv & I & T & He & HFq)]].
    + left. apply KN, H.
    + destruct (in_without _ _ _ _ Ek I) as [->|I'].
      * left. rewrite E.
        destruct (hears_spec s0 s p j nd _ HS HFq) as [(t' & esv' & code' & _ & _ & _ & _ & [(K & F)|(_ & n & F & S)])|(_ & N)].
        -- unfold known. rewrite F. exact K.
        -- unfold known. rewrite F, map_app. apply in_or_app. right. left. apply S.
        -- exfalso. apply N. split; [exact T|]. split; [exact Hj|]. exists t, esv, code. auto.
      * right. left. exists q, t, esv, code. split; [apply Hold, I'|]. split; [exact T|]. split; [exact Hc|].
        destruct (from_same _ _ _ _ _ _ B HFq) as (nd1 & E1 & _ & HF1). assert (nd1 = nd') by congruence. subst nd1.
        unfold lists. rewrite (same_list _ _ Sm). exact HF1.
    + destruct (in_without _ _ _ _ Ek I) as [->|I'].
      * destruct (from_unique _ _ _ _ _ _ _ _ I1 I3 HFq HF) as (-> & -> & ->).
        rewrite T, En in ET. injection ET as <-.
        destruct HAn as [(t1 & esv1 & aesv & Q & Ht & HE & _ & ->)|(_ & [N|N])].
        -- right. left.
           exists (mkPacket 0 UDPUnicastPacket (mkDatagram (wire (lists t1 aesv 0xD6 nd)) (n_addr nd))), t1, aesv, 0xD6.
           split; [rewrite P; apply in_or_app; right; left; reflexivity|]. split; [reflexivity|].
           split; [right; left; reflexivity|]. unfold lists. rewrite (same_list _ _ Sm). fold (lists t1 aesv 0xD6 nd).
           split; [exact En'|]. split; [cbn [pk_datagram]; rewrite SA; reflexivity|]. split.
           ++ unfold lists. rewrite <- (same_list _ _ Sm). apply SpLists; [exact Ht| |right; left; reflexivity].
              cbn [In] in HE. destruct HE as [HE|[HE|[]]]; injection HE as _ <-; cbn [In]; tauto.
           ++ cbn [pk_to]. unfold members. cbn [length]. lia.
        -- exfalso. exact (N t esv eq_refl).
        -- exfalso. apply N. unfold hears.
           destruct (n_self nd) eqn:ES; [left; reflexivity|]. right. intros X.
           assert (j = O).
           { pose proof (owner_of _ I3 j nd En) as O1. pose proof (owner_of _ I3 O (l_node s) eq_refl) as O2. congruence. }
           destruct Hj as [Hj|Hj]; [|contradiction]. rewrite H in En.
           destruct (same_at _ _ _ _ H2 En) as (nd0 & E0 & (_ & S0 & _)). cbn [members nth_error] in E0. injection E0 as <-. congruence.
      * right. right. exists q, t, esv. split; [apply Hold, I'|]. split; [exact T|]. split; [exact He|].
        destruct (from_same _ _ _ _ _ _ B HFq) as (nd1 & E1 & _ & HF1). cbn [members nth_error] in E1. injection E1 as <-. exact HF1.
  - destruct C as (k & -> & _). destruct HL.
  - destruct C as (k & p & _ & _ & E & P). eapply coming_same; [exact B|exact HC|rewrite E; auto|].
    rewrite P. apply incl_appl, incl_refl.
  - destruct C as (-> & _). destruct HL.
  - destruct C as (-> & _). exact HC.
Qed.

Lemma coming_run s0 es j : heard_member s0 j -> forall s, settled s0 s -> Forall allowed es -> Forall lossless es ->
  coming s0 s j -> coming s0 (lan_run conf s es) j.
Proof.
  intros Hj. induction es as [|e es IH]; intros s HS HA HL HC; [exact HC|]. inversion HA; inversion HL; subst. cbn [lan_run fold_left].
  apply IH; [apply settled_step; assumption|assumption|assumption|apply coming_step; assumption].
Qed.

Lemma coming_search s0 s esv j : settled s0 s -> In esv [0x62; 0x63] -> (j < length (members s))%nat ->
  coming s0 (lan_step conf s (LSearch 0 esv)) j.
Proof.
  intros HS HE Hj. pose proof HS as (H1 & _).
  destruct (step_cases conf s (LSearch 0 esv) H1 HE) as (A & B & [C|[C|[C|[C|[C|C]]]]]).
  - destruct C as (i & nd & cs & (En & <- & t & Ht & ->) & _ & E & P). cbn [members nth_error] in En. injection En as <-.
    destruct (nth_error (members s) j) as [nd|] eqn:En; [|apply nth_error_None in En; lia].
    destruct (same_at' _ _ _ _ B En) as (nd' & En' & _). exists nd'. split; [exact En'|]. right. right.
    exists (mkPacket j MulticastPacket (mkDatagram (wire (asks t esv)) (n_addr (l_node s)))), t, esv.
    split.
    + rewrite P. apply in_or_app. right. cbn [flat_map]. rewrite app_nil_r. unfold broadcast. apply in_map_iff.
      exists j. split; [reflexivity|]. apply in_seq. lia.
    + split; [reflexivity|]. split; [exact HE|]. destruct (same_at' _ _ O (l_node s) B eq_refl) as (n0 & N0 & (SA & _)).
      assert (n0 = l_node (lan_step conf s (LSearch 0 esv))) by (unfold members in N0; cbn [nth_error] in N0; congruence).
      subst n0. split; [reflexivity|]. split; [cbn [pk_datagram]; rewrite SA; reflexivity|]. split; [constructor; assumption|].
      cbn [pk_to]. apply nth_error_Some. congruence.
  - destruct C as (k & p & j0 & ndi & ndj & c & rs & X & _). discriminate X.
  - destruct C as (k & X & _). discriminate X.
  - destruct C as (k & p & X & _). discriminate X.
  - destruct C as (X & _). discriminate X.
  - destruct C as (_ & X). discriminate X.
Qed.

Lemma coming_announce s0 s j : settled s0 s -> (j < length (members s))%nat ->
  coming s0 (lan_step conf s (LAnnounce j)) j.
Proof.
  intros HS Hj. pose proof HS as (H1 & _).
  destruct (step_cases conf s (LAnnounce j) H1 I) as (A & B & [C|[C|[C|[C|[C|C]]]]]).
  - destruct C as (i & nd & cs & (En & <- & t & Ht & ->) & HSp & E & P).
    destruct (same_at' _ _ _ _ B En) as (nd' & En' & Sm). exists nd'. split; [exact En'|]. right. left.
    exists (mkPacket 0 MulticastPacket (mkDatagram (wire (lists t 0x73 0xD5 nd)) (n_addr nd))), t, 0x73, 0xD5.
    split.
    + rewrite P. apply in_or_app. right. cbn [flat_map]. rewrite app_nil_r. unfold broadcast. apply in_map_iff.
      exists O. split; [reflexivity|]. apply in_seq. lia.
    + split; [reflexivity|]. split; [left; reflexivity|]. unfold lists. rewrite (same_list _ _ Sm).
      split; [exact En'|]. split; [cbn [pk_datagram]; destruct Sm as (SA & _); rewrite SA; reflexivity|].
      split; [|cbn [pk_to]; unfold members; cbn [length]; lia].
      rewrite <- (same_list _ _ Sm). apply SpLists; [exact Ht|right; left; reflexivity|left; reflexivity].
  - destruct C as (k & p & j0 & ndi & ndj & c & rs & X & _). discriminate X.
  - destruct C as (k & X & _). discriminate X.
  - destruct C as (k & p & X & _). discriminate X.
  - destruct C as (X & _). discriminate X.
  - destruct C as (_ & X). apply nth_error_None in X. lia.
Qed.

(** A member that is known is shown. *)
Lemma known_shown s0 s j nd : settled s0 s -> table_shows s0 s -> nth_error (members s0) j = Some nd ->
  known (l_ctrl s) (seen conf (n_addr nd)) -> In (expected conf nd) (map view (ct_found (l_ctrl s))).
Proof.
  intros (_ & _ & (_ & _ & HD & _)) (_ & T) E K. unfold known in K. apply in_map_iff in K. destruct K as (n & A & I).
  apply in_map_iff. exists n. split; [|exact I]. destruct (T n I) as (j' & nd' & E' & _ & S1 & S2 & _).
  assert (nd' = nd).
  { assert (j' = j); [|congruence]. rewrite NoDup_nth_error in HD. apply HD.
    - rewrite map_length. apply nth_error_Some. congruence.
    - rewrite !nth_error_map, E, E'. cbn [option_map]. f_equal. rewrite !recorded_seen. congruence. }
  subst nd'. unfold view, expected, recorded. rewrite S1, S2. reflexivity.
Qed.

End Discovery.

Section Statements.
Context {W : Type}.
Implicit Types (s : lan W).

(** Whatever is lost, repeated or reordered, and whoever searches, announces,
    changes or clears: the table has every node at most once, and only members of
    the network with exactly their devices. *)
Theorem C79_sound : forall conf s0 es, network conf s0 -> l_packets s0 = [] -> l_ctrl s0 = newCtrl -> Forall allowed es ->
  let table := ct_found (l_ctrl (lan_run conf s0 es)) in
  NoDup (map rn_addr table) /\ incl (map view table) (map (expected conf) (audible s0)).
Proof.
  intros conf s0 es HN HP HC HA table.
  destruct (run_table_shows conf s0 es s0) as (_ & T1 & T2); [apply settled_start; assumption|exact HA| |].
  { unfold table_shows. rewrite HC. split; [constructor|intros n []]. }
  split; [exact T1|]. intros x Hx. apply in_map_iff in Hx. destruct Hx as (n & <- & I).
  destruct (T2 n I) as (j & nd & E & Hj & S1 & S2 & _). apply in_map_iff. exists nd. split.
  - unfold view, expected, recorded. rewrite S1, S2. reflexivity.
  - apply audible_iff. eauto.
Qed.

Lemma NoDup_map_fst {A B} (l : list (A * B)) : NoDup (map fst l) -> NoDup l.
Proof. apply NoDup_map_inv. Qed.

Lemma audible_NoDup conf s0 : network conf s0 -> NoDup (map (expected conf) (audible s0)).
Proof.
  intros (_ & _ & HD & _). apply NoDup_map_fst. rewrite map_map.
  change (NoDup (map (recorded conf) (audible s0))). unfold audible. destruct (n_self (l_node s0)); [exact HD|].
  cbn [members map] in HD. inversion HD; assumption.
Qed.

(** After a search of the controller, when nothing is lost from then on and the
    network is quiet again, the table has exactly the members of the network,
    each once, with its devices; whatever happened before the search and
    whatever else happens during it. *)
Theorem C79_found : forall conf s0 es1 esv es2, network conf s0 -> l_packets s0 = [] -> l_ctrl s0 = newCtrl ->
  Forall allowed es1 -> In esv [0x62; 0x63] -> Forall allowed es2 -> Forall lossless es2 ->
  let s := lan_run conf s0 (es1 ++ LSearch 0 esv :: es2) in
  l_packets s = [] -> Permutation (map view (ct_found (l_ctrl s))) (map (expected conf) (audible s0)).
Proof.
  intros conf s0 es1 esv es2 HN HP HC HA1 HE HA2 HL s Hq.
  assert (HS0 : settled conf s0 s0) by (apply settled_start; assumption).
  assert (HA : Forall allowed (es1 ++ LSearch 0 esv :: es2)) by (apply Forall_app; split; [exact HA1|constructor; assumption]).
  destruct (C79_sound conf s0 _ HN HP HC HA) as (S1 & S2). fold s in S1, S2.
  destruct (run_table_shows conf s0 (es1 ++ LSearch 0 esv :: es2) s0 HS0 HA) as (HSs & HT).
  { unfold table_shows. rewrite HC. split; [constructor|intros n []]. }
  fold s in HSs, HT.
  apply NoDup_Permutation.
  - apply NoDup_map_fst. rewrite map_map. exact S1.
  - apply audible_NoDup, HN.
  - intros x. split; [apply S2|]. intros Hx. apply in_map_iff in Hx. destruct Hx as (nd & <- & Hnd).
    apply audible_iff in Hnd. destruct Hnd as (j & E & Hj). apply (known_shown conf s0 s j nd HSs HT E).
    unfold s in *. unfold lan_run in *. rewrite fold_left_app in *. cbn [fold_left] in *.
    destruct (run_table_shows conf s0 es1 s0 HS0 HA1) as (HS1 & _).
    { unfold table_shows. rewrite HC. split; [constructor|intros n []]. }
    unfold lan_run in HS1. set (s1 := fold_left (lan_step conf) es1 s0) in *.
    assert (Hlen : (j < length (members s1))%nat).
    { destruct HS1 as (_ & X & _). rewrite <- (Forall2_len _ _ _ X). apply nth_error_Some. congruence. }
    pose proof (coming_search conf s0 s1 esv j HS1 HE Hlen) as C.
    pose proof (coming_run conf s0 es2 j Hj _ (settled_step conf s0 s1 (LSearch 0 esv) HS1 HE) HA2 HL C) as (nd' & E' & D).
    unfold lan_run in D, E'.
    destruct HSs as (_ & HM & _). destruct (same_at _ _ _ _ HM E') as (nd0 & E0 & (SA & _)).
    assert (nd0 = nd) by congruence. subst nd0. rewrite SA in D.
    rewrite Hq in D. destruct D as [D|[(p & _ & _ & _ & [] & _)|(p & _ & _ & [] & _)]]. exact D.
Qed.

(** The same for one node that announces itself. *)
Theorem C79_announced : forall conf s0 es1 j nd es2, network conf s0 -> l_packets s0 = [] -> l_ctrl s0 = newCtrl ->
  Forall allowed es1 -> Forall allowed es2 -> Forall lossless es2 ->
  nth_error (members s0) j = Some nd -> In nd (audible s0) ->
  let s := lan_run conf s0 (es1 ++ LAnnounce j :: es2) in
  l_packets s = [] -> In (expected conf nd) (map view (ct_found (l_ctrl s))).
Proof.
  intros conf s0 es1 j nd es2 HN HP HC HA1 HA2 HL E Hnd s Hq.
  assert (HS0 : settled conf s0 s0) by (apply settled_start; assumption).
  assert (HA : Forall allowed (es1 ++ LAnnounce j :: es2)) by (apply Forall_app; split; [exact HA1|constructor; [exact I|assumption]]).
  destruct (run_table_shows conf s0 (es1 ++ LAnnounce j :: es2) s0 HS0 HA) as (HSs & HT).
  { unfold table_shows. rewrite HC. split; [constructor|intros n []]. }
  fold s in HSs, HT.
  assert (Hj : heard_member s0 j).
  { apply audible_iff in Hnd. destruct Hnd as (j' & E' & Hj). replace j with j'; [exact Hj|].
    destruct HN as (_ & _ & HD & _). rewrite NoDup_nth_error in HD. apply HD.
    - rewrite map_length. apply nth_error_Some. congruence.
    - rewrite !nth_error_map, E, E'. reflexivity. }
  apply (known_shown conf s0 s j nd HSs HT E).
  unfold s in *. unfold lan_run in *. rewrite fold_left_app in *. cbn [fold_left] in *.
  destruct (run_table_shows conf s0 es1 s0 HS0 HA1) as (HS1 & _).
  { unfold table_shows. rewrite HC. split; [constructor|intros n []]. }
  unfold lan_run in HS1. set (s1 := fold_left (lan_step conf) es1 s0) in *.
  assert (Hlen : (j < length (members s1))%nat).
  { destruct HS1 as (_ & X & _). rewrite <- (Forall2_len _ _ _ X). apply nth_error_Some. congruence. }
  pose proof (coming_announce conf s0 s1 j HS1 Hlen) as C.
  pose proof (coming_run conf s0 es2 j Hj _ (settled_step conf s0 s1 (LAnnounce j) HS1 I) HA2 HL C) as (nd' & E' & D).
  unfold lan_run in D, E'.
  destruct HSs as (_ & HM & _). destruct (same_at _ _ _ _ HM E') as (nd0 & E0 & (SA & _)).
  assert (nd0 = nd) by congruence. subst nd0. rewrite SA in D.
  rewrite Hq in D. destruct D as [D|[(p & _ & _ & _ & [] & _)|(p & _ & _ & [] & _)]]. exact D.
Qed.

(** The network becomes quiet: whatever the order, at most twice as many
    datagrams can be delivered as are on their way, because answers are not
    answered. *)
Fixpoint deliveries (conf : ctrl_conf) s (ks : list nat) : Prop :=
  match ks with
  | [] => True
  | k :: ks => (k < length (l_packets s))%nat /\ deliveries conf (lan_step conf s (LDeliver k)) ks
  end.

Definition heavy (ms : list node) (p : packet) (w : nat) : Prop :=
  w = 2%nat \/
  (w = 1%nat /\ exists j nd c, from_member ms p j nd c /\ forall t esv, In esv [0x62; 0x63] -> c <> asks t esv).

Lemma heavy_same ms ms' p w : Forall2 same ms ms' -> heavy ms p w -> heavy ms' p w.
Proof.
  intros HS [H|(H & j & nd & c & HF & N)]; [left; exact H|right; split; [exact H|]].
  destruct (from_same _ _ _ _ _ _ HS HF) as (nd' & _ & _ & HF'). exists j, nd', c. auto.
Qed.

Lemma heavy_step conf s k ws : lan_inv s -> (k < length (l_packets s))%nat -> Forall2 (heavy (members s)) (l_packets s) ws ->
  let s' := lan_step conf s (LDeliver k) in
  lan_inv s' /\ exists ws', Forall2 (heavy (members s')) (l_packets s') ws' /\ (list_sum ws' < list_sum ws)%nat.
Proof.
  intros H1 Hk HW s'. destruct (step_cases conf s (LDeliver k) H1 I) as (A & B & [C|[C|[C|[C|[C|C]]]]]); fold s' in A, B, C.
  - destruct C as (i & nd & cs & (_ & []) & _).
  - destruct C as (k' & p & j & ndi & ndj & c & rs & X & Ek & HF & ET & _ & P & HAn). injection X as <-.
    split; [exact A|]. pose proof H1 as (I1 & I2 & I3 & I4).
    assert (HW' : Forall2 (heavy (members s')) (l_packets s) ws).
    { clear -HW B. induction HW; constructor; [eapply heavy_same; eassumption|assumption]. }
    pose proof (take_out _ _ _ Ek) as TO.
    assert (exists w1 w w2, ws = w1 ++ w :: w2 /\ heavy (members s) p w /\
      Forall2 (heavy (members s')) (without (l_packets s) k) (w1 ++ w2)) as (w1 & w & w2 & EW & HP & HR).
    { unfold without. rewrite TO in HW'. apply Forall2_app_inv_l in HW'. destruct HW' as (w1 & w2 & F1 & F2 & ->).
      inversion F2 as [|? w ? w2' F3 F4]; subst. exists w1, w, w2'. split; [reflexivity|].
      assert (HPw : heavy (members s) p w).
      { rewrite TO in HW. apply Forall2_app_inv_l in HW. destruct HW as (v1 & v2 & G1 & G2 & EV).
        pose proof (Forall2_len _ _ _ F1) as L1. pose proof (Forall2_len _ _ _ G1) as L2.
        assert (v1 = w1 /\ v2 = w :: w2') as (-> & ->).
        { clear -EV L1 L2. assert (L : length w1 = length v1) by congruence. clear L1 L2. revert v1 EV L.
          induction w1 as [|a w1 IH]; intros [|b v1] EV L; cbn [length app] in *; try discriminate L.
          - auto.
          - injection EV as -> EV. injection L as L. destruct (IH v1 EV L) as (-> & ->). auto. }
        inversion G2; assumption. }
      split; [exact HPw|]. apply Forall2_app; assumption. }
    subst ws. rewrite P.
    assert (HS : (list_sum (w1 ++ w :: w2) = w + list_sum (w1 ++ w2))%nat) by (rewrite !list_sum_app; cbn [list_sum fold_right]; fold (list_sum w2); lia).
    destruct HAn as [(t & esv & aesv & -> & Ht & HE & _ & ->)|(-> & _)].
    + destruct HP as [->|(_ & j' & nd' & c' & HF' & N)].
      2:{ destruct (from_unique _ _ _ _ _ _ _ _ I1 I3 HF HF') as (_ & _ & ->). exfalso. apply (N t esv); [|reflexivity].
          cbn [In] in HE. destruct HE as [HE|[HE|[]]]; injection HE as <- _; cbn [In]; tauto. }
      exists ((w1 ++ w2) ++ [1%nat]). split; [apply Forall2_app; [exact HR|]|rewrite HS, list_sum_app; cbn; lia].
      constructor; [|constructor]. apply (heavy_same (members s)); [exact B|]. right. split; [reflexivity|].
      exists (pk_to p), ndi, (lists t aesv 0xD6 ndi). split.
      * split; [exact ET|]. split; [reflexivity|]. split.
        -- apply SpLists; [exact Ht| |right; left; reflexivity].
           cbn [In] in HE. destruct HE as [HE|[HE|[]]]; injection HE as _ <-; cbn [In]; tauto.
        -- cbn [pk_to]. destruct HF as (E & _). apply nth_error_Some. congruence.
      * intros t' esv' He' X. assert (aesv = esv') by (apply (f_equal c_esv) in X; exact X). subst aesv.
        cbn [In] in HE, He'. destruct He' as [<-|[<-|[]]]; destruct HE as [HE|[HE|[]]]; congruence.
    + exists (w1 ++ w2). rewrite app_nil_r. split; [exact HR|]. rewrite HS. destruct HP as [->|(-> & _)]; lia.
  - destruct C as (k' & X & _). discriminate X.
  - destruct C as (k' & p & X & _). discriminate X.
  - destruct C as (X & _). discriminate X.
  - destruct C as (_ & X). apply nth_error_None in X. lia.
Qed.

Lemma deliveries_bound conf ks : forall s ws, lan_inv s -> Forall2 (heavy (members s)) (l_packets s) ws ->
  deliveries conf s ks -> (length ks <= list_sum ws)%nat.
Proof.
  induction ks as [|k ks IH]; intros s ws HI HW HD; cbn [length deliveries] in *; [lia|]. destruct HD as (Hk & HD).
  destruct (heavy_step conf s k ws HI Hk HW) as (HI' & ws' & HW' & HL). pose proof (IH _ ws' HI' HW' HD). lia.
Qed.

Lemma all_heavy s : exists ws, Forall2 (heavy (members s)) (l_packets s) ws /\ list_sum ws = (2 * length (l_packets s))%nat.
Proof.
  exists (map (fun _ => 2%nat) (l_packets s)). split.
  - induction (l_packets s); cbn [map]; constructor; [left; reflexivity|assumption].
  - induction (l_packets s) as [|p l IH]; [reflexivity|]. cbn [map length]. change (list_sum (2%nat :: map (fun _ => 2%nat) l)) with
      (2 + list_sum (map (fun _ => 2%nat) l))%nat. rewrite IH. lia.
Qed.

Theorem C79_settles : forall conf s0 es, network conf s0 -> l_packets s0 = [] -> Forall allowed es ->
  let s := lan_run conf s0 es in
  (forall ks, deliveries conf s ks -> (length ks <= 2 * length (l_packets s))%nat) /\
  exists n, l_packets (lan_run conf s (repeat (LDeliver 0) n)) = [].
Proof.
  intros conf s0 es HN HP HA s.
  assert (HI : lan_inv s).
  { pose proof (network_inv conf s0 HN HP) as HI0. destruct (run_inv conf es s0 HI0 HA) as (X & _). exact X. }
  split.
  - intros ks HD. destruct (all_heavy s) as (ws & HW & <-). exact (deliveries_bound conf ks s ws HI HW HD).
  - destruct (all_heavy s) as (ws & HW & _). clearbody s. remember (list_sum ws) as m eqn:Em. revert s ws HI HW Em.
    induction m as [m IH] using lt_wf_ind. intros s ws HI HW Em. destruct (l_packets s) as [|p ps] eqn:EP; [exists O; exact EP|].
    destruct (heavy_step conf s O ws HI) as (HI' & ws' & HW' & HL); [rewrite EP; cbn [length]; lia|rewrite EP; exact HW|].
    destruct (IH (list_sum ws') ltac:(lia) _ ws' HI' HW' eq_refl) as (n & Hn). exists (S n). cbn [repeat]. exact Hn.
Qed.

(** Together: a search finds the network. *)
Theorem C79_search : forall conf s0 es esv, network conf s0 -> l_packets s0 = [] -> l_ctrl s0 = newCtrl ->
  Forall allowed es -> In esv [0x62; 0x63] ->
  exists n, let s := lan_run conf s0 (es ++ LSearch 0 esv :: repeat (LDeliver 0) n) in
    l_packets s = [] /\ Permutation (map view (ct_found (l_ctrl s))) (map (expected conf) (audible s0)).
Proof.
  intros conf s0 es esv HN HP HC HA HE.
  assert (HA' : Forall allowed (es ++ [LSearch 0 esv])) by (apply Forall_app; split; [exact HA|constructor; [exact HE|constructor]]).
  destruct (C79_settles conf s0 _ HN HP HA') as (_ & n & Hn). exists n. intros s.
  assert (Q : l_packets s = []).
  { rewrite <- Hn. unfold s, lan_run. rewrite !fold_left_app. reflexivity. }
  split; [exact Q|]. apply C79_found; try assumption.
  - clear. induction n; constructor; [exact I|assumption].
  - clear. induction n; constructor; [exact I|assumption].
Qed.

End Statements.

(** ** Changes *)

(** Sender, object, property and new value of a change. *)
Definition change : Type := address * Z * Z * list Z.

(** The change a notification with one property tells. *)
Definition change_of (m : message) : list change :=
  match m_ep m with
  | [p] => if (m_esv m =? 0x73) && negb ((pp_code p =? 0xD5) || (pp_code p =? 0xD6))
           then [(m_from m, SEOJ m, pp_code p, pp_data p)] else []
  | _ => []
  end.

(** The changes the listener of the controller was told, in their order. *)
Definition heard (ct : ctrl) : list change := flat_map change_of (ct_messages ct).

(** The change an event of the network announces to the controller: a member it
    hears sets a property that one of its devices has and announces. *)
Definition announced {W} (s0 : lan W) (e : lan_event) : list change :=
  match e with
  | LSet i d code v =>
      match nth_error (members s0) i with
      | None => []
      | Some nd =>
          match announces_as nd d code with
          | None => []
          | Some seoj => if n_self (l_node s0) || negb (i =? 0)%nat then [(n_addr nd, seoj, code, v)] else []
          end
      end
  | _ => []
  end.

Definition no_loss (e : lan_event) : Prop := match e with LLose _ => False | _ => True end.
Definition no_copy (e : lan_event) : Prop := match e with LRepeat _ => False | _ => True end.
Definition oldest_first (e : lan_event) : Prop := match e with LDeliver k => k = O | _ => True end.

Section Changes.
Context {W : Type}.
Implicit Types (s : lan W).
Variable conf : ctrl_conf.
Hypothesis HLis : cc_listener conf = true.

Definition is_heard (s0 : lan W) (a : address) : bool := existsb (fun nd => addr_eqb a (n_addr nd)) (audible s0).

Lemma is_heard_iff s0 s j nd : settled conf s0 s -> nth_error (members s) j = Some nd ->
  is_heard s0 (n_addr nd) = true <-> heard_member s0 j.
Proof.
  intros (_ & HS & HN) E. destruct (same_at _ _ _ _ HS E) as (nd0 & E0 & (SA & _)). rewrite SA. unfold is_heard.
  rewrite existsb_exists. split.
  - intros (x & Hx & Ex). apply addr_eqb_iff in Ex. apply audible_iff in Hx. destruct Hx as (j' & E' & Hj).
    replace j with j'; [exact Hj|]. destruct HN as (_ & _ & HD & _). rewrite NoDup_nth_error in HD. apply HD.
    + rewrite map_length. apply nth_error_Some. congruence.
    + rewrite !nth_error_map, E0, E'. cbn [option_map]. f_equal. rewrite !recorded_seen. congruence.
  - intros Hj. exists nd0. split; [apply audible_iff; eauto|]. apply addr_eqb_iff. reflexivity.
Qed.

(** The changes on their way to the controller. *)
Definition pending1 (s0 : lan W) (p : packet) : list change :=
  match pk_to p, ReadMessage (pk_datagram p) with
  | O, Ok m => if is_heard s0 (m_from m) then change_of m else []
  | _, _ => []
  end.
Definition pending (s0 : lan W) (ps : list packet) : list change := flat_map (pending1 s0) ps.

(** What a content tells. *)
Definition told_by (s0 : lan W) (a : address) (c : content) : list change :=
  match c_props c with
  | [(code, v)] => if is_heard s0 a && ((c_esv c =? 0x73) && negb ((code =? 0xD5) || (code =? 0xD6)))
                   then [(a, c_seoj c, code, v)] else []
  | _ => []
  end.

Lemma change_of_content m c : represents m c -> in_limits c ->
  change_of m = match c_props c with
  | [(code, v)] => if (c_esv c =? 0x73) && negb ((code =? 0xD5) || (code =? 0xD6)) then [(m_from m, c_seoj c, code, v)] else []
  | _ => []
  end.
Proof.
  intros HR HL. destruct (represents_getters m c HR HL) as (_ & G2 & _ & G4 & _ & G6). unfold change_of. rewrite G6, G4, G2.
  destruct (c_props c) as [|[code v] [|q l]]; reflexivity.
Qed.

Lemma arrives nd c : ready nd -> speech nd c -> exists m, ReadMessage (mkDatagram (wire c) (n_addr nd)) = Ok m /\
  m_from m = n_addr nd /\ represents m c /\ in_limits c /\ forall pt, received (SetPacketType m pt).
Proof.
  intros HR HS. destruct (speech_ok nd c HR HS) as (HL & Hlen & _).
  destruct (wire_arrives c (n_addr nd) HL Hlen) as (m & EM & FM & RM & VM). exists m. auto.
Qed.

Lemma pending1_from s0 ms p j nd c : Forall ready ms -> from_member ms p j nd c ->
  pending1 s0 p = if (pk_to p =? 0)%nat then told_by s0 (n_addr nd) c else [].
Proof.
  intros HR (E & ED & HS & _). assert (Rn : ready nd) by (rewrite Forall_forall in HR; apply HR; eapply nth_error_In, E).
  destruct (arrives nd c Rn HS) as (m & EM & FM & RM & HL & _). unfold pending1. rewrite ED, EM.
  destruct (pk_to p) as [|i]; [|reflexivity]. cbn [Nat.eqb]. rewrite (change_of_content m c RM HL), FM. unfold told_by.
  destruct (c_props c) as [|[code v] [|q l]]; destruct (is_heard s0 (n_addr nd)); reflexivity.
Qed.

(** A delivered datagram. *)
Lemma heard_deliver s0 s p j nd c : settled conf s0 s -> from_member (members s) p j nd c ->
  heard (ctrl_hears conf s p) = heard (l_ctrl s) ++ pending1 s0 p.
Proof.
  intros HS HF. pose proof HF as (E & ED & Hsp & _). pose proof HS as ((I1 & _) & _).
  assert (Rn : ready nd) by (rewrite Forall_forall in I1; apply I1; eapply nth_error_In, E).
  assert (Rc : ready (l_node s)) by (unfold members in I1; inversion I1; assumption).
  destruct (arrives nd c Rn Hsp) as (m & EM & FM & RM & HL & VM). unfold ctrl_hears, pending1. rewrite ED, EM.
  destruct (pk_to p) as [|i]; [|rewrite app_nil_r; reflexivity].
  pose proof (heeds_iff conf s0 s j nd HS E) as HH. pose proof (is_heard_iff s0 s j nd HS E) as HB. rewrite FM.
  pose proof (heeds_foreign conf (l_node s) (SetPacketType m (pk_type p)) (n_addr nd) FM) as HFo.
  destruct (is_heard s0 (n_addr nd)) eqn:EB.
  - destruct (speech_valid (l_node s) nd c m (pk_type p) Rc Rn Hsp RM) as (r & o & HV). unfold heard.
    rewrite (foreign_messages conf (l_node s) (l_ctrl s) _ r o (VM _)); [|apply HFo, HH, HB; reflexivity|exact HV].
    rewrite HLis, flat_map_app. cbn [flat_map]. rewrite app_nil_r. reflexivity.
  - rewrite not_foreign; [rewrite app_nil_r; reflexivity|apply VM|]. intros X. apply HFo, HH, HB in X. discriminate X.
Qed.

Lemma pending_app s0 a b : pending s0 (a ++ b) = pending s0 a ++ pending s0 b.
Proof. apply flat_map_app. Qed.

(** What is said reaches the controller once. *)
Lemma pending_broadcast s0 (ms : list node) i nd c : Forall ready ms -> nth_error ms i = Some nd -> speech nd c ->
  pending s0 (broadcast (length ms) (n_addr nd) c) = told_by s0 (n_addr nd) c.
Proof.
  intros HR E HS. unfold broadcast. destruct ms as [|x ms]; [destruct i; discriminate E|]. cbn [length seq map].
  change (pending s0 (mkPacket 0 MulticastPacket (mkDatagram (wire c) (n_addr nd)) ::
    map (fun k => mkPacket k MulticastPacket (mkDatagram (wire c) (n_addr nd))) (seq 1 (length ms)))) with
    (pending1 s0 (mkPacket 0 MulticastPacket (mkDatagram (wire c) (n_addr nd))) ++
     pending s0 (map (fun k => mkPacket k MulticastPacket (mkDatagram (wire c) (n_addr nd))) (seq 1 (length ms)))).
  rewrite (pending1_from s0 (x :: ms) _ i nd c HR).
  2:{ split; [exact E|]. split; [reflexivity|]. split; [exact HS|]. cbn [pk_to length]. lia. }
  cbn [pk_to Nat.eqb]. replace (pending s0 (map _ _)) with (@nil change); [apply app_nil_r|].
  symmetry. unfold pending. assert (H : forall n k, flat_map (pending1 s0)
    (map (fun k => mkPacket k MulticastPacket (mkDatagram (wire c) (n_addr nd))) (seq (S k) n)) = []); [|apply H].
  induction n as [|n IH]; intros k; [reflexivity|]. cbn [seq map flat_map]. rewrite IH. reflexivity.
Qed.

Lemma told_asks s0 a t esv : In esv [0x62; 0x63] -> told_by s0 a (asks t esv) = [].
Proof.
  intros H. unfold told_by. cbn [asks c_props c_esv In] in *. destruct H as [<-|[<-|[]]]; cbn; destruct (is_heard s0 a); reflexivity.
Qed.

Lemma change_step s0 s e : settled conf s0 s -> allowed e ->
  let s' := lan_step conf s e in
  (heard (l_ctrl s') = heard (l_ctrl s) /\ pending s0 (l_packets s') = pending s0 (l_packets s) ++ announced s0 e /\
     (forall k, e <> LDeliver k /\ e <> LLose k)) \/
  (exists k p, e = LDeliver k /\ nth_error (l_packets s) k = Some p /\
     heard (l_ctrl s') = heard (l_ctrl s) ++ pending1 s0 p /\ pending s0 (l_packets s') = pending s0 (without (l_packets s) k)) \/
  (exists k, e = LLose k /\ heard (l_ctrl s') = heard (l_ctrl s) /\ pending s0 (l_packets s') = pending s0 (without (l_packets s) k)) \/
  (exists k p, e = LRepeat k /\ nth_error (l_packets s) k = Some p /\ heard (l_ctrl s') = heard (l_ctrl s) /\
     pending s0 (l_packets s') = pending s0 (l_packets s) ++ pending1 s0 p) \/
  (s' = s /\ announced s0 e = []).
Proof.
  intros HS HA s'. pose proof HS as (H1 & H2 & H3). pose proof H1 as (I1 & I2 & I3 & I4).
  destruct (step_cases conf s e H1 HA) as (_ & B & [C|[C|[C|[C|[C|C]]]]]); fold s' in B, C.
  - left. destruct C as (i & nd & cs & (En & HSaid) & HSp & E & P). rewrite E, P, pending_app.
    split; [reflexivity|]. split; [|intros k; destruct e; try (destruct HSaid; fail); split; discriminate].
    f_equal. destruct e as [j esv| |j|j d code v| | |]; try (destruct HSaid; fail).
    + destruct HSaid as (-> & t & Ht & ->). inversion HSp; subst. cbn [flat_map]. rewrite app_nil_r.
      rewrite (pending_broadcast s0 (members s) i nd _ I1 En) by assumption. apply told_asks, HA.
    + destruct HSaid as (-> & t & Ht & ->). inversion HSp; subst. cbn [flat_map]. rewrite app_nil_r.
      rewrite (pending_broadcast s0 (members s) i nd _ I1 En) by assumption. unfold told_by. cbn [lists c_props c_esv].
      cbn. rewrite !Bool.andb_false_r. reflexivity.
    + destruct HSaid as (-> & HT). cbn [announced].
      destruct (same_at _ _ _ _ H2 En) as (nd0 & E0 & (SA & _ & _ & SN)). rewrite E0. rewrite SN in HT.
      destruct (announces_as nd0 d code) as [seoj|]; [|subst cs; reflexivity].
      destruct HT as (_ & _ & t & Ht & ->). inversion HSp; subst. cbn [flat_map]. rewrite app_nil_r.
      rewrite (pending_broadcast s0 (members s) i nd _ I1 En) by assumption. unfold told_by. cbn [tells c_props c_esv c_seoj].
      rewrite Z.eqb_refl. destruct HA as (HC & _).
      replace ((code =? 0xD5) || (code =? 0xD6)) with false by (cbn [In] in HC; lia).
      cbn [negb andb]. rewrite Bool.andb_true_r.
      pose proof (is_heard_iff s0 s i nd HS En) as HB. unfold heard_member in HB. rewrite SA in *.
      destruct (is_heard s0 (n_addr nd0)), (n_self (l_node s0)); cbn [orb]; try reflexivity.
      * destruct i; [|reflexivity]. destruct (proj1 HB eq_refl) as [X|X]; [discriminate X|exfalso; apply X; reflexivity].
      * exfalso. discriminate (proj2 HB (or_introl eq_refl)).
      * destruct i; [reflexivity|]. discriminate (proj2 HB (or_intror (Nat.neq_succ_0 i))).
  - right. left. destruct C as (k & p & j & ndi & ndj & c & rs & -> & Ek & HF & ET & E & P & HAn).
    exists k, p. split; [reflexivity|]. split; [exact Ek|]. rewrite E, P, pending_app.
    split; [eapply heard_deliver; eassumption|].
    replace (pending s0 rs) with (@nil change); [apply app_nil_r|]. symmetry.
    destruct HAn as [(t & esv & aesv & _ & Ht & HE & _ & ->)|(-> & _)]; [|reflexivity].
    unfold pending. cbn [flat_map]. rewrite app_nil_r.
    rewrite (pending1_from s0 (members s) _ (pk_to p) ndi (lists t aesv 0xD6 ndi) I1).
    + destruct (pk_to _ =? 0)%nat; [|reflexivity]. unfold told_by. cbn [lists c_props c_esv]. cbn. rewrite !Bool.andb_false_r. reflexivity.
    + split; [exact ET|]. split; [reflexivity|]. split.
      * apply SpLists; [exact Ht| |right; left; reflexivity].
        cbn [In] in HE. destruct HE as [HE|[HE|[]]]; injection HE as _ <-; cbn [In]; tauto.
      * cbn [pk_to]. destruct HF as (EF & _). apply nth_error_Some. congruence.
  - right. right. left. destruct C as (k & -> & E & P). exists k. rewrite E, P. auto.
  - right. right. right. left. destruct C as (k & p & -> & Ek & E & P). exists k, p. rewrite E, P, pending_app.
    split; [reflexivity|]. split; [exact Ek|]. split; [reflexivity|]. f_equal. cbn [pending flat_map]. apply app_nil_r.
  - left. destruct C as (-> & E & P). rewrite E, P. cbn [announced]. rewrite app_nil_r. split; [reflexivity|]. split; [reflexivity|].
    intros k. split; discriminate.
  - right. right. right. right. destruct C as (E & X). split; [exact E|]. destruct e; try reflexivity.
    cbn [announced]. destruct (nth_error (members s0) i) as [nd|] eqn:E0; [|reflexivity].
    destruct (same_at' _ _ _ _ H2 E0) as (nd' & E' & _). congruence.
Qed.

Lemma pending_take s0 ps k p : nth_error ps k = Some p ->
  pending s0 ps = pending s0 (firstn k ps) ++ pending1 s0 p ++ pending s0 (skipn (S k) ps) /\
  pending s0 (without ps k) = pending s0 (firstn k ps) ++ pending s0 (skipn (S k) ps).
Proof.
  intros E. split; [|apply pending_app]. rewrite (take_out ps k p E) at 1. rewrite pending_app. reflexivity.
Qed.

Lemma pending_without s0 ps k : incl (pending s0 (without ps k)) (pending s0 ps).
Proof.
  intros x H. unfold pending in *. apply in_flat_map in H. destruct H as (p & I & X). apply in_flat_map. exists p.
  split; [apply (without_incl ps k p I)|exact X].
Qed.

Definition all_changes (s0 s : lan W) : list change := heard (l_ctrl s) ++ pending s0 (l_packets s).

Lemma sound_step s0 s e : settled conf s0 s -> allowed e ->
  incl (all_changes s0 (lan_step conf s e)) (all_changes s0 s ++ announced s0 e).
Proof.
  intros HS HA. unfold all_changes. destruct (change_step s0 s e HS HA) as [(H & P & _)|[(k & p & -> & Ek & H & P)|[(k & -> & H & P)|[(k & p & -> & Ek & H & P)|(-> & ->)]]]].
  - rewrite H, P, app_assoc. apply incl_refl.
  - rewrite H, P. destruct (pending_take s0 _ _ _ Ek) as (-> & ->). cbn [announced]. intros x. rewrite !in_app_iff. tauto.
  - rewrite H, P. intros x. rewrite !in_app_iff. pose proof (pending_without s0 (l_packets s) k x). tauto.
  - rewrite H, P. intros x. rewrite !in_app_iff. intros [X|[X|X]]; auto. left. right.
    destruct (pending_take s0 _ _ _ Ek) as (-> & _). rewrite !in_app_iff. auto.
  - rewrite app_nil_r. apply incl_refl.
Qed.

Lemma complete_step s0 s e : settled conf s0 s -> allowed e -> no_loss e ->
  incl (all_changes s0 s ++ announced s0 e) (all_changes s0 (lan_step conf s e)).
Proof.
  intros HS HA HL. unfold all_changes. destruct (change_step s0 s e HS HA) as [(H & P & _)|[(k & p & -> & Ek & H & P)|[(k & -> & H & P)|[(k & p & -> & Ek & H & P)|(-> & ->)]]]].
  - rewrite H, P, app_assoc. apply incl_refl.
  - rewrite H, P. destruct (pending_take s0 _ _ _ Ek) as (-> & ->). cbn [announced]. intros x. rewrite !in_app_iff. cbn [In]. tauto.
  - destruct HL.
  - rewrite H, P. cbn [announced]. intros x. rewrite !in_app_iff. cbn [In]. tauto.
  - rewrite app_nil_r. apply incl_refl.
Qed.

Lemma exact_step s0 s e : settled conf s0 s -> allowed e -> no_loss e -> no_copy e ->
  Permutation (all_changes s0 (lan_step conf s e)) (all_changes s0 s ++ announced s0 e).
Proof.
  intros HS HA HL HC. unfold all_changes. destruct (change_step s0 s e HS HA) as [(H & P & _)|[(k & p & -> & Ek & H & P)|[(k & -> & H & P)|[(k & p & -> & Ek & H & P)|(-> & ->)]]]].
  - rewrite H, P, app_assoc. reflexivity.
  - rewrite H, P. destruct (pending_take s0 _ _ _ Ek) as (-> & ->). cbn [announced]. rewrite app_nil_r, <- app_assoc.
    apply Permutation_app_head. rewrite !app_assoc. apply Permutation_app_tail. apply Permutation_app_comm.
  - destruct HL.
  - destruct HC.
  - rewrite app_nil_r. reflexivity.
Qed.

Lemma order_step s0 s e : settled conf s0 s -> allowed e -> no_loss e -> no_copy e -> oldest_first e ->
  all_changes s0 (lan_step conf s e) = all_changes s0 s ++ announced s0 e.
Proof.
  intros HS HA HL HC HO. unfold all_changes. destruct (change_step s0 s e HS HA) as [(H & P & _)|[(k & p & -> & Ek & H & P)|[(k & -> & H & P)|[(k & p & -> & Ek & H & P)|(-> & ->)]]]].
  - rewrite H, P, app_assoc. reflexivity.
  - cbn [oldest_first] in HO. subst k. rewrite H, P. destruct (pending_take s0 _ _ _ Ek) as (-> & ->).
    cbn [announced firstn pending flat_map app]. rewrite app_nil_r, <- app_assoc. reflexivity.
  - destruct HL.
  - destruct HC.
  - rewrite app_nil_r. reflexivity.
Qed.

Lemma run_changes (R : list change -> list change -> Prop) (P : lan_event -> Prop) s0 :
  (forall l, R l l) -> (forall a b c, R a b -> R b c -> R a c) -> (forall a b c, R a b -> R (a ++ c) (b ++ c)) ->
  (forall s e, settled conf s0 s -> allowed e -> P e -> R (all_changes s0 (lan_step conf s e)) (all_changes s0 s ++ announced s0 e)) ->
  forall es s, settled conf s0 s -> Forall allowed es -> Forall P es ->
  R (all_changes s0 (lan_run conf s es)) (all_changes s0 s ++ flat_map (announced s0) es).
Proof.
  intros Rr Rt Ra Rs. induction es as [|e es IH]; intros s HS HA HP.
  - cbn [lan_run fold_left flat_map]. rewrite app_nil_r. apply Rr.
  - inversion HA; inversion HP; subst. cbn [lan_run fold_left flat_map].
    eapply Rt; [apply IH; [apply settled_step; assumption|assumption|assumption]|].
    rewrite app_assoc. apply Ra, Rs; assumption.
Qed.

End Changes.

Section ChangeStatements.
Context {W : Type}.
Implicit Types (s : lan W).

Lemma all_start s0 : l_ctrl s0 = newCtrl -> l_packets s0 = [] -> all_changes s0 s0 = [].
Proof. intros H1 H2. unfold all_changes. rewrite H1, H2. reflexivity. Qed.

Lemma Forall_True {A} (l : list A) : Forall (fun _ => True) l.
Proof. induction l; constructor; auto. Qed.

(** Whatever is lost, repeated or reordered: every change the listener hears was
    made, by the member, on the object and property, and with the value told. *)
Theorem C80_sound : forall conf s0 es, network conf s0 -> l_packets s0 = [] -> l_ctrl s0 = newCtrl -> cc_listener conf = true ->
  Forall allowed es -> incl (heard (l_ctrl (lan_run conf s0 es))) (flat_map (announced s0) es).
Proof.
  intros conf s0 es HN HP HC HLi HA.
  pose proof (run_changes conf (@incl change) (fun _ => True) s0) as H.
  specialize (H (@incl_refl change) (@incl_tran change)).
  assert (X : incl (all_changes s0 (lan_run conf s0 es)) (all_changes s0 s0 ++ flat_map (announced s0) es)).
  { apply H; [|intros s e H1 H2 _; apply sound_step; assumption|apply settled_start; assumption|exact HA|apply Forall_True].
    intros a b c I. apply incl_app; [apply incl_appl, I|apply incl_appr, incl_refl]. }
  rewrite all_start in X by assumption. cbn [app] in X. eapply incl_tran; [|exact X]. apply incl_appl, incl_refl.
Qed.

(** Every change made after some time is heard if nothing is lost from then on. *)
Theorem C80_complete : forall conf s0 es1 es2, network conf s0 -> l_packets s0 = [] -> cc_listener conf = true ->
  Forall allowed es1 -> Forall allowed es2 -> Forall no_loss es2 ->
  let s := lan_run conf s0 (es1 ++ es2) in
  l_packets s = [] -> incl (flat_map (announced s0) es2) (heard (l_ctrl s)).
Proof.
  intros conf s0 es1 es2 HN HP HLi HA1 HA2 HL s Hq. unfold s, lan_run in *. rewrite fold_left_app in *.
  fold (lan_run conf s0 es1) in *. fold (lan_run conf (lan_run conf s0 es1) es2) in *.
  assert (HS1 : settled conf s0 (lan_run conf s0 es1)).
  { clear -HN HP HA1. pose proof (settled_start conf s0 HN HP) as HS. unfold lan_run. generalize dependent s0.
    intros s0 HN HP HS. assert (G : forall s, settled conf s0 s -> settled conf s0 (fold_left (lan_step conf) es1 s)).
    { induction HA1 as [|e es HE _ IH]; intros s Hs; [exact Hs|]. cbn [fold_left]. apply IH, settled_step; assumption. }
    apply G, HS. }
  pose proof (run_changes conf (fun a b => incl b a) no_loss s0 (@incl_refl change)) as H.
  assert (X : incl (all_changes s0 (lan_run conf s0 es1) ++ flat_map (announced s0) es2)
                   (all_changes s0 (lan_run conf (lan_run conf s0 es1) es2))).
  { apply H; [intros a b c I1 I2; eapply incl_tran; eassumption| |intros; apply complete_step; assumption|exact HS1|exact HA2|exact HL].
    intros a b c I. apply incl_app; [apply incl_appl, I|apply incl_appr, incl_refl]. }
  eapply incl_tran; [|eapply incl_tran; [exact X|]].
  - apply incl_appr, incl_refl.
  - unfold all_changes. rewrite Hq. cbn [pending flat_map]. rewrite app_nil_r. apply incl_refl.
Qed.

(** If nothing is lost or repeated, every change is heard exactly once. *)
Theorem C80_once : forall conf s0 es, network conf s0 -> l_packets s0 = [] -> l_ctrl s0 = newCtrl -> cc_listener conf = true ->
  Forall allowed es -> Forall no_loss es -> Forall no_copy es ->
  let s := lan_run conf s0 es in
  l_packets s = [] -> Permutation (heard (l_ctrl s)) (flat_map (announced s0) es).
Proof.
  intros conf s0 es HN HP HC HLi HA HL HCo s Hq.
  pose proof (run_changes conf (@Permutation change) (fun e => no_loss e /\ no_copy e) s0 (@Permutation_refl change)
    (@Permutation_trans change) (fun a b c H => Permutation_app_tail c H)) as H.
  assert (X : Permutation (all_changes s0 s) (all_changes s0 s0 ++ flat_map (announced s0) es)).
  { apply H; [intros s1 e H1 H2 (H3 & H4); apply exact_step; assumption|apply settled_start; assumption|exact HA|].
    rewrite Forall_forall in *. auto. }
  rewrite all_start in X by assumption. unfold all_changes in X. rewrite Hq in X. cbn [pending flat_map app] in X.
  rewrite app_nil_r in X. exact X.
Qed.

(** If moreover the network keeps the order, the changes are heard in the order
    they were made, over all members; and at any time what was heard is the
    beginning of what was made. *)
Theorem C80_order : forall conf s0 es, network conf s0 -> l_packets s0 = [] -> l_ctrl s0 = newCtrl -> cc_listener conf = true ->
  Forall allowed es -> Forall no_loss es -> Forall no_copy es -> Forall oldest_first es ->
  let s := lan_run conf s0 es in
  (exists later, flat_map (announced s0) es = heard (l_ctrl s) ++ later) /\
  (l_packets s = [] -> heard (l_ctrl s) = flat_map (announced s0) es).
Proof.
  intros conf s0 es HN HP HC HLi HA HL HCo HO s.
  pose proof (run_changes conf (@eq (list change)) (fun e => no_loss e /\ no_copy e /\ oldest_first e) s0 (@eq_refl _)
    (@eq_trans _) (fun a b c H => f_equal (fun x => x ++ c) H)) as H.
  assert (X : all_changes s0 s = all_changes s0 s0 ++ flat_map (announced s0) es).
  { apply H; [intros s1 e H1 H2 (H3 & H4 & H5); apply order_step; assumption|apply settled_start; assumption|exact HA|].
    rewrite Forall_forall in *. auto. }
  rewrite all_start in X by assumption. cbn [app] in X. unfold all_changes in X. split.
  - exists (pending s0 (l_packets s)). symmetry. exact X.
  - intros Hq. rewrite Hq in X. cbn [pending flat_map] in X. rewrite app_nil_r in X. exact X.
Qed.

(** The value last told for a property. *)
Definition last_value (a : address) (seoj code : Z) (l : list change) : option (list Z) :=
  fold_left (fun r x => let '(a', o', c', v) := x in if addr_eqb a' a && (o' =? seoj) && (c' =? code) then Some v else r) l None.

Lemma last_value_app a seoj code l x l' :
  (forall a' o' c' v', In (a', o', c', v') l' -> (a', o', c') <> (a, seoj, code)) ->
  last_value a seoj code (l ++ (a, seoj, code, x) :: l') = Some x.
Proof.
  intros H. unfold last_value. rewrite fold_left_app. cbn [fold_left].
  assert (E : addr_eqb a a = true) by (apply addr_eqb_iff; reflexivity). rewrite E, !Z.eqb_refl. cbn [andb].
  induction l' as [|[[[a' o'] c'] v'] l' IH]; [reflexivity|]. cbn [fold_left].
  replace (addr_eqb a' a && (o' =? seoj) && (c' =? code)) with false.
  - apply IH. intros. apply (H a'0 o'0 c'0 v'0). right. assumption.
  - symmetry. destruct (addr_eqb a' a) eqn:E1; [|reflexivity]. destruct (o' =? seoj) eqn:E2; [|reflexivity].
    destruct (c' =? code) eqn:E3; [|reflexivity]. exfalso. apply (H a' o' c' v'); [left; reflexivity|].
    apply addr_eqb_iff in E1. apply Z.eqb_eq in E2, E3. congruence.
Qed.

(** Then the value the listener was told last is the value set last. *)
Theorem C80_last_partial : forall conf s0 es1 i nd d code seoj v es2, network conf s0 -> l_packets s0 = [] -> l_ctrl s0 = newCtrl ->
  cc_listener conf = true -> let es := es1 ++ LSet i d code v :: es2 in
  Forall allowed es -> Forall no_loss es -> Forall no_copy es -> Forall oldest_first es ->
  nth_error (members s0) i = Some nd -> In nd (audible s0) -> announces_as nd d code = Some seoj ->
  (forall d' v', In (LSet i d' code v') es2 -> announces_as nd d' code <> Some seoj) ->
  let s := lan_run conf s0 es in
  l_packets s = [] -> last_value (n_addr nd) seoj code (heard (l_ctrl s)) = Some v.
Proof.
  intros conf s0 es1 i nd d code seoj v es2 HN HP HC HLi es HA HL HCo HO E Hnd An Hlast s Hq.
  destruct (C80_order conf s0 es HN HP HC HLi HA HL HCo HO) as (_ & X). fold s in X. rewrite (X Hq). unfold es.
  assert (HU : forall k x, nth_error (members s0) k = Some x -> n_addr x = n_addr nd -> k = i).
  { intros k x Ek Ea. destruct HN as (_ & _ & HD & _). rewrite NoDup_nth_error in HD. apply HD.
    - rewrite map_length. apply nth_error_Some. congruence.
    - rewrite !nth_error_map, E, Ek. cbn [option_map]. f_equal. rewrite !recorded_seen. congruence. }
  rewrite flat_map_app. cbn [flat_map announced]. rewrite E, An.
  replace (n_self (l_node s0) || negb (i =? 0)%nat) with true.
  2:{ apply audible_iff in Hnd. destruct Hnd as (k & Ek & Hk). assert (k = i) by (apply (HU k nd Ek); reflexivity). subst k.
      symmetry. unfold heard_member in Hk. destruct (n_self (l_node s0)); [reflexivity|]. destruct Hk as [Hk|Hk]; [discriminate Hk|].
      destruct i; [exfalso; apply Hk; reflexivity|reflexivity]. }
  cbn [app]. apply last_value_app. intros a' o' c' v' I Eq. apply in_flat_map in I. destruct I as (e & Ie & I).
  destruct e as [| | |k d' code' v''| | |]; cbn [announced] in I; try (destruct I; fail).
  destruct (nth_error (members s0) k) as [x|] eqn:Ek; [|destruct I]. destruct (announces_as x d' code') as [sj|] eqn:Ax; [|destruct I].
  destruct (n_self (l_node s0) || negb (k =? 0)%nat); [|destruct I]. destruct I as [I|[]]. injection I as E1 E2 E3 E4.
  injection Eq as F1 F2 F3. assert (k = i) by (apply (HU k x Ek); congruence). subst k.
  assert (x = nd) by congruence. subst x. apply (Hlast d' v''); congruence.
Qed.

End ChangeStatements.

(** ** A network *)

(** A controller at address 5, a node with two devices at address 7 and one with
    one device at address 9. *)
Definition ex_node (ops : list node_op) (ip : Z) : node :=
  match node_after ops with
  | Ok nd => at_address nd (mkAddress ip 3610) false
  | _ => mkNode [] [] 0 0 false NewAddress false []
  end.
Definition ex_conf : ctrl_conf := mkConf false true [(Some 3610, Some 5)].
Definition ex_net : lan unit :=
  mkLan (ex_node [NStart None] 5) newCtrl
    [mkHost (ex_node [NAddDevice PropsNode.ex_dev2; NAddDevice PropsNode.ex_dev; NStart None] 7) tt (no_callbacks unit);
     mkHost (ex_node [NAddDevice PropsNode.ex_dev; NStart None] 9) tt (no_callbacks unit)] [].

Lemma ex_lan_node ops ip : Forall node_op_ok ops -> Forall keeps_lists ops ->
  match node_after ops with
  | Ok nd => n_running nd && (length (n_devices nd) <=? 84)%nat &&
      forallb (fun c => existsb (fun k => (cl_grp k =? (be_value c / 65536) mod 256) && (cl_cls k =? (be_value c / 256) mod 256)) mra_table
                        && negb (is_profile c)) (map o_codes (n_devices nd))
  | _ => false
  end = true -> lan_node (ex_node ops ip).
Proof.
  unfold ex_node. intros H1 H2. destruct (node_after ops) as [nd| |] eqn:E; [|discriminate|discriminate]. intros H.
  apply andb_prop in H. destruct H as (H & H5). apply andb_prop in H. destruct H as (H3 & H4).
  exists ops, nd, (mkAddress ip 3610), false. split; [exact H1|]. split; [exact H2|]. split; [exact E|]. split; [reflexivity|].
  split; [exact H3|]. split; [apply Nat.leb_le, H4|]. rewrite forallb_forall in H5. apply Forall_forall. intros c Hc.
  specialize (H5 c Hc). apply andb_prop in H5. destruct H5 as (H5 & H6). split; [|apply Bool.negb_true_iff, H6].
  apply existsb_exists in H5. destruct H5 as (k & Ik & H5). exists k. apply andb_prop in H5. destruct H5 as (A & B).
  apply Z.eqb_eq in A, B. split; [exact Ik|]. auto.
Qed.

Example ex_network : network ex_conf ex_net.
Proof.
  destruct PropsNode.ex_dev_ok as (D1 & D2).
  split; [|split; [|split]].
  - unfold members, ex_net. cbn [l_node l_hosts map h_node].
    assert (H : forall o, obj_ok o -> node_op_ok (NAddDevice o)) by (intros o X; exact X).
    apply Forall_cons; [|apply Forall_cons; [|apply Forall_cons; [|apply Forall_nil]]]; apply ex_lan_node;
      try (vm_compute; reflexivity); repeat (apply Forall_cons || apply Forall_nil); auto; exact I.
  - repeat constructor; cbn; intros; discriminate.
  - replace (map (recorded ex_conf) (members ex_net)) with [mkAddress 5 3610; mkAddress 7 3610; mkAddress 9 3610]
      by (vm_compute; reflexivity).
    repeat constructor; cbn [In]; intuition discriminate.
  - right. repeat constructor; vm_compute; intuition discriminate.
Qed.

(** The node at address 9 announces itself and the announcement is lost; the
    controller searches; the answers are delivered out of order and one is
    repeated. *)
Example C79_example :
  let s := lan_run ex_conf ex_net
    [LAnnounce 2; LLose 0; LSearch 0 0x62; LDeliver 4; LRepeat 4; LDeliver 5; LDeliver 3; LDeliver 4; LDeliver 0; LDeliver 0; LDeliver 0; LDeliver 0] in
  (map view (ct_found (l_ctrl s)), length (l_packets s), map (expected ex_conf) (audible ex_net)) =
  ([(mkAddress 9 3610, [[2; 0x90; 1]]); (mkAddress 7 3610, [[1; 0x30; 1]; [2; 0x90; 1]])], O,
   [(mkAddress 7 3610, [[1; 0x30; 1]; [2; 0x90; 1]]); (mkAddress 9 3610, [[2; 0x90; 1]])]).
Proof. vm_compute. reflexivity. Qed.

(** One lost datagram hides a node: nothing is sent again. *)
Theorem C79_loss_refuted : exists es, Forall allowed es /\
  let s := lan_run ex_conf ex_net (LSearch 0 0x62 :: es) in
  l_packets s = [] /\ ~ incl (map (expected ex_conf) (audible ex_net)) (map view (ct_found (l_ctrl s))).
Proof.
  exists [LLose 1; LDeliver 0; LDeliver 0; LDeliver 0]. split; [repeat constructor|]. cbv zeta.
  split; [vm_compute; reflexivity|]. intros H.
  specialize (H (mkAddress 7 3610, [[1; 0x30; 1]; [2; 0x90; 1]])). revert H.
  replace (map view _) with [(mkAddress 9 3610, [[2; 0x90; 1]])] by (vm_compute; reflexivity).
  intros H. destruct H as [H|[]]; [vm_compute; left; reflexivity|discriminate H].
Qed.

(** The node at address 7 switches its device on (0x30) and off (0x31), the one at
    address 9 switches on between. *)
Example C80_example :
  let es := [LSet 1 0 0x80 [0x30]; LSet 2 0 0x80 [0x30]; LSet 1 0 0x80 [0x31]] in
  let s := lan_run ex_conf ex_net (es ++ repeat (LDeliver 0) 9) in
  (heard (l_ctrl s), flat_map (announced ex_net) es, length (l_packets s),
   last_value (mkAddress 7 3610) 0x013001 0x80 (heard (l_ctrl s))) =
  ([(mkAddress 7 3610, 0x013001, 0x80, [0x30]); (mkAddress 9 3610, 0x029001, 0x80, [0x30]);
    (mkAddress 7 3610, 0x013001, 0x80, [0x31])],
   [(mkAddress 7 3610, 0x013001, 0x80, [0x30]); (mkAddress 9 3610, 0x029001, 0x80, [0x30]);
    (mkAddress 7 3610, 0x013001, 0x80, [0x31])], O, Some [0x31]).
Proof. vm_compute. reflexivity. Qed.

(** If the network exchanges two datagrams the value told last is not the value
    the device has, although nothing is lost or repeated: the message has no
    number that the controller looks at. *)
Theorem C80_order_refuted : exists es, Forall allowed es /\ Forall no_loss es /\ Forall no_copy es /\
  let s := lan_run ex_conf ex_net es in
  l_packets s = [] /\
  last_value (mkAddress 7 3610) 0x013001 0x80 (heard (l_ctrl s)) = Some [0x30] /\
  (exists h o, nth_error (l_hosts s) 0 = Some h /\ nth_error (n_devices (h_node h)) 0 = Some o /\
     LookupPropertyData (o_props o) 0x80 = Ok [0x31]).
Proof.
  exists ([LSet 1 0 0x80 [0x30]; LSet 1 0 0x80 [0x31]; LDeliver 3] ++ repeat (LDeliver 0) 5).
  split. { repeat constructor; cbn; try lia; unfold is_byte; lia. }
  split; [repeat constructor|]. split; [repeat constructor|]. cbv zeta.
  split; [vm_compute; reflexivity|]. split; [vm_compute; reflexivity|].
  eexists; eexists. split; [vm_compute; reflexivity|]. split; [vm_compute; reflexivity|]. vm_compute. reflexivity.
Qed.

Print Assumptions C79_sound.
Print Assumptions C79_found.
Print Assumptions C79_announced.
Print Assumptions C79_settles.
Print Assumptions C79_search.
Print Assumptions C79_loss_refuted.
Print Assumptions C80_sound.
Print Assumptions C80_complete.
Print Assumptions C80_once.
Print Assumptions C80_order.
Print Assumptions C80_last_partial.
Print Assumptions C80_order_refuted.

(** C111: how long a search lasts and what it finds. *)

From Verif Require Import Go GoFacts Encoding EncodingFacts Protocol Parser MessageFacts ParserFacts ProtocolFacts StdDB Property
  PropertyFacts Object ObjectFacts Spec Node NodeFacts Handler HandlerFacts Remote RemoteFacts PropsRemote SearchTime.
From Coq Require Import ZifyBool ZifyNat.
Local Open Scope Z_scope.

(** ** Statement vocabulary *)

Definition ms (n : Z) : Z := n * 1000000.

(** The moments that end a search begun at [now]: the deadline of the context, or three
    seconds if it has none, and the cancellation, if there is one. *)
Definition moments (c : context) (now : Z) : list Z :=
  match cx_deadline c with Some d => [d] | None => [now + ms 3000] end ++
  match cx_cancel c with Some t => [t] | None => [] end.
(** The first of them. *)
Definition limit (c : context) (now d : Z) : Prop := In d (moments c now) /\ Forall (fun x => d <= x) (moments c now).

(** Sleeps of 200 ms that the scheduler makes longer by less than [late]. *)
Definition sleeps_ok (sleeps : nat -> Z) (late : Z) : Prop := forall k, ms 200 <= sleeps k < ms 200 + late.

(** ** Facts *)

Lemma limit_exists c now : exists d, limit c now d /\ forall t, is_done (search_context c now) t = (d <=? t).
Proof.
  unfold limit, moments, is_done, search_context, WithTimeout, DefaultResponseTimeout, ms.
  destruct c as [[d|] [k|]]; cbn [cx_deadline cx_cancel earlier app].
  - exists (Z.min d k). split; [|reflexivity]. cbn [In]. split; [lia|]. repeat constructor; lia.
  - exists d. split; [|reflexivity]. cbn [In]. split; [lia|]. repeat constructor; lia.
  - exists (Z.min (now + 3 * 1000000000) k). change (3 * 1000000000) with (3000 * 1000000). split; [|reflexivity].
    cbn [In]. split; [lia|]. repeat constructor; lia.
  - exists (now + 3000 * 1000000). split; [|reflexivity]. cbn [In]. split; [lia|]. repeat constructor; lia.
Qed.

Lemma limit_unique c now d d' : limit c now d -> limit c now d' -> d = d'.
Proof.
  intros (A & B) (A' & B'). rewrite Forall_forall in B, B'. specialize (B _ A'). specialize (B' _ A). lia.
Qed.

Lemma loop_bounds c sleeps late d : sleeps_ok sleeps late -> (forall t, is_done c t = (d <=? t)) ->
  forall fuel k t T, search_loop c sleeps fuel k t = Some T ->
  Z.max t d <= T /\ (T = t \/ T < d + ms 200 + late).
Proof.
  intros HS HD. induction fuel as [|f IH]; intros k t T; cbn [search_loop]; [discriminate|]. rewrite HD.
  destruct (d <=? t) eqn:E; [intros [= <-]; lia|]. intros H. specialize (IH _ _ _ H). pose proof (HS k) as X. unfold ms in *. lia.
Qed.

Lemma loop_ends c sleeps late d : sleeps_ok sleeps late -> (forall t, is_done c t = (d <=? t)) ->
  forall n k t, d - t <= Z.of_nat n -> exists T, search_loop c sleeps (S n) k t = Some T.
Proof.
  intros HS HD. induction n as [|n IH]; intros k t H.
  - exists t. cbn [search_loop]. rewrite HD. replace (d <=? t) with true by lia. reflexivity.
  - cbn [search_loop] in *. rewrite HD. destruct (d <=? t) eqn:E; [eauto|].
    pose proof (HS k) as X. unfold ms in X. destruct (IH (S k) (t + sleeps k) ltac:(lia)) as (T & HT). exists T.
    exact HT.
Qed.

Lemma search_running nd : n_running nd = true ->
  exists nd', SearchAllObjectsWithESV nd ESVReadRequest = (nd', None).
Proof.
  intros H. unfold SearchAllObjectsWithESV, AnnounceMessage. rewrite H. cbn [negb]. destruct (NextTID nd). eauto.
Qed.

(** ** C111 *)

(** A search of a running controller whose message goes out ends, without error, not
    before the first of its moments and less than one sleep after it; at once if that
    moment is over when the message is out. *)
Theorem C111_ends : forall nd c now sending sleeps late d, n_running nd = true -> sleeps_ok sleeps late -> limit c now d ->
  (exists fuel r, Search nd c now sending false sleeps fuel = Some r) /\
  (forall fuel nd' e T, Search nd c now sending false sleeps fuel = Some (nd', e, T) ->
     e = None /\ Z.max (now + sending) d <= T /\ (now + sending < d -> T < d + ms 200 + late) /\ (d <= now + sending -> T = now + sending)).
Proof.
  intros nd c now sending sleeps late d HR HS HL. destruct (limit_exists c now) as (d' & HL' & HD).
  rewrite <- (limit_unique c now d d' HL HL') in HD. destruct (search_running nd HR) as (nd1 & E). unfold Search. rewrite E. split.
  - destruct (loop_ends _ sleeps late d HS HD (Z.to_nat (d - (now + sending))) 0 (now + sending) ltac:(lia)) as (T & HT).
    eexists. eexists. rewrite HT. reflexivity.
  - intros fuel nd' e T H. destruct (search_loop (search_context c now) sleeps fuel 0 (now + sending)) as [T'|] eqn:EL; [|discriminate H].
    injection H as _ <- <-. destruct (loop_bounds _ sleeps late d HS HD _ _ _ _ EL) as (A & B). split; [reflexivity|].
    split; [exact A|]. split; [lia|]. intros X. destruct fuel as [|f]; [discriminate EL|]. cbn [search_loop] in EL. rewrite HD in EL.
    replace (d <=? now + sending) with true in EL by lia. injection EL as <-. reflexivity.
Qed.

(** However many rounds it is given, it is the same search. *)
Theorem C111_same : forall nd c now sending fails sleeps fuel fuel' r r',
  Search nd c now sending fails sleeps fuel = Some r -> Search nd c now sending fails sleeps fuel' = Some r' -> r = r'.
Proof.
  intros nd c now sending fails sleeps fuel fuel' r r'. unfold Search. destruct (SearchAllObjectsWithESV nd ESVReadRequest) as [nd1 [e|]]; [congruence|].
  destruct fails; [congruence|].
  assert (G : forall f f' k t T T', search_loop (search_context c now) sleeps f k t = Some T ->
            search_loop (search_context c now) sleeps f' k t = Some T' -> T = T').
  { induction f as [|f IH]; intros [|f'] k t T T'; cbn [search_loop]; try discriminate.
    destruct (is_done _ t); [congruence|]. apply IH. }
  destruct (search_loop _ _ fuel _ _) eqn:E; [|discriminate]. destruct (search_loop _ _ fuel' _ _) eqn:E'; [|discriminate].
  cbn [option_map]. intros [= <-] [= <-]. rewrite (G _ _ _ _ _ _ E E'). reflexivity.
Qed.

(** One read request for the instance list of the node profiles goes out to all, also
    when the context is already done. *)
Theorem C111_asks : forall nd c now sending fails sleeps fuel nd' e T, n_running nd = true -> 0 <= n_lastTID nd <= 65535 ->
  Search nd c now sending fails sleeps fuel = Some (nd', e, T) ->
  exists m, n_sent nd' = n_sent nd ++ [Multicast m] /\ DEOJ m = 0x0EF001 /\ SEOJ m = 0x0EF001 /\ m_esv m = 0x62 /\ m_ep m = [mkPProp 0xD6 []] /\
    (e = None <-> fails = false).
Proof.
  intros nd c now sending fails sleeps fuel nd' e T HR HT H.
  destruct (C41_search_all nd 0x62 HT HR ltac:(lia)) as (m & A & B & C & D & E & F & _).
  unfold Search in H. change ESVReadRequest with 0x62 in H. destruct (SearchAllObjectsWithESV nd 0x62) as [nd1 e1]. cbn [fst snd] in *. subst e1.
  exists m. destruct fails.
  - injection H as <- <- _. repeat split; try assumption; discriminate.
  - destruct (search_loop _ _ _ _ _); [|discriminate H]. injection H as <- <- _. repeat split; assumption.
Qed.

(** A search that cannot be sent ends at once with an error. *)
Theorem C111_fails : forall nd c now sending sleeps fuel,
  (n_running nd = false -> forall fails, exists e, Search nd c now sending fails sleeps fuel = Some (nd, Some e, now)) /\
  (n_running nd = true -> exists nd' e, Search nd c now sending true sleeps fuel = Some (nd', Some e, now + sending)).
Proof.
  intros nd c now sending sleeps fuel. unfold Search. split.
  - intros HR fails. unfold SearchAllObjectsWithESV, AnnounceMessage. rewrite HR. cbn [negb]. eauto.
  - intros HR. destruct (search_running nd HR) as (nd' & ->). eauto.
Qed.

Definition addr_dec (a b : address) : {a = b} + {a <> b}.
Proof. decide equality; apply Z.eq_dec. Defined.

Lemma known_kept conf nd ct m a : received m -> known ct a -> known (ctrl_receive conf nd ct m) a.
Proof.
  intros HR HK. unfold known in *. destruct (C38_step conf nd ct m HR) as [(n & _ & -> & _)|(_ & -> & _)]; [|exact HK].
  rewrite map_app. apply in_or_app. left. exact HK.
Qed.

(** What the controller knows when the search returns: every node whose answer came
    before the first of the moments (with objects it can describe, see C37), and no node
    but those it knew before and those that were announced before the return. *)
Theorem C111_found : forall conf nd c now sending sleeps late d fuel nd' e T ct arrivals, n_running nd = true -> sleeps_ok sleeps late ->
  limit c now d -> Search nd c now sending false sleeps fuel = Some (nd', e, T) -> Forall (fun x => received (snd x)) arrivals ->
  let ct' := table_at conf nd' ct arrivals T in
  (forall t m codes, In (t, m) arrivals -> t <= d -> announcement conf nd' m -> instance_list m codes -> Forall acceptable codes ->
     known ct' (sender conf m)) /\
  (exists more, ct_found ct' = ct_found ct ++ more /\
     Forall (fun n => exists t m codes, In (t, m) arrivals /\ t <= T /\ announcement conf nd' m /\ instance_list m codes /\
               describes (sender conf m) codes n) more).
Proof.
  intros conf nd c now sending sleeps late d fuel nd' e T ct arrivals HR HS HL H HF ct'.
  destruct (C111_ends nd c now sending sleeps late d HR HS HL) as (_ & B). destruct (B _ _ _ _ H) as (_ & HT & _). clear B H.
  assert (LE : d <= T) by lia. subst ct'. unfold table_at.
  set (l := filter (fun x => fst x <=? T) arrivals).
  assert (HFl : Forall (fun x => received (snd x)) l).
  { apply Forall_forall. intros x Hx. unfold l in Hx. apply filter_In in Hx. rewrite Forall_forall in HF. apply HF, Hx. }
  split.
  - intros t m codes HI Ht HA HC HAc. assert (HIl : In (t, m) l) by (unfold l; apply filter_In; split; [exact HI|cbn [fst]; lia]).
    clearbody l. revert ct. induction HFl as [|[t0 m0] l Hm HFl IH]; intros ct; [destruct HIl|]. cbn [fold_left snd].
    destruct HIl as [[= -> ->]|HIl]; [|apply IH, HIl].
    assert (K : known (ctrl_receive conf nd' ct m) (sender conf m)).
    { destruct (in_dec addr_dec (sender conf m) (map rn_addr (ct_found ct))) as [I|N].
      - apply known_kept; [exact Hm|exact I].
      - destruct (C37_discovered_partial conf nd' ct m codes HA N HC HAc) as (n & E & (D & _) & _). unfold known. rewrite E, map_app.
        apply in_or_app. right. left. exact D. }
    generalize dependent (ctrl_receive conf nd' ct m). clear -HFl. induction HFl as [|x l Hx HFl IH]; intros ct K; [exact K|].
    cbn [fold_left]. apply IH, known_kept; assumption.
  - assert (E : fold_left (fun ct x => ctrl_receive conf nd' ct (snd x)) l ct = ctrl_run conf (map (fun x => Receives nd' (snd x)) l) ct).
    { clear. unfold ctrl_run. revert ct. induction l as [|x l IH]; intros ct; [reflexivity|]. cbn [fold_left map ctrl_step]. apply IH. }
    rewrite E. destruct (run_grows conf (map (fun x => Receives nd' (snd x)) l) ct) as (more & M1 & _ & M2).
    + apply Forall_forall. intros ev Hev. apply in_map_iff in Hev. destruct Hev as (x & <- & Hx). rewrite Forall_forall in HFl. exact (HFl x Hx).
    + intros X. apply in_map_iff in X. destruct X as (x & X & _). discriminate X.
    + exists more. split; [exact M1|]. eapply Forall_impl; [|exact M2]. intros n (nd0 & m & ct0 & I & HA & _ & codes & HC & _ & HD).
      apply in_map_iff in I. destruct I as ([t m0] & [= <- <-] & I). unfold l in I. apply filter_In in I. cbn [fst snd] in *.
      exists t, m0, codes. destruct I as (I1 & I2). split; [exact I1|]. split; [lia|]. auto.
Qed.

(** A search is not shorter because everything has answered, and not longer for nodes
    that are slow: what comes after the return is not found. *)
Theorem C111_late : forall conf nd ct arrivals t, Forall (fun x => t < fst x) arrivals -> table_at conf nd ct arrivals t = ct.
Proof.
  intros conf nd ct arrivals t H. unfold table_at. assert (E : filter (fun x => fst x <=? t) arrivals = []).
  { induction H as [|x l Hx _ IH]; [reflexivity|]. cbn [filter]. replace (fst x <=? t) with false by lia. exact IH. }
  rewrite E. reflexivity.
Qed.

(** ** Concrete searches *)

Definition ex_arrivals : list (Z * message) :=
  [(ms 1000, ex_from 1 1 [2; 0x90; 1]); (ms 2900, ex_from 2 1 [2; 0x90; 2]); (ms 3010, ex_from 3 1 [2; 0x90; 3]);
   (ms 3500, ex_from 4 1 [2; 0x90; 4])].
Definition ex_search (c : context) : option (option err * Z * list address) :=
  match Search ex_ctrl_node c 0 (ms 2) false (fun _ => ms 201) 100 with
  | Some (nd, e, t) => Some (e, t, map rn_addr (ct_found (table_at ex_conf nd newCtrl ex_arrivals t)))
  | None => None
  end.

(** Without a deadline three seconds and a bit; with one, with a cancellation, and with
    a context that is done from the beginning. *)
Example C111_example :
  map ex_search [Background; mkContext (Some (ms 10000)) None; mkContext None (Some (ms 1500)); mkContext (Some (ms 10000)) (Some 0)] =
  [Some (None, ms 3017, [mkAddress 1 3610; mkAddress 2 3610; mkAddress 3 3610]);
   Some (None, ms 10052, [mkAddress 1 3610; mkAddress 2 3610; mkAddress 3 3610; mkAddress 4 3610]);
   Some (None, ms 1610, [mkAddress 1 3610]);
   Some (None, ms 2, [])].
Proof. vm_compute. reflexivity. Qed.

Example C111_hypotheses_example :
  n_running ex_ctrl_node = true /\ sleeps_ok (fun _ => ms 201) (ms 2) /\ limit Background 0 (ms 3000) /\ limit (mkContext (Some (ms 10000)) (Some (ms 1500))) 0 (ms 1500).
Proof.
  split; [vm_compute; reflexivity|]. unfold sleeps_ok, limit, ms. split; [intros; lia|].
  split; (split; [cbn; lia|repeat constructor; unfold ms; lia]).
Qed.

Print Assumptions C111_ends.
Print Assumptions C111_same.
Print Assumptions C111_asks.
Print Assumptions C111_fails.
Print Assumptions C111_found.
Print Assumptions C111_late.

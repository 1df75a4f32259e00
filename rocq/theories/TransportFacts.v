(** Lemmas about reception, addresses and configuration. *)

From Coq Require Import String Ascii Permutation ZifyBool ZifyNat.
From Verif Require Import Go GoFacts Encoding EncodingFacts Protocol Parser Spec
  MessageFacts ParserFacts ProtocolFacts Transport.
Local Open Scope Z_scope.
Local Open Scope list_scope.

(** ** Datagrams *)

(** A datagram the receiver accepts: at least a header and the two EHD bytes. *)
Definition acceptable (d : datagram) : Prop :=
  (12 <= length (d_bytes d))%nat /\ firstn 2 (d_bytes d) = [0x10; 0x81].
Definition byte_datagram (d : datagram) : Prop := Forall (fun b => 0 <= b < 256) (d_bytes d).

Lemma Forall_firstn {A} (P : A -> Prop) n l : Forall P l -> Forall P (firstn n l).
Proof. intros H. revert n. induction H; intros [|n]; cbn; constructor; auto. Qed.

Lemma firstn2_firstn {A} n (l : list A) : (2 <= n)%nat -> firstn 2 (firstn n l) = firstn 2 l.
Proof. intros H. rewrite firstn_firstn. f_equal. lia. Qed.

Lemma max_packet : (Z.to_nat MaxPacketSize = 1024)%nat.
Proof. vm_compute. reflexivity. Qed.

Lemma ReadMessage_ok d : byte_datagram d -> acceptable d ->
  exists m0, NewMessageWithBytes (firstn (Z.to_nat MaxPacketSize) (d_bytes d)) = Ok m0 /\
             ReadMessage d = Ok (SetFrom m0 (d_from d)).
Proof.
  intros Hb [H1 H2]. rewrite max_packet.
  assert (HB : Forall (fun b => 0 <= b < 256) (firstn 1024 (d_bytes d))) by (apply Forall_firstn; exact Hb).
  destruct (proj2 (parse_accepts (firstn 1024 (d_bytes d)) HB)) as [m0 E].
  - split; [unfold len; rewrite firstn_length; lia|rewrite firstn2_firstn by lia; exact H2].
  - exists m0. split; [exact E|]. unfold ReadMessage. rewrite max_packet, E. reflexivity.
Qed.

Lemma ReadMessage_err d : byte_datagram d -> ~ acceptable d -> ReadMessage d = Err ErrInvalid.
Proof.
  intros Hb Hn. unfold ReadMessage. rewrite max_packet.
  assert (HB : Forall (fun b => 0 <= b < 256) (firstn 1024 (d_bytes d))) by (apply Forall_firstn; exact Hb).
  destruct (parse_total (firstn 1024 (d_bytes d)) HB) as [[m E]|E]; rewrite E; [|reflexivity].
  exfalso. apply Hn. destruct (proj1 (parse_accepts (firstn 1024 (d_bytes d)) HB)) as [H1 H2]; [eauto|].
  unfold len in H1. rewrite firstn_length in H1. rewrite firstn2_firstn in H2 by lia. split; [lia|exact H2].
Qed.

(** What the handler gets for an accepted datagram. *)
Definition delivery (pt : Z) (d : datagram) (m : message) : Prop :=
  exists m0, NewMessageWithBytes (firstn 1024 (d_bytes d)) = Ok m0 /\
             m = SetPacketType (SetFrom m0 (d_from d)) pt.

Lemma loop_prefix pt good rest :
  Forall byte_datagram good -> Forall acceptable good ->
  exists ms, receive_loop pt (map RDatagram good ++ rest)
             = (ms ++ fst (receive_loop pt rest), snd (receive_loop pt rest)) /\
             Forall2 (delivery pt) good ms.
Proof.
  intros HB HA. induction good as [|d good IH].
  - exists []. split; [cbn; destruct (receive_loop pt rest); reflexivity|constructor].
  - inv HB. inv HA. destruct IH as (ms & E & F); auto.
    destruct (ReadMessage_ok d) as (m0 & E1 & E2); auto.
    exists (SetPacketType (SetFrom m0 (d_from d)) pt :: ms). split.
    + cbn [map app receive_loop]. rewrite E2, E. reflexivity.
    + constructor; [|exact F]. exists m0. rewrite <- max_packet. auto.
Qed.

Lemma loop_bad pt d rest : byte_datagram d -> ~ acceptable d ->
  receive_loop pt (RDatagram d :: rest) = ([], LoopEnded).
Proof. intros HB HA. cbn [receive_loop]. rewrite ReadMessage_err; auto. Qed.

Lemma acceptable_dec d : {acceptable d} + {~ acceptable d}.
Proof.
  unfold acceptable. destruct (le_dec 12 (length (d_bytes d))); [|right; tauto].
  destruct (list_eq_dec Z.eq_dec (firstn 2 (d_bytes d)) [0x10; 0x81]); [left|right]; tauto.
Defined.

(** ** Schedules of the handling goroutines *)

Lemma spawn_all ms st h :
  spawn_run (ms, st, h) (repeat SpawnNext (length ms)) = Some ([], st ++ ms, h).
Proof.
  revert st. induction ms as [|m ms IH]; intros st; cbn; [rewrite app_nil_r; reflexivity|].
  rewrite IH, <- app_assoc. reflexivity.
Qed.

Lemma spawn_run_app l1 l2 st : spawn_run st (l1 ++ l2) =
  match spawn_run st l1 with None => None | Some st => spawn_run st l2 end.
Proof.
  revert st. induction l1 as [|a l1 IH]; intros st; cbn; [reflexivity|].
  destruct (spawn_run1 st a); auto.
Qed.

Lemma spawn_perm p : forall st h, Permutation st p -> exists l, spawn_run ([], st, h) l = Some ([], [], h ++ p).
Proof.
  induction p as [|m p IH]; intros st h HP.
  - apply Permutation_sym, Permutation_nil in HP. subst. exists []. rewrite app_nil_r. reflexivity.
  - assert (Hin : In m st) by (apply (Permutation_in m (Permutation_sym HP)); left; reflexivity).
    destruct (in_split _ _ Hin) as (a & b & ->).
    destruct (IH (a ++ b) (h ++ [m])) as [l Hl].
    + apply Permutation_cons_inv with m. rewrite <- HP. apply Permutation_middle.
    + exists (RunNth (length a) :: l). cbn [spawn_run spawn_run1].
      assert (E : nth_error (a ++ m :: b) (length a) = Some m).
      { rewrite nth_error_app2 by lia. rewrite Nat.sub_diag. reflexivity. }
      rewrite E.
      replace (firstn (length a) (a ++ m :: b)) with a
        by (rewrite firstn_app, firstn_all, Nat.sub_diag; cbn; rewrite app_nil_r; reflexivity).
      replace (skipn (S (length a)) (a ++ m :: b)) with b
        by (rewrite skipn_app, skipn_all2 by lia; replace (S (length a) - length a)%nat with 1%nat by lia; reflexivity).
      rewrite Hl, <- app_assoc. reflexivity.
Qed.

Lemma spawn_keeps l : forall t s h t' s' h', spawn_run (t, s, h) l = Some (t', s', h') ->
  Permutation (t ++ s ++ h) (t' ++ s' ++ h').
Proof.
  induction l as [|a l IH]; intros t s h t' s' h' E.
  - cbn in E. inv E. reflexivity.
  - cbn [spawn_run] in E. destruct a as [|k]; cbn [spawn_run1] in E.
    + destruct t as [|m t]; [discriminate E|]. apply IH in E. rewrite <- E.
      rewrite <- (app_assoc s [m] h). cbn [app].
      rewrite (app_assoc t s (m :: h)), (app_assoc t s h). apply Permutation_middle.
    + destruct (nth_error s k) as [m|] eqn:Ek; [|discriminate E]. apply IH in E. rewrite <- E.
      apply Permutation_app_head.
      apply nth_error_split in Ek as (a & b & -> & <-).
      replace (firstn (length a) (a ++ m :: b)) with a
        by (rewrite firstn_app, firstn_all, Nat.sub_diag; cbn; rewrite app_nil_r; reflexivity).
      replace (skipn (S (length a)) (a ++ m :: b)) with b
        by (rewrite skipn_app, skipn_all2 by lia; replace (S (length a) - length a)%nat with 1%nat by lia; reflexivity).
      rewrite <- (Permutation_middle a b m). rewrite (app_assoc (a ++ b) h [m]).
      rewrite (Permutation_app_comm ((a ++ b) ++ h) [m]). reflexivity.
Qed.

(** ** Long frames *)

Lemma split_nil k : split_props k [] = repeat (0, []) k.
Proof. induction k; cbn; congruence. Qed.

Lemma split_props_length k : forall d, length (split_props k d) = k.
Proof.
  induction k as [|k IH]; intros d; [reflexivity|]. cbn [split_props].
  destruct d as [|c [|n rest]]; [cbn; rewrite IH; reflexivity|cbn; rewrite IH; reflexivity|].
  destruct (n <=? Z.of_nat (length rest)); cbn; rewrite IH; reflexivity.
Qed.

Lemma last_repeat {A} (a : A) k : last (repeat a k) a = a.
Proof. induction k as [|[|k] IH]; cbn in *; auto. Qed.

Lemma split_last k : forall d, Forall (fun b => 0 <= b < 256) d ->
  snd (last (split_props k d) (0, [])) <> [] ->
  (length (flat_map wire_prop (split_props k d)) <= length d)%nat.
Proof.
  induction k as [|k IH]; intros d HB HL; [cbn in HL; congruence|].
  assert (Htail : forall p d', split_props (S k) d = p :: split_props k d' -> k <> O ->
            snd (last (split_props k d') (0, [])) <> []).
  { intros p d' E Hk. rewrite E in HL. pose proof (split_props_length k d') as L.
    destruct (split_props k d') eqn:E'; [cbn in L; lia|]. exact HL. }
  cbn [split_props] in *. destruct d as [|c [|n rest]].
  - destruct k; [cbn in HL; congruence|].
    specialize (Htail _ _ eq_refl ltac:(lia)). rewrite split_nil in Htail.
    rewrite last_repeat in Htail. cbn in Htail. congruence.
  - destruct k; [cbn in HL; congruence|].
    specialize (Htail _ _ eq_refl ltac:(lia)). rewrite split_nil in Htail.
    rewrite last_repeat in Htail. cbn in Htail. congruence.
  - inv HB. inv H2. destruct (n <=? Z.of_nat (length rest)) eqn:En.
    + cbn [flat_map]. rewrite app_length. unfold wire_prop at 1. cbn [fst snd length].
      rewrite firstn_length.
      destruct k.
      * cbn. lia.
      * specialize (Htail _ _ eq_refl ltac:(lia)).
        apply IH in Htail; [|rewrite <- (firstn_skipn (Z.to_nat n) rest) in H4; apply Forall_app in H4; tauto].
        rewrite skipn_length in Htail. lia.
    + destruct k; [cbn in HL; congruence|].
      specialize (Htail _ _ eq_refl ltac:(lia)). apply IH in Htail; [|assumption].
      cbn [flat_map]. rewrite app_length. unfold wire_prop at 1. cbn [fst snd length]. lia.
Qed.


(** ** Addresses *)

Lemma has_char_spec c s : has_char c s = true <-> exists a b, s = (a ++ String c b)%string.
Proof.
  induction s as [|x s IH]; cbn.
  - split; [discriminate|]. intros ([|y a] & b & E); cbn in E; discriminate E.
  - split.
    + intros H. apply orb_prop in H as [H|H].
      * apply Ascii.eqb_eq in H. subst. exists EmptyString, s. reflexivity.
      * apply IH in H as (a & b & ->). exists (String x a), b. reflexivity.
    + intros ([|y a] & b & E); cbn in E; injection E as -> ->.
      * rewrite Ascii.eqb_refl. reflexivity.
      * apply orb_true_iff. right. apply IH. eauto.
Qed.

Lemma IsIPv6Address_spec s : IsIPv6Address s = has_char ":" s.
Proof. destruct s; reflexivity. Qed.

Lemma split_on_none c s : has_char c s = false -> split_on c s = [s].
Proof.
  induction s as [|x s IH]; cbn; [reflexivity|]. intros H.
  apply orb_false_iff in H as [H1 H2]. rewrite H1, IH by exact H2. reflexivity.
Qed.

Lemma split_on_some c h r : has_char c h = false ->
  split_on c (h ++ String c r)%string = h :: split_on c r.
Proof.
  induction h as [|x h IH]; cbn; intros H.
  - rewrite Ascii.eqb_refl. reflexivity.
  - apply orb_false_iff in H as [H1 H2]. rewrite H1, IH by exact H2. reflexivity.
Qed.

Lemma split_on_not_nil c s : split_on c s <> [].
Proof.
  destruct s as [|x s]; cbn; [discriminate|]. destruct (Ascii.eqb x c); [discriminate|].
  destruct (split_on c s); discriminate.
Qed.

Lemma first_char c s : has_char c s = false \/ exists h r, has_char c h = false /\ s = (h ++ String c r)%string.
Proof.
  induction s as [|x s IH]; [left; reflexivity|]. cbn.
  destruct (Ascii.eqb x c) eqn:E.
  - right. exists EmptyString, s. split; [reflexivity|]. apply Ascii.eqb_eq in E. subst. reflexivity.
  - destruct IH as [IH|(h & r & H1 & ->)]; [left; rewrite IH; reflexivity|].
    right. exists (String x h), r. cbn. rewrite E, H1. auto.
Qed.

(** [picked addrs l]: [l] are the parts in front of the first slash of those
    addresses that have a slash and no colon in front of it. *)
Inductive picked : list string -> list string -> Prop :=
| picked_nil : picked [] []
| picked_take h r addrs l :
    has_char "/" h = false -> has_char ":" h = false -> picked addrs l ->
    picked ((h ++ String "/" r)%string :: addrs) (h :: l)
| picked_colon h r addrs l :
    has_char "/" h = false -> has_char ":" h = true -> picked addrs l ->
    picked ((h ++ String "/" r)%string :: addrs) l
| picked_plain a addrs l : has_char "/" a = false -> picked addrs l -> picked (a :: addrs) l.

Lemma collect_picked addrs : picked addrs (collect_addrs addrs).
Proof.
  induction addrs as [|a addrs IH]; [constructor|]. cbn [collect_addrs].
  destruct (first_char "/" a) as [H|(h & r & H1 & ->)].
  - rewrite split_on_none by exact H. apply picked_plain; assumption.
  - rewrite split_on_some by exact H1. pose proof (split_on_not_nil "/" r).
    destruct (split_on "/" r) as [|x l]; [congruence|]. rewrite IsIPv6Address_spec.
    destruct (has_char ":" h) eqn:E; [apply picked_colon|apply picked_take]; assumption.
Qed.

Lemma app_char_inj c h r h' r' : has_char c h = false -> has_char c h' = false ->
  (h ++ String c r)%string = (h' ++ String c r')%string -> h = h' /\ r = r'.
Proof.
  revert h'. induction h as [|x h IH]; intros [|y h'] H H' E; cbn in *.
  - injection E as ->. auto.
  - injection E as -> _. rewrite Ascii.eqb_refl in H'. discriminate H'.
  - injection E as <- _. rewrite Ascii.eqb_refl in H. discriminate H.
  - injection E as -> E. apply orb_false_iff in H as [_ H]. apply orb_false_iff in H' as [_ H'].
    destruct (IH h' H H' E) as [-> ->]. auto.
Qed.

Lemma has_char_app c h r : has_char c (h ++ String c r)%string = true.
Proof. apply has_char_spec. eauto. Qed.

Lemma picked_fun addrs l : picked addrs l -> forall l', picked addrs l' -> l = l'.
Proof.
  induction 1 as [|h r addrs l H1 H2 H IH|h r addrs l H1 H2 H IH|a addrs l H1 H IH];
    intros l' H'; inversion H' as [|h' r' ? ? G1 G2 G E|h' r' ? ? G1 G2 G E|? ? ? G1 G E]; subst; auto.
  all: try (match goal with E : (_ ++ String _ _)%string = (_ ++ String _ _)%string |- _ =>
              apply app_char_inj in E; [destruct E; subst|assumption|assumption] end).
  all: try (f_equal; auto; fail); try congruence; auto.
  all: match goal with H : has_char ?c (_ ++ String ?c _)%string = false |- _ =>
         rewrite has_char_app in H; discriminate H end.
Qed.

Lemma land_bit flags k : 0 <= k -> (Z.land flags (2 ^ k) =? 0) = negb (Z.testbit flags k).
Proof.
  intros Hk. destruct (Z.testbit flags k) eqn:E; cbn.
  - apply Z.eqb_neq. intros H. assert (Z.testbit (Z.land flags (2 ^ k)) k = true).
    { rewrite Z.land_spec, E, Z.pow2_bits_true by lia. reflexivity. }
    rewrite H, Z.bits_0 in H0. discriminate H0.
  - apply Z.eqb_eq. apply Z.bits_inj'. intros n Hn. rewrite Z.land_spec, Z.bits_0, Z.pow2_bits_eqb by lia.
    destruct (Z.eqb_spec k n); [subst; rewrite E; reflexivity|]. apply andb_false_r.
Qed.

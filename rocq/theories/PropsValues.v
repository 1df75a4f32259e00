(** C107: nodes and objects that are not shared behave as values. *)

From Verif Require Import Go Encoding Protocol StdDB Property PropertyFacts Object ObjectFacts Node NodeFacts Owner OwnerFacts
  PropsOwner Values ValuesFacts.
Local Open Scope Z_scope.

(** What a reader gets from an object for a code: the property itself, with code,
    type, attributes and value. *)
Definition property_of (w : state) (x : nat) (k : Z) : option property :=
  match x_LookupProperty w x k with
  | Some p => option_map c_prop (cell_at w p)
  | None => None
  end.

Lemma seen_property w x o k : sees w x o -> property_of w x k = LookupProperty (o_props o) k.
Proof.
  intros (t & T & _ & _ & _ & F & _). unfold property_of, x_LookupProperty. rewrite T.
  destruct (look (t_props t) k) as [p|] eqn:L.
  - destruct (look_some _ _ _ _ _ _ F L) as (q & -> & _ & ->). reflexivity.
  - rewrite (look_none _ _ _ _ _ F L). reflexivity.
Qed.

Lemma play_careful es : forall w v v', related w v -> vplay es v = Some v' ->
  exists cs, play es w = program cs w /\ careful_all w cs.
Proof.
  assert (PA : forall a b w, program (a ++ b) w = andthen (program a) (program b) w).
  { induction a as [|c a IH]; intros b w; unfold program in *; cbn [app each]; [unfold andthen, skip; cbn; destruct (each b does w); reflexivity|].
    unfold andthen in *. destruct (does c w) as (w1, l1). rewrite IH. destruct (each a does w1) as (w2, l2).
    destruct (each b does w2) as (w3, l3). rewrite app_assoc. reflexivity. }
  assert (CA : forall a b w, careful_all w a -> careful_all (fst (program a w)) b -> careful_all w (a ++ b)).
  { induction a as [|c a IH]; intros b w; cbn [app careful_all]; [intros _ H; exact H|].
    intros (H & Ha) Hb. split; [exact H|]. apply IH; [exact Ha|]. unfold program in *. cbn [each] in Hb. rewrite fst_andthen in Hb. exact Hb. }
  induction es as [|e es IH]; intros w v v' R E; cbn [vplay] in E.
  - exists []. split; [reflexivity|exact Logic.I].
  - destruct (vdoes e v) as [v1|] eqn:E1; [|discriminate E]. destruct (step_related e w v v1 R E1) as (R1 & _).
    destruct (IH _ _ _ R1 E) as (cs & Q & C). exists (calls_of w e ++ cs). split.
    + unfold play in *. cbn [each]. rewrite PA. unfold andthen. rewrite (surjective_pairing (program (calls_of w e) w)).
      rewrite Q. reflexivity.
    + apply CA; [|exact C]. destruct e as [code| |x code d|x q|x code|n x|n code|n|n]; cbn [calls_of careful_all careful];
        try (repeat split; exact Logic.I).
      * split; [exact Logic.I|]. split; [|exact Logic.I]. left. cbn [does x_NewProperty silent fst]. unfold x_Object, cell_at. cbn [cells].
        rewrite nth_app_new. reflexivity.
      * split; [|exact Logic.I]. cbn [vdoes] in E1. destruct (nth_error (v_nodes v) n); [|discriminate E1].
        destruct (nth_error (v_places v) x) as [[o|m r]|] eqn:P; try discriminate E1.
        destruct (r_loose _ _ R _ _ P) as ((t & T & _) & N). split; [eauto|left; exact N].
Qed.

(** ** Theorems *)

(** A program that puts each property it makes into one object and each device into
    one node, and whose calls, computed by the functions of [Object] and [Node] on
    values, do not panic: on pointers there are as many objects and nodes, and every
    object has the code and, for every property code, the property that the value
    has. *)
Theorem C107_objects :
  forall (es : list deed) (v : shelf), vplay es bare = Some v ->
  let w := fst (play es nothing) in
  length (things w) = length (v_places v) /\ length (sites w) = length (v_nodes v) /\
  forall x, (x < length (things w))%nat ->
    exists t o, thing_at w x = Some t /\ value_at v x = Some o /\ t_code t = Code o /\
      forall k, property_of w x k = LookupProperty (o_props o) k.
Proof.
  intros es v E w. destruct (vplay_related es v E) as (R & _). fold w in R.
  split; [symmetry; apply (r_places _ _ R)|]. split; [symmetry; apply (r_sites _ _ R)|].
  intros x X. rewrite <- (r_places _ _ R) in X. destruct (value_some w v x R X) as (o & O).
  pose proof (value_sees w v x o R O) as S. pose proof S as (t & T & _ & _ & C & _). exists t, o.
  split; [exact T|]. split; [exact O|]. split; [symmetry; exact C|]. intros k. apply seen_property, S.
Qed.

(** Every node runs or not, has the manufacturer and lists the devices and profiles, in this
    order, that the value has. *)
Theorem C107_nodes :
  forall (es : list deed) (v : shelf) (n : nat) (nd : node),
  vplay es bare = Some v -> nth_error (v_nodes v) n = Some nd ->
  let w := fst (play es nothing) in
  exists s, site_at w n = Some s /\ s_local s = true /\ s_running s = n_running nd /\ s_manufacturer s = n_manufacturer nd /\
    map (value_at v) (s_devices s) = map Some (n_devices nd) /\
    map (value_at v) (s_profiles s) = map Some (n_profiles nd) /\
    NoDup (s_devices s ++ s_profiles s) /\
    forall x, In x (s_devices s ++ s_profiles s) -> x_ObjNode w x = Some n.
Proof.
  intros es v n nd E N w. destruct (vplay_related es v E) as (R & _). fold w in R.
  pose proof (r_nodes _ _ R _ _ N) as (s & S & L & Ru & M & D & P & U). exists s.
  assert (G : forall c l l', (forall j x, nth_error l j = Some x -> ref w n (c j) = Some x) ->
            (forall j, obj_at nd (c j) = nth_error l' j) -> length l = length l' -> map (value_at v) l = map Some l').
  { intros c l l' H1 H2 H3. apply nth_ext with (d := None) (d' := None); rewrite !map_length; [exact H3|].
    intros i Hi. destruct (nth_lt _ _ Hi) as (x & X). rewrite H3 in Hi. destruct (nth_lt _ _ Hi) as (o & O).
    rewrite (nth_error_nth _ _ _ (map_nth_error (value_at v) _ _ X)), (nth_error_nth _ _ _ (map_nth_error Some _ _ O)).
    pose proof (H1 _ _ X) as HR. apply (r_inside _ _ R) in HR. unfold value_at. rewrite HR, N, H2. exact O. }
  do 4 (split; [assumption|]). split; [|split; [|split; [exact U|]]].
  - apply (G DevRef); [|reflexivity|exact (F2_len _ _ _ D)]. intros j x H. unfold ref. rewrite S. exact H.
  - apply (G ProfRef); [|reflexivity|exact (F2_len _ _ _ P)]. intros j x H. unfold ref. rewrite S. exact H.
  - assert (K : forall l l' x, Forall2 (held w n) l l' -> In x l -> x_ObjNode w x = Some n).
    { intros l l' x F. induction F as [|a b l l' (_ & H) F IH]; [intros []|]. intros [<-|I]; auto. }
    intros x I. apply in_app_or in I as [I|I]; eauto.
Qed.

(** The network hears from each node exactly what the value of the node announced, in
    the same order, and hears nothing else. *)
Theorem C107_announcements :
  forall (es : list deed) (v : shelf), vplay es bare = Some v ->
  (forall n nd, nth_error (v_nodes v) n = Some nd ->
     map (fun h => (sh_from h, sh_what h)) (filter (fun h => Nat.eqb (sh_node h) n) (snd (play es nothing))) = said nd) /\
  (forall h, In h (snd (play es nothing)) -> (sh_node h < length (v_nodes v))%nat).
Proof.
  intros es v E. destruct (vplay_related es v E) as (_ & H). split.
  - intros n nd N. specialize (H n). unfold said_of in H. rewrite N in H. cbn [bare v_nodes] in H. rewrite H.
    destruct n; reflexivity.
  - intros h I. destruct (Nat.lt_ge_cases (sh_node h) (length (v_nodes v))) as [L|L]; [exact L|]. exfalso.
    specialize (H (sh_node h)). unfold said_of in H. apply nth_error_None in L. rewrite L in H.
    assert (B : nth_error (v_nodes bare) (sh_node h) = None) by (destruct (sh_node h); reflexivity).
    rewrite B in H. cbn [app] in H. unfold by_node in H.
    assert (X : In h (filter (fun s => Nat.eqb (sh_node s) (sh_node h)) (snd (play es nothing)))).
    { apply filter_In. split; [exact I|apply Nat.eqb_refl]. }
    destruct (filter _ _); [contradiction|discriminate H].
Qed.

(** The condition is met by every program whose arguments are in range and that names
    only what it has made: none of its calls panics. *)
Theorem C107_total :
  forall es : list deed, sensible bare es -> exists v, vplay es bare = Some v.
Proof. intros es. exact (vplay_total es nothing bare related_nothing good_bare). Qed.

(** These programs are careful in the sense of C94. *)
Theorem C107_careful :
  forall (es : list deed) (v : shelf), vplay es bare = Some v ->
  exists cs : list call, play es nothing = program cs nothing /\ careful_all nothing cs.
Proof. intros es v. exact (play_careful es nothing bare v related_nothing). Qed.

(** A call leaves every other object as it was: a write, a new property or a new code
    changes the object it names alone; a manufacturer code and a new device change
    objects of that node; starting and stopping change none. *)
Theorem C107_isolated :
  forall (es : list deed) (e : deed) (v v' : shelf),
  vplay es bare = Some v -> vdoes e v = Some v' ->
  forall x, ~ concerns v e x ->
  forall k, property_of (fst (play (es ++ [e]) nothing)) x k = property_of (fst (play es nothing)) x k.
Proof.
  intros es e v v' E E1 x N k. destruct (vplay_related es v E) as (R & _).
  assert (E2 : vplay (es ++ [e]) bare = Some v') by (rewrite vplay_app, E; cbn [vplay]; rewrite E1; reflexivity).
  destruct (vplay_related _ _ E2) as (R2 & _). pose proof (step_other e _ v v' x R E1 N) as Q.
  destruct (value_at v x) as [o|] eqn:O.
  - rewrite (seen_property _ _ _ k (value_sees _ _ _ _ R O)), (seen_property _ _ _ k (value_sees _ _ _ _ R2 Q)). reflexivity.
  - assert (A : forall w u, related w u -> value_at u x = None -> property_of w x k = None).
    { intros w u Ru Hu. unfold property_of, x_LookupProperty, thing_at. destruct (nth_error (things w) x) as [t|] eqn:T; [|reflexivity].
      exfalso. destruct (value_some w u x Ru) as (o & Ho); [|congruence]. rewrite (r_places _ _ Ru). apply nth_error_Some. congruence. }
    rewrite (A _ _ R O), (A _ _ R2 Q). reflexivity.
Qed.

(** ** A concrete case *)

(** A started node with two lamps of the same class: one is written, gets a property of
    its own and is given another instance number. *)
Definition a_property : property := mkProperty 0xF0 Required Prohibited Required [1; 2].
Definition two_lamps : list deed :=
  [DNode; DDevice 0x029101; DDevice 0x029102; DManufacturer 0 0x77; DStart 0; DAdd 0 1; DAdd 0 2;
   DWrite 1 0x80 [0x30]; DProperty 1 a_property; DCode 1 0x029103; DNode; DStop 0; DWrite 2 0x80 [0x31]].

Example C107_two_lamps :
  option_map (fun v => (map (fun x => option_map Code (value_at v x)) [0; 1; 2; 3]%nat,
                        map (fun nd => (length (n_devices nd), n_running nd, length (said nd))) (v_nodes v)))
             (vplay two_lamps bare) =
  Some ([Some 0x0EF001; Some 0x029103; Some 0x029102; Some 0x0EF001], [(2%nat, false, 21%nat); (0%nat, false, 0%nat)]) /\
  map (fun x => option_map p_data (property_of (fst (play two_lamps nothing)) x 0x80)) [1; 2; 4]%nat =
    [Some []; Some [0x31]; None] /\
  property_of (fst (play two_lamps nothing)) 1 0xF0 = Some a_property /\
  property_of (fst (play two_lamps nothing)) 2 0xF0 = None /\
  length (snd (play two_lamps nothing)) = 21%nat.
Proof. vm_compute. repeat split. Qed.

(** The device is added a second time, and a node is named that was not made. *)
Example C107_outside :
  vplay (two_lamps ++ [DAdd 1 1]) bare = None /\ vplay [DStart 0] bare = None.
Proof. vm_compute. split; reflexivity. Qed.

Example C107_sensible : sensible bare [DNode; DDevice 0x029101; DAdd 0 1; DWrite 1 0x80 [0x30]; DStart 0].
Proof.
  cbn [sensible proper refers bare v_places v_nodes].
  split; [exact Logic.I|]. split; [exact Logic.I|]. intros v1 E1.
  split; [split; [lia|vm_compute; discriminate]|]. split; [exact Logic.I|]. intros v2 E2.
  assert (L1 : length (v_places v1) = 1%nat /\ length (v_nodes v1) = 1%nat).
  { cbn [vdoes] in E1. destruct newLocalNode; try discriminate E1. injection E1 as <-. split; reflexivity. }
  assert (L2 : (exists o, nth_error (v_places v2) 1 = Some (Loose o)) /\ length (v_nodes v2) = 1%nat /\ length (v_places v2) = 2%nat).
  { cbn [vdoes] in E2. destruct (NewDeviceWithCode 0x029101) as [o| |]; try discriminate E2. injection E2 as <-. cbn [v_places v_nodes].
    destruct (v_places v1) as [|p [|p' ps]]; try (destruct L1 as (L1 & _); discriminate L1). split; [exists o; reflexivity|]. split; [apply L1|reflexivity]. }
  destruct L2 as (Lo & L2 & L3). split; [exact Logic.I|]. split; [split; [rewrite L2; constructor|exact Lo]|]. intros v3 E3.
  assert (L4 : length (v_places v3) = 2%nat /\ length (v_nodes v3) = 1%nat).
  { cbn [vdoes] in E3. destruct (nth_error (v_nodes v2) 0); [|discriminate E3]. destruct Lo as (o & ->) in E3.
    destruct (Node_AddDevice n o); try discriminate E3. injection E3 as <-. cbn [v_places v_nodes]. rewrite !len_set. auto. }
  split; [repeat constructor; unfold is_byte; lia|]. split; [destruct L4 as (-> & _); constructor|]. intros v4 E4.
  split; [exact Logic.I|]. split; [|intros; exact Logic.I].
  cbn [vdoes] in E4. unfold alter in E4. destruct (nth_error (v_places v3) 1) as [[o|n r]|]; [| |discriminate E4].
  - destruct (SetPropertyData o 0x80 [0x30]) as ((o', ev), er). injection E4 as <-. cbn [v_nodes]. destruct L4 as (_ & ->). constructor.
  - destruct (nth_error (v_nodes v3) n) as [nd|]; [|discriminate E4]. destruct (obj_at nd r) as [o|]; [|discriminate E4].
    destruct (SetPropertyData o 0x80 [0x30]) as ((o', ev), er). injection E4 as <-. cbn [v_nodes]. rewrite len_set. destruct L4 as (_ & ->). constructor.
Qed.

Print Assumptions C107_objects.
Print Assumptions C107_nodes.
Print Assumptions C107_announcements.
Print Assumptions C107_total.
Print Assumptions C107_careful.
Print Assumptions C107_isolated.

(** Facts about the node model. *)

From Verif Require Import Go GoFacts Encoding EncodingFacts Protocol MessageFacts StdDB Property
  PropertyFacts Object ObjectFacts Spec Node.
From Coq Require Import ZifyBool ZifyNat.
Local Open Scope Z_scope.

(** ** Histories of a node *)

(** Calls of the application on a local node and on its objects. *)
Inductive node_op : Type :=
| NAddDevice (o : object)
| NAddProfile (o : object)
| NSetManufacturer (c : Z)
| NSetData (r : objref) (code : Z) (d : list Z)
| NAddProp (r : objref) (p : property)
| NSend (dst : address) (m : message)
| NPost (dst : address) (m : message)
| NStart (server : option bool)
| NStop.

Definition node_step (op : node_op) (nd : node) : res node :=
  match op with
  | NAddDevice o => Node_AddDevice nd o
  | NAddProfile o => Node_AddProfile nd o
  | NSetManufacturer c => Ok (Node_SetManufacturerCode nd c)
  | NSetData r code d => Ok (fst (on_object nd r (fun o => SetPropertyData o code d)))
  | NAddProp r p =>
      match obj_at nd r with
      | None => Ok nd
      | Some o => match Super_AddProperty o p with
                  | None => Panic
                  | Some (o', evs) => Ok (commit nd r o' evs)
                  end
      end
  | NSend dst m => Ok (fst (SendMessage nd dst m))
  | NPost dst m => Ok (fst (postMessageSynchronously nd dst m))
  | NStart s => Ok (fst (Node_Start nd s))
  | NStop => Ok (Node_Stop nd)
  end.

(** The node after a history. *)
Definition node_after (ops : list node_op) : res node :=
  nd <- newLocalNode ;; for_each ops node_step nd.

Definition obj_ok (o : object) : Prop := code3 o /\ wf (o_props o).

Definition node_op_ok (op : node_op) : Prop :=
  match op with
  | NAddDevice o | NAddProfile o => obj_ok o
  | NSetData _ _ d => is_bytes d
  | NAddProp _ p => prop_wf p
  | NSend _ m | NPost _ m => shape m
  | _ => True
  end.

(** ** The part of a node that announcements do not touch *)

Record core : Type := mkCore {
  k_devs : list object; k_profs : list object; k_man : Z; k_run : bool }.

Definition core_of (nd : node) : core :=
  mkCore (n_devices nd) (n_profiles nd) (n_manufacturer nd) (n_running nd).

Lemma AnnounceMessage_core nd m : core_of (fst (AnnounceMessage nd m)) = core_of nd.
Proof. unfold AnnounceMessage. destruct (n_running nd) eqn:E; reflexivity. Qed.

Lemma prop_Announce_core nd code p nd' :
  fst (prop_Announce (Some nd) code p) = Some nd' -> core_of nd' = core_of nd.
Proof.
  unfold prop_Announce. destruct (negb (n_running nd)); [intros [= <-]; reflexivity|].
  unfold AnnounceProperty. cbv zeta.
  match goal with |- context [AnnounceMessage nd ?m] =>
    pose proof (AnnounceMessage_core nd m) as H; destruct (AnnounceMessage nd m) as [n e] end.
  cbn [fst] in *. intros [= <-]. assumption.
Qed.

Lemma prop_Announce_some nd code p : exists nd', fst (prop_Announce (Some nd) code p) = Some nd'.
Proof.
  unfold prop_Announce. destruct (negb (n_running nd)); [exists nd; reflexivity|].
  destruct (AnnounceProperty nd code p) as [n e]. exists n. reflexivity.
Qed.

Lemma announce_core evs : forall nd code, core_of (announce_all nd code evs) = core_of nd.
Proof.
  induction evs as [|p evs IH]; intros nd code; [reflexivity|].
  unfold announce_all. cbn [fold_left]. fold (announce_all
    (match fst (prop_Announce (Some nd) code p) with Some nd' => nd' | None => nd end) code evs).
  rewrite IH. destruct (prop_Announce_some nd code p) as [nd' E]. rewrite E.
  eapply prop_Announce_core; eauto.
Qed.

Lemma commit_core nd r o evs : core_of (commit nd r o evs) = core_of (put_at nd r o).
Proof. apply announce_core. Qed.

Definition put_list (l : list object) (i : nat) (f : object -> object) : list object :=
  match nth_error l i with Some o => set_nth l i (f o) | None => l end.

Definition put_core (k : core) (r : objref) (f : object -> object) : core :=
  match r with
  | DevRef i => mkCore (put_list (k_devs k) i f) (k_profs k) (k_man k) (k_run k)
  | ProfRef i => mkCore (k_devs k) (put_list (k_profs k) i f) (k_man k) (k_run k)
  end.

Lemma on_object_core nd r f :
  core_of (fst (on_object nd r f)) = put_core (core_of nd) r (fun o => fst (fst (f o))).
Proof.
  unfold on_object. destruct (obj_at nd r) as [o|] eqn:E.
  - destruct (f o) as [[o' evs] e] eqn:Ef. cbn [fst]. rewrite commit_core.
    destruct r; cbn [obj_at] in E; unfold put_at, put_core, put_list, core_of;
      cbn [with_objects n_devices n_profiles k_devs k_profs k_man k_run n_manufacturer n_running];
      rewrite E, Ef; reflexivity.
  - destruct r; cbn [obj_at] in E; unfold put_core, put_list, core_of; cbn [k_devs k_profs fst];
      rewrite E; reflexivity.
Qed.

(** ** Setters as functions on objects *)

Definition setd (c : Z) (d : list Z) (o : object) : object :=
  Object.with_props o (set_data (o_props o) c d).

Lemma SetPropertyData_setd o c d : fst (fst (SetPropertyData o c d)) = setd c d o.
Proof.
  unfold SetPropertyData, SetPropertyDataMap, lift_props, setd.
  destruct (LookupProperty (o_props o) c) eqn:E; [reflexivity|].
  cbn [fst]. rewrite set_data_absent by assumption. reflexivity.
Qed.

Lemma SetPropertyInteger_setd o c v k : fst (fst (SetPropertyInteger o c v k)) = setd c (IntegerToByte v k) o.
Proof. apply SetPropertyData_setd. Qed.

Definition setman (c : Z) (o : object) : object := setd 0x8A (IntegerToByte c 3) o.

Lemma SetManufacturer_setman o c : fst (fst (SetManufacturerCode o c)) = setman c o.
Proof. apply SetPropertyData_setd. Qed.

Lemma setd_ok c d o : is_bytes d -> obj_ok o -> obj_ok (setd c d o).
Proof.
  intros Hd [H1 H2]. split; [exact H1|]. unfold setd. cbn [Object.with_props o_props].
  apply wf_set; assumption.
Qed.

Lemma setman_ok c o : obj_ok o -> obj_ok (setman c o).
Proof. apply setd_ok, IntegerToByte_bytes. Qed.

(** ** Lookup *)

Lemma find_code_spec objs code :
  match find_code objs code with
  | Some i => exists o, nth_error objs i = Some o /\ Code o = code /\
                forall j p, (j < i)%nat -> nth_error objs j = Some p -> Code p <> code
  | None => forall o, In o objs -> Code o <> code
  end.
Proof.
  induction objs as [|o objs IH]; simpl; [tauto|].
  destruct (Code o =? code) eqn:E.
  - exists o. split; [reflexivity|]. split; [lia|]. intros j p Hj. lia.
  - destruct (find_code objs code) as [i|].
    + destruct IH as (p & H1 & H2 & H3). exists p. split; [assumption|]. split; [assumption|].
      intros [|j] q Hj Hq; simpl in Hq; [injection Hq as <-; lia|]. apply (H3 j); [lia|assumption].
    + intros p [->|Hp]; [lia|auto].
Qed.

Lemma find_code_app objs more code i :
  find_code objs code = Some i -> find_code (objs ++ more) code = Some i.
Proof.
  revert i. induction objs as [|o objs IH]; intros i; simpl; [discriminate|].
  destruct (Code o =? code); [auto|]. destruct (find_code objs code) as [j|]; [|discriminate].
  rewrite (IH j eq_refl). auto.
Qed.

Lemma find_code_ext f objs code : (forall o, Code (f o) = Code o) ->
  find_code (map f objs) code = find_code objs code.
Proof.
  intros H. induction objs as [|o objs IH]; [reflexivity|]. simpl. rewrite H, IH. reflexivity.
Qed.

Definition np_codes : list Z := [14; 240; 1].

Lemma np_Code o : o_codes o = np_codes -> Code o = 0x0EF001.
Proof. unfold Code. intros ->. reflexivity. Qed.

Lemma NodeProfile_first nd np rest :
  n_profiles nd = np :: rest -> o_codes np = np_codes -> NodeProfile nd = Some (ProfRef 0).
Proof.
  intros H1 H2. unfold NodeProfile, LookupProfile. rewrite H1. cbn [find_code].
  rewrite (np_Code np H2). reflexivity.
Qed.

(** ** Classes *)

Definition cls (o : object) : list Z := firstn 2 (o_codes o).

Definition addc (acc : list (list Z)) (c : list Z) : list (list Z) :=
  if existsb (fun k => bytes_eqb k c) acc then acc else acc ++ [c].

Lemma Class_cls o : code3 o -> Class o = Ok (cls o).
Proof.
  intros [Hl _]. unfold Class, cls. destruct (o_codes o) as [|a [|b [|c [|]]]]; try discriminate.
  reflexivity.
Qed.

Lemma cls_length o : code3 o -> length (cls o) = 2%nat.
Proof. intros [Hl _]. unfold cls. rewrite firstn_length. lia. Qed.

Lemma Class_Equals_spec c1 c2 : length c1 = 2%nat -> length c2 = 2%nat ->
  Class_Equals c1 c2 = Ok (bytes_eqb c1 c2).
Proof.
  destruct c1 as [|a [|b [|]]]; try discriminate. destruct c2 as [|x [|y [|]]]; try discriminate.
  intros _ _. unfold Class_Equals. change (len [a; b]) with 2. cbn [negb Z.eqb Pos.eqb].
  change (idx [a; b] 0) with (Ok a). change (idx [x; y] 0) with (Ok x).
  change (idx [a; b] 1) with (Ok b). change (idx [x; y] 1) with (Ok y). cbn [bind bytes_eqb].
  destruct (a =? x); cbn [negb andb]; [|reflexivity]. destruct (b =? y); reflexivity.
Qed.

Lemma has_class_spec acc c : Forall (fun k => length k = 2%nat) acc -> length c = 2%nat ->
  has_class acc c = Ok (existsb (fun k => bytes_eqb k c) acc).
Proof.
  intros Ha Hc. induction Ha as [|k acc Hk Ha IH]; [reflexivity|]. simpl.
  rewrite Class_Equals_spec by assumption. cbn [bind]. destruct (bytes_eqb k c); [reflexivity|assumption].
Qed.

Lemma addc_length acc c : Forall (fun k => length k = 2%nat) acc -> length c = 2%nat ->
  Forall (fun k => length k = 2%nat) (addc acc c).
Proof.
  intros Ha Hc. unfold addc. destruct (existsb _ acc); [assumption|].
  apply Forall_app. auto.
Qed.

Lemma collect_spec objs : Forall code3 objs -> forall acc, Forall (fun k => length k = 2%nat) acc ->
  collect_classes objs acc = Ok (fold_left addc (map cls objs) acc) /\
  Forall (fun k => length k = 2%nat) (fold_left addc (map cls objs) acc).
Proof.
  induction 1 as [|o objs Ho Hs IH]; intros acc Ha; [split; [reflexivity|assumption]|].
  unfold collect_classes. cbn [for_each map fold_left]. rewrite (Class_cls o Ho). cbn [bind].
  rewrite has_class_spec by (auto using cls_length). cbn [bind].
  replace (if existsb (fun k => bytes_eqb k (cls o)) acc then Ok acc else Ok (acc ++ [cls o]))
    with (Ok (addc acc (cls o))) by (unfold addc; destruct (existsb _ acc); reflexivity).
  cbn [bind]. apply IH. apply addc_length; auto using cls_length.
Qed.

Lemma addc_In acc c x : In x (addc acc c) <-> In x acc \/ x = c.
Proof.
  unfold addc. destruct (existsb (fun k => bytes_eqb k c) acc) eqn:E.
  - split; [auto|]. intros [H| ->]; [assumption|].
    apply existsb_exists in E as (k & H1 & H2). apply bytes_eqb_eq in H2. subst. assumption.
  - rewrite in_app_iff. simpl. intuition.
Qed.

Lemma addc_NoDup acc c : NoDup acc -> NoDup (addc acc c).
Proof.
  intros H. unfold addc. destruct (existsb (fun k => bytes_eqb k c) acc) eqn:E; [assumption|].
  apply NoDup_app_intro; [assumption|repeat constructor; intros []|].
  intros x Hx [<-|[]]. rewrite <- Bool.not_true_iff_false in E. apply E.
  apply existsb_exists. exists c. split; [assumption|]. apply bytes_eqb_eq. reflexivity.
Qed.

Definition classes_of (devs profs : list object) : list (list Z) :=
  fold_left addc (map cls (devs ++ profs)) [].

Lemma fold_addc l : forall acc, NoDup acc ->
  NoDup (fold_left addc l acc) /\ forall x, In x (fold_left addc l acc) <-> In x acc \/ In x l.
Proof.
  induction l as [|c l IH]; intros acc H; cbn [fold_left].
  - split; [assumption|]. simpl. tauto.
  - destruct (IH (addc acc c) (addc_NoDup acc c H)) as [H1 H2]. split; [assumption|].
    intros x. rewrite H2, addc_In. simpl. intuition.
Qed.

Lemma classes_of_spec devs profs :
  NoDup (classes_of devs profs) /\
  forall x, In x (classes_of devs profs) <-> exists o, In o (devs ++ profs) /\ cls o = x.
Proof.
  destruct (fold_addc (map cls (devs ++ profs)) [] (NoDup_nil _)) as [H1 H2]. split; [exact H1|].
  intros x. unfold classes_of. rewrite H2, in_map_iff. split.
  - intros [[]|(o & E & H)]. eauto.
  - intros (o & H & E). right. eauto.
Qed.

Lemma fold_addc_length l : forall acc, (length (fold_left addc l acc) <= length acc + length l)%nat.
Proof.
  induction l as [|c l IH]; intros acc; cbn [fold_left length]; [lia|].
  specialize (IH (addc acc c)).
  assert (length (addc acc c) <= length acc + 1)%nat.
  { unfold addc. destruct (existsb (fun k => bytes_eqb k c) acc); [lia|]. rewrite app_length. simpl. lia. }
  lia.
Qed.

(** ** updateNodeProfile *)

Definition instance_bytes (devs : list object) : list Z :=
  list_count (len devs) :: flat_map o_codes devs.

(** What updateNodeProfile does to the node profile. *)
Definition refresh_np (devs profs : list object) (np : object) : object :=
  let cs := classes_of devs profs in
  setd 0xD7 (list_count (len cs) :: concat cs)
    (setd 0xD6 (instance_bytes devs)
      (setd 0xD5 (instance_bytes devs)
        (setd 0xD4 (IntegerToByte (len cs) 2)
          (setd 0xD3 (IntegerToByte (len devs) 3) np)))).

Definition refresh (devs profs : list object) : list object :=
  match profs with [] => [] | np :: rest => refresh_np devs profs np :: rest end.

Definition has_np (profs : list object) : Prop :=
  exists np rest, profs = np :: rest /\ o_codes np = np_codes /\
    (forall c, In c [0xD3; 0xD4; 0xD5; 0xD6; 0xD7] -> HasProp (o_props np) c = true).

Lemma HasProp_set m c d x : HasProp (set_data m c d) x = HasProp m x.
Proof.
  unfold HasProp. rewrite Lookup_set. destruct (c =? x); [|reflexivity].
  destruct (LookupProperty m x); reflexivity.
Qed.

Lemma HasProp_some m c : HasProp m c = true <-> exists p, LookupProperty m c = Some p.
Proof.
  unfold HasProp. destruct (LookupProperty m c); split; try discriminate; eauto.
  intros [p H]. discriminate.
Qed.

Lemma put_core_np k np rest f : k_profs k = np :: rest ->
  put_core k (ProfRef 0) f = mkCore (k_devs k) (f np :: rest) (k_man k) (k_run k).
Proof. intros H. unfold put_core, put_list. rewrite H. reflexivity. Qed.

Lemma SetInstanceList_setd o devs : HasProp (o_props o) 0xD5 = true ->
  fst (fst (SetInstanceList o devs)) = setd 0xD6 (instance_bytes devs) (setd 0xD5 (instance_bytes devs) o).
Proof.
  intros H. apply HasProp_some in H as [p H]. unfold SetInstanceList. cbv zeta.
  change (instance_list devs) with (instance_bytes devs).
  assert (E : SetPropertyData o NodeProfileInstanceListNotification (instance_bytes devs)
     = (setd 0xD5 (instance_bytes devs) o, announcement (with_data p (instance_bytes devs)), None)).
  { unfold SetPropertyData, SetPropertyDataMap, lift_props, NodeProfileInstanceListNotification.
    rewrite H. reflexivity. }
  rewrite E.
  pose proof (SetPropertyData_setd (setd 0xD5 (instance_bytes devs) o) 0xD6 (instance_bytes devs)) as E2.
  destruct (SetPropertyData (setd 0xD5 (instance_bytes devs) o) NodeProfileInstanceListS (instance_bytes devs))
    as [[o2 ev2] e2] eqn:E3.
  unfold NodeProfileInstanceListS in E3. rewrite E3 in E2. cbn [fst] in *. assumption.
Qed.

Lemma updateNodeProfile_core nd : has_np (n_profiles nd) -> Forall code3 (Objects nd) ->
  exists nd', updateNodeProfile nd = Ok nd' /\
    core_of nd' = mkCore (n_devices nd) (refresh (n_devices nd) (n_profiles nd)) (n_manufacturer nd) (n_running nd).
Proof.
  intros (np & rest & Hp & Hc & Hd) H3. unfold updateNodeProfile.
  rewrite (NodeProfile_first nd np rest Hp Hc).
  unfold Objects in H3. apply Forall_app in H3 as [HD HP].
  destruct (collect_spec (n_devices nd) HD [] (Forall_nil _)) as [-> Hl]. cbn [bind].
  destruct (collect_spec (n_profiles nd) HP _ Hl) as [-> _]. cbn [bind].
  replace (fold_left addc (map cls (n_profiles nd)) (fold_left addc (map cls (n_devices nd)) []))
    with (classes_of (n_devices nd) (n_profiles nd))
    by (unfold classes_of; rewrite map_app, fold_left_app; reflexivity).
  set (cs := classes_of (n_devices nd) (n_profiles nd)).
  eexists. split; [reflexivity|].
  rewrite !on_object_core.
  change (k_profs (core_of nd)) with (n_profiles nd).
  assert (D1 : forall f, n_devices (fst (on_object nd (ProfRef 0) f)) = n_devices nd).
  { intros f. pose proof (on_object_core nd (ProfRef 0) f) as E.
    apply (f_equal k_devs) in E. exact E. }
  assert (D2 : forall f g, n_devices (fst (on_object (fst (on_object nd (ProfRef 0) f)) (ProfRef 0) g)) = n_devices nd).
  { intros f g. pose proof (on_object_core (fst (on_object nd (ProfRef 0) f)) (ProfRef 0) g) as E.
    apply (f_equal k_devs) in E. etransitivity; [exact E|]. apply D1. }
  rewrite D2.
  rewrite (put_core_np (core_of nd) np rest) by exact Hp.
  erewrite put_core_np by reflexivity. erewrite put_core_np by reflexivity.
  erewrite put_core_np by reflexivity. cbn [k_devs k_profs k_man k_run core_of].
  f_equal. unfold refresh. rewrite Hp. f_equal. unfold refresh_np.
  rewrite <- Hp. fold cs.
  rewrite (SetPropertyInteger_setd np 0xD3 (len (n_devices nd)) 3
    : fst (fst (SetInstanceCount np (len (n_devices nd)))) = _).
  rewrite (SetPropertyInteger_setd (setd 0xD3 (IntegerToByte (len (n_devices nd)) 3) np) 0xD4 (len cs) 2
    : fst (fst (SetClassCount (setd 0xD3 (IntegerToByte (len (n_devices nd)) 3) np) (len cs))) = _).
  rewrite SetInstanceList_setd.
  - match goal with |- fst (fst (SetClassList ?o cs)) :: _ = _ :: _ => idtac | |- fst (fst (SetClassList ?o cs)) = _ =>
      exact (SetPropertyData_setd o 0xD7 (class_list cs)) end.
  - unfold setd. cbn [o_props Object.with_props]. rewrite !HasProp_set. apply Hd. simpl. auto.
Qed.

(** ** The abstract step *)

Definition add_std (p : property) (o : object) : object :=
  Object.with_props o (add_props (o_props o) p).

Definition core_step (op : node_op) (k : core) : core :=
  match op with
  | NAddDevice o =>
      let devs := k_devs k ++ [setman (k_man k) o] in
      mkCore devs (refresh devs (k_profs k)) (k_man k) (k_run k)
  | NAddProfile o =>
      let profs := k_profs k ++ [setman (k_man k) o] in
      mkCore (k_devs k) (refresh (k_devs k) profs) (k_man k) (k_run k)
  | NSetManufacturer c =>
      mkCore (map (setman c) (k_devs k)) (map (setman c) (k_profs k)) c (k_run k)
  | NSetData r code d => put_core k r (setd code d)
  | NAddProp r p => put_core k r (add_std p)
  | NSend _ _ | NPost _ _ => k
  | NStart None => mkCore (k_devs k) (k_profs k) (k_man k) true
  | NStart (Some b) => mkCore (k_devs k) (k_profs k) (k_man k) b
  | NStop => mkCore (k_devs k) (k_profs k) (k_man k) false
  end.

Definition core_inv (k : core) : Prop :=
  Forall obj_ok (k_devs k) /\ Forall obj_ok (k_profs k) /\ has_np (k_profs k).

Lemma Forall_set_nth {A} (P : A -> Prop) l i v : Forall P l -> P v -> Forall P (set_nth l i v).
Proof.
  revert i. induction l as [|x l IH]; intros [|i] Hl Hv; simpl; auto; inversion Hl; subst;
    constructor; auto.
Qed.

Lemma Forall_put P l i f : Forall P l -> (forall o, P o -> P (f o)) -> Forall P (put_list l i f).
Proof.
  intros Hl Hf. unfold put_list. destruct (nth_error l i) as [o|] eqn:E; [|assumption].
  apply Forall_set_nth; [assumption|]. apply Hf. rewrite Forall_forall in Hl. apply Hl.
  eapply nth_error_In; eauto.
Qed.

Definition grows (o o' : object) : Prop :=
  o_codes o' = o_codes o /\ forall c, HasProp (o_props o) c = true -> HasProp (o_props o') c = true.

Lemma has_np_put l i f : has_np l -> (forall o, grows o (f o)) -> has_np (put_list l i f).
Proof.
  intros (np & rest & -> & Hc & Hd) Hf. unfold put_list. destruct i as [|i]; cbn [nth_error].
  - exists (f np), rest. cbn [set_nth]. split; [reflexivity|]. destruct (Hf np) as [G1 G2].
    split; [congruence|]. auto.
  - destruct (nth_error rest i) as [o|].
    + exists np, (set_nth rest i (f o)). auto.
    + exists np, rest. auto.
Qed.

Lemma setd_grows c d o : grows o (setd c d o).
Proof. split; [reflexivity|]. intros x H. unfold setd. cbn [o_props Object.with_props]. rewrite HasProp_set. assumption. Qed.

Lemma HasProp_attrs m c : HasProp m c = true <-> attrs_at m c <> None.
Proof.
  unfold HasProp, attrs_at. destruct (LookupProperty m c); simpl; split; congruence.
Qed.

Lemma add_std_grows p o : grows o (add_std p o).
Proof.
  split; [reflexivity|]. intros x H. apply HasProp_attrs. apply HasProp_attrs in H.
  unfold add_std. cbn [o_props Object.with_props]. rewrite attrs_add.
  destruct (p_code p =? x); [discriminate|assumption].
Qed.

Lemma add_std_ok p o : prop_wf p -> obj_ok o -> obj_ok (add_std p o).
Proof. intros Hp [H1 H2]. split; [exact H1|]. apply wf_add; assumption. Qed.

Lemma list_count_byte n : is_byte (list_count n).
Proof.
  unfold list_count. destruct (n <=? 255 - 1); [apply u8_byte|unfold is_byte; lia].
Qed.

Lemma flat_bytes {A} (f : A -> list Z) l : Forall (fun x => is_bytes (f x)) l -> is_bytes (flat_map f l).
Proof.
  induction 1 as [|x l H1 H2 IH]; [constructor|]. simpl. apply Forall_app. auto.
Qed.

Lemma instance_bytes_ok devs : Forall obj_ok devs -> is_bytes (instance_bytes devs).
Proof.
  intros H. constructor; [apply list_count_byte|]. apply flat_bytes.
  eapply Forall_impl; [|exact H]. intros o [[_ Hb] _]. exact Hb.
Qed.

Lemma class_bytes_ok devs profs : Forall obj_ok devs -> Forall obj_ok profs ->
  is_bytes (concat (classes_of devs profs)).
Proof.
  intros H1 H2.
  assert (HF : Forall is_bytes (classes_of devs profs)).
  { apply Forall_forall. intros x Hx. apply classes_of_spec in Hx as (o & Ho & <-).
    assert (obj_ok o) as [[_ Hb] _].
    { apply in_app_or in Ho as [Ho|Ho]; [rewrite Forall_forall in H1; auto|rewrite Forall_forall in H2; auto]. }
    unfold cls. apply Forall_forall. intros y Hy. unfold is_bytes in Hb. rewrite Forall_forall in Hb.
    apply Hb. rewrite <- (firstn_skipn 2 (o_codes o)). apply in_or_app. auto. }
  induction HF as [|x l Hx Hl IH]; [constructor|]. simpl. apply Forall_app. auto.
Qed.

Lemma refresh_ok devs profs : Forall obj_ok devs -> Forall obj_ok profs -> Forall obj_ok (refresh devs profs).
Proof.
  intros H1 H2. unfold refresh. destruct profs as [|np rest]; [constructor|].
  inversion H2 as [|? ? Hn Hr]; subst. constructor; [|assumption]. unfold refresh_np.
  repeat apply setd_ok; auto using IntegerToByte_bytes, instance_bytes_ok.
  constructor; [apply list_count_byte|]. apply class_bytes_ok; assumption.
Qed.

Lemma refresh_np_grows devs profs o : grows o (refresh_np devs profs o).
Proof.
  split; [reflexivity|]. intros c H. unfold refresh_np, setd. cbn [o_props Object.with_props].
  rewrite !HasProp_set. assumption.
Qed.

Lemma refresh_has_np devs profs : has_np profs -> has_np (refresh devs profs).
Proof.
  intros (np & rest & -> & Hc & Hd). exists (refresh_np devs (np :: rest) np), rest.
  split; [reflexivity|]. destruct (refresh_np_grows devs (np :: rest) np) as [G1 G2].
  split; [congruence|auto].
Qed.

Lemma firstn_len_app {A} (a b : list A) : firstn (length a) (a ++ b) = a.
Proof. induction a; simpl; congruence. Qed.

Lemma skipn_len_app {A} (a b : list A) : skipn (length a) (a ++ b) = b.
Proof. induction a; simpl; auto. Qed.

Lemma skipn_add_app {A} (a b : list A) k : skipn (length a + k) (a ++ b) = skipn k b.
Proof. induction a; simpl; auto. Qed.

Lemma set_man_loop mk (dev : bool) : mk = (if dev then DevRef else ProfRef) -> forall k n c nd,
  let l := if dev then n_devices nd else n_profiles nd in
  (n + k <= length l)%nat ->
  core_of (set_manufacturer_loop mk n k c nd) =
  let l' := firstn n l ++ map (setman c) (firstn k (skipn n l)) ++ skipn (n + k) l in
  if dev then mkCore l' (n_profiles nd) (n_manufacturer nd) (n_running nd)
  else mkCore (n_devices nd) l' (n_manufacturer nd) (n_running nd).
Proof.
  intros Hmk. induction k as [|k IH]; intros n c nd l Hl.
  - cbn [set_manufacturer_loop firstn map app]. rewrite Nat.add_0_r, firstn_skipn.
    subst l. destruct dev; reflexivity.
  - cbn [set_manufacturer_loop].
    assert (exists o, nth_error l n = Some o) as [o Ho].
    { destruct (nth_error l n) eqn:E; [eauto|]. apply nth_error_None in E. lia. }
    set (nd1 := fst (on_object nd (mk n) (fun o => SetManufacturerCode o c))).
    assert (E1 : core_of nd1 = if dev then mkCore (set_nth l n (setman c o)) (n_profiles nd) (n_manufacturer nd) (n_running nd)
                      else mkCore (n_devices nd) (set_nth l n (setman c o)) (n_manufacturer nd) (n_running nd)).
    { unfold nd1. rewrite on_object_core. subst mk.
      destruct dev; unfold put_core, put_list, core_of; cbn [k_devs k_profs k_man k_run];
        fold l; rewrite Ho, SetManufacturer_setman; reflexivity. }
    assert (El : (if dev then n_devices nd1 else n_profiles nd1) = set_nth l n (setman c o)).
    { destruct dev; [apply (f_equal k_devs) in E1|apply (f_equal k_profs) in E1]; exact E1. }
    assert (Eo : (if dev then n_profiles nd1 else n_devices nd1) = (if dev then n_profiles nd else n_devices nd)
                 /\ n_manufacturer nd1 = n_manufacturer nd /\ n_running nd1 = n_running nd).
    { pose proof (f_equal k_man E1) as A. pose proof (f_equal k_run E1) as B.
      destruct dev; [pose proof (f_equal k_profs E1) as C|pose proof (f_equal k_devs E1) as C];
        cbn [core_of k_devs k_profs k_man k_run] in *; auto. }
    rewrite IH by (rewrite El, set_nth_length; lia).
    rewrite El. destruct Eo as (Eo & Em & Er).
    assert (EL : firstn (S n) (set_nth l n (setman c o)) ++ map (setman c) (firstn k (skipn (S n) (set_nth l n (setman c o))))
                   ++ skipn (S n + k) (set_nth l n (setman c o))
             = firstn n l ++ map (setman c) (firstn (S k) (skipn n l)) ++ skipn (n + S k) l).
    { apply nth_error_split in Ho as (l1 & l2 & -> & Hn). rewrite <- Hn, set_nth_app.
      replace (S (length l1)) with (length (l1 ++ [setman c o])) by (rewrite app_length; simpl; lia).
      replace (l1 ++ setman c o :: l2) with ((l1 ++ [setman c o]) ++ l2) by (rewrite <- app_assoc; reflexivity).
      rewrite !firstn_len_app, !skipn_len_app, !skipn_add_app.
      cbn [app firstn skipn map]. rewrite <- app_assoc. reflexivity. }
    cbv zeta. rewrite EL. destruct dev; rewrite Eo, Em, Er; reflexivity.
Qed.

Lemma set_man_core nd c :
  core_of (Node_SetManufacturerCode nd c) =
  mkCore (map (setman c) (n_devices nd)) (map (setman c) (n_profiles nd)) c (n_running nd).
Proof.
  unfold Node_SetManufacturerCode. cbv zeta.
  set (nd0 := with_manufacturer nd c).
  set (nd1 := set_manufacturer_loop DevRef 0 (length (n_devices nd0)) c nd0).
  assert (E1 : core_of nd1 = mkCore (map (setman c) (n_devices nd)) (n_profiles nd) c (n_running nd)).
  { unfold nd1. rewrite (set_man_loop DevRef true eq_refl) by (cbn; lia). cbn [firstn app skipn Nat.add].
    rewrite firstn_all, skipn_all, app_nil_r. reflexivity. }
  rewrite (set_man_loop ProfRef false eq_refl) by lia. cbn [firstn app skipn Nat.add].
  rewrite firstn_all, skipn_all, app_nil_r.
  pose proof (f_equal k_devs E1) as A. pose proof (f_equal k_profs E1) as B.
  pose proof (f_equal k_man E1) as C. pose proof (f_equal k_run E1) as D.
  cbn [core_of k_devs k_profs k_man k_run] in *. rewrite A, B, C, D. reflexivity.
Qed.

Lemma code3_of l : Forall obj_ok l -> Forall code3 l.
Proof. apply Forall_impl. intros o [H _]. exact H. Qed.

Lemma send_core wrap nd m : core_of (fst (send_with wrap nd m)) = core_of nd.
Proof.
  unfold send_with. destruct (negb (n_running nd)); [reflexivity|].
  unfold updateMessageDestinationHeader, NextTID. cbv zeta.
  destruct (NodeProfile _) as [r|]; [|reflexivity]. destruct (obj_at _ r); reflexivity.
Qed.

Lemma Announce_core nd : core_of (fst (Announce nd)) = core_of nd.
Proof.
  unfold Announce. destruct (NodeProfile nd); [|reflexivity]. destruct (obj_at nd o); [|reflexivity].
  destruct (LookupProperty _ _); [|reflexivity]. unfold AnnounceProperty. apply AnnounceMessage_core.
Qed.

(** Every history step: no panic, and the objects change as in [core_step]. *)
Lemma node_step_core op nd : core_inv (core_of nd) -> node_op_ok op ->
  exists nd', node_step op nd = Ok nd' /\ core_of nd' = core_step op (core_of nd) /\ core_inv (core_of nd').
Proof.
  intros Hi Hop.
  assert (HX : exists nd', node_step op nd = Ok nd' /\ core_of nd' = core_step op (core_of nd)).
  { destruct Hi as (H1 & H2 & H3). cbn [core_of k_devs k_profs] in H1, H2, H3.
    destruct op; cbn [node_step core_step node_op_ok] in *.
    - unfold Node_AddDevice. pose proof (SetManufacturer_setman o (n_manufacturer nd)) as E.
      destruct (SetManufacturerCode o (n_manufacturer nd)) as [[o' ev] e]. cbn [fst] in E. subst o'.
      destruct (updateNodeProfile_core (with_objects nd (n_devices nd ++ [setman (n_manufacturer nd) o]) (n_profiles nd)))
        as (nd' & -> & E); [exact H3| |eauto].
      unfold Objects. cbn [with_objects n_devices n_profiles]. apply code3_of.
      repeat (apply Forall_app; split); auto using setman_ok.
    - unfold Node_AddProfile. pose proof (SetManufacturer_setman o (n_manufacturer nd)) as E.
      destruct (SetManufacturerCode o (n_manufacturer nd)) as [[o' ev] e]. cbn [fst] in E. subst o'.
      destruct (updateNodeProfile_core (with_objects nd (n_devices nd) (n_profiles nd ++ [setman (n_manufacturer nd) o])))
        as (nd' & -> & E); [| |eauto].
      + cbn [with_objects n_profiles]. destruct H3 as (np & rest & -> & Hc & Hd).
        exists np, (rest ++ [setman (n_manufacturer nd) o]). auto.
      + unfold Objects. cbn [with_objects n_devices n_profiles]. apply code3_of.
        repeat (apply Forall_app; split); auto using setman_ok.
    - eexists. split; [reflexivity|]. apply set_man_core.
    - eexists. split; [reflexivity|]. rewrite on_object_core.
      unfold put_core, put_list. destruct r;
        match goal with |- context [nth_error ?l ?i] => destruct (nth_error l i) end;
        rewrite ?SetPropertyData_setd; reflexivity.
    - destruct (obj_at nd r) as [o|] eqn:E.
      + assert (Ho : obj_ok o).
        { destruct r; cbn [obj_at] in E; apply nth_error_In in E;
            [rewrite Forall_forall in H1; auto|rewrite Forall_forall in H2; auto]. }
        rewrite Super_AddProperty_spec by (assumption || apply Ho).
        eexists. split; [reflexivity|]. rewrite commit_core.
        unfold put_core, put_list, put_at, core_of. destruct r; cbn [obj_at] in E; cbn [k_devs k_profs];
          rewrite E; reflexivity.
      + eexists. split; [reflexivity|].
        unfold put_core, put_list, core_of. destruct r; cbn [obj_at] in E; cbn [k_devs k_profs];
          rewrite E; reflexivity.
    - eexists. split; [reflexivity|]. apply send_core.
    - eexists. split; [reflexivity|]. apply send_core.
    - eexists. split; [reflexivity|]. unfold Node_Start. destruct server; [reflexivity|].
      rewrite Announce_core. reflexivity.
    - eexists. split; reflexivity. }
  destruct HX as (nd' & E & Ec). exists nd'. split; [assumption|]. split; [assumption|].
  rewrite Ec. destruct Hi as (H1 & H2 & H3). unfold core_inv.
  destruct op; cbn [core_step k_devs k_profs node_op_ok] in *; auto.
  - assert (HD : Forall obj_ok (k_devs (core_of nd) ++ [setman (k_man (core_of nd)) o]))
      by (apply Forall_app; split; auto using setman_ok).
    auto using refresh_ok, refresh_has_np.
  - assert (HP : Forall obj_ok (k_profs (core_of nd) ++ [setman (k_man (core_of nd)) o]))
      by (apply Forall_app; split; auto using setman_ok).
    split; [assumption|]. split; [apply refresh_ok; assumption|]. apply refresh_has_np.
    destruct H3 as (np & rest & E3 & Hc & Hd). rewrite E3.
    exists np, (rest ++ [setman (k_man (core_of nd)) o]). auto.
  - split; [apply Forall_map; eapply Forall_impl; [|exact H1]; intros; apply setman_ok; assumption|].
    split; [apply Forall_map; eapply Forall_impl; [|exact H2]; intros; apply setman_ok; assumption|].
    destruct H3 as (np & rest & -> & Hc & Hd). exists (setman c np), (map (setman c) rest).
    split; [reflexivity|]. split; [assumption|]. intros x Hx. apply (proj2 (setd_grows _ _ np)). auto.
  - destruct r; cbn [put_core k_devs k_profs]; auto using Forall_put, setd_ok, has_np_put, setd_grows.
  - destruct r; cbn [put_core k_devs k_profs]; auto using Forall_put, add_std_ok, has_np_put, add_std_grows.
  - destruct server; cbn [k_devs k_profs]; auto.
Qed.

Lemma code3_np m : code3 (mkObject np_codes m).
Proof. split; [reflexivity|]. repeat constructor; unfold is_byte; lia. Qed.

Lemma node_profile_props_wf : wf node_profile_props.
Proof.
  unfold node_profile_props. pose proof (class_props_wf _ (proj1 node_profile_selected)) as H.
  apply with_std_wf; [|assumption]. apply with_std_wf; [apply new_super_wf|assumption].
Qed.

Lemma node_profile_attrs c : attrs_at node_profile_props c =
  first_some (option_map entry_attrs (last_entry (cl_entries node_profile_class) c))
             (option_map entry_attrs (last_entry (cl_entries super_class) c)).
Proof.
  unfold node_profile_props. pose proof (class_props_wf _ (proj1 node_profile_selected)) as [H _].
  rewrite !with_std_attrs by assumption. unfold class_props. rewrite entries_attrs.
  rewrite new_super_attrs. destruct (option_map entry_attrs (last_entry (cl_entries node_profile_class) c)); reflexivity.
Qed.

Lemma node_profile_has c : In c [0xD3; 0xD4; 0xD5; 0xD6; 0xD7; 0x8A] -> HasProp node_profile_props c = true.
Proof.
  intros H. apply HasProp_attrs. rewrite node_profile_attrs.
  destruct H as [<-|[<-|[<-|[<-|[<-|[<-|[]]]]]]]; vm_compute; discriminate.
Qed.

Definition first_np : object := setman 0xFFFFFF (mkObject np_codes node_profile_props).

Definition initial_core : core := mkCore [] (refresh [] [first_np]) 0xFFFFFF false.

Lemma first_np_has_np : has_np [first_np].
Proof.
  exists first_np, []. split; [reflexivity|]. split; [reflexivity|]. intros c Hc.
  apply (proj2 (setd_grows _ _ _)). apply node_profile_has. simpl in *. tauto.
Qed.

Lemma first_np_ok : obj_ok first_np.
Proof. apply setman_ok. split; [apply code3_np|apply node_profile_props_wf]. Qed.

Lemma newLocalNode_core : exists nd, newLocalNode = Ok nd /\ core_of nd = initial_core /\ n_sent nd = [] /\
  n_lastTID nd = 0 /\ n_addr nd = NewAddress /\ n_self nd = true.
Proof.
  unfold newLocalNode. rewrite NewNodeProfile_spec. cbn [bind]. unfold Node_AddProfile.
  cbn [emptyNode n_manufacturer].
  fold np_codes. generalize first_np_has_np, first_np_ok. unfold first_np, initial_core, first_np.
  generalize node_profile_props. intros m Hnp Hok.
  pose proof (SetManufacturer_setman (mkObject np_codes m) NodeManufacturerExperimental) as E.
  destruct (SetManufacturerCode (mkObject np_codes m) NodeManufacturerExperimental) as [[o' ev] e].
  cbn [fst] in E. subst o'. change NodeManufacturerExperimental with 0xFFFFFF.
  set (nd0 := with_objects emptyNode (n_devices emptyNode) (n_profiles emptyNode ++ [setman 0xFFFFFF (mkObject np_codes m)])).
  destruct (updateNodeProfile_core nd0) as (nd & E & Ec).
  - exact Hnp.
  - unfold Objects, nd0. cbn [with_objects n_devices n_profiles emptyNode app].
    constructor; [apply Hok|constructor].
  - exists nd. split; [assumption|]. split; [rewrite Ec; reflexivity|].
    assert (G : forall nd r f, n_running nd = false ->
      let nd' := fst (on_object nd r f) in
      n_running nd' = false /\ n_sent nd' = n_sent nd /\ n_lastTID nd' = n_lastTID nd /\
      n_addr nd' = n_addr nd /\ n_self nd' = n_self nd).
    { intros n r f Hr. unfold on_object. destruct (obj_at n r); [|cbn; auto].
      destruct (f o) as [[o' evs] err]. cbn [fst]. unfold commit.
      assert (A : forall evs x, n_running x = false ->
        announce_all x (Code o') evs = x).
      { clear. induction evs as [|p evs IH]; intros x Hx; [reflexivity|].
        unfold announce_all. cbn [fold_left]. unfold prop_Announce at 2. rewrite Hx. cbn [negb fst].
        apply IH. assumption. }
      rewrite A by (destruct r; exact Hr). destruct r; cbn; auto. }
    unfold updateNodeProfile in E.
    destruct (NodeProfile nd0) as [r|]; [|injection E as <-; cbn; auto].
    destruct (collect_classes (n_devices nd0) []) as [c1| |]; try discriminate. cbn [bind] in E.
    destruct (collect_classes (n_profiles nd0) c1) as [c2| |]; try discriminate. cbn [bind] in E.
    injection E as <-.
    repeat match goal with |- context [fst (on_object ?n ?r ?f)] =>
      lazymatch n with
      | context [on_object] => fail
      | _ => let H := fresh "G" in
             pose proof (G n r f) as H; revert H; generalize (fst (on_object n r f)); intros ? H;
             cbn in H; specialize (H ltac:(first [reflexivity|tauto]))
      end end.
    destruct G0 as (?&?&?&?&?), G1 as (?&?&?&?&?), G2 as (?&?&?&?&?), G3 as (?&?&?&?&?).
    unfold TIDMin in *. repeat split; congruence.
Qed.

(** ** Transaction identifiers *)

Definition tid_ok (nd : node) : Prop := 0 <= n_lastTID nd <= 65535.

(** The second node has sent some more messages than the first, with
    consecutive transaction identifiers. *)
Definition tid_rel (nd nd' : node) : Prop :=
  exists new, n_sent nd' = n_sent nd ++ new /\
    n_lastTID nd' = (n_lastTID nd + len new) mod 65536 /\
    forall i s, nth_error new i = Some s ->
      let t := (n_lastTID nd + Z.of_nat i + 1) mod 65536 in
      shape (sent_message s) /\ m_tid (sent_message s) = (t / 256, t mod 256).

Lemma tid_rel_ok nd nd' : tid_rel nd nd' -> tid_ok nd'.
Proof.
  intros (new & _ & E & _). unfold tid_ok. rewrite E.
  pose proof (Z.mod_pos_bound (n_lastTID nd + len new) 65536 ltac:(lia)). lia.
Qed.

Lemma tid_rel_same nd nd' : tid_ok nd -> n_sent nd' = n_sent nd -> n_lastTID nd' = n_lastTID nd -> tid_rel nd nd'.
Proof.
  intros Ho E1 E2. exists []. rewrite app_nil_r. split; [assumption|]. split.
  - rewrite E2. change (len (@nil sent)) with 0. rewrite Z.add_0_r. symmetry. apply Z.mod_small. unfold tid_ok in Ho. lia.
  - intros [|i] s; discriminate.
Qed.

Lemma tid_rel_trans a b c : tid_rel a b -> tid_rel b c -> tid_rel a c.
Proof.
  intros (l1 & S1 & T1 & H1) (l2 & S2 & T2 & H2). exists (l1 ++ l2).
  split; [rewrite S2, S1, app_assoc; reflexivity|]. split.
  - rewrite T2, T1, len_app, Z.add_mod_idemp_l by lia. f_equal. lia.
  - intros i s Hs. destruct (Nat.lt_ge_cases i (length l1)) as [L|L].
    + rewrite nth_error_app1 in Hs by assumption. apply H1. assumption.
    + rewrite nth_error_app2 in Hs by assumption. specialize (H2 _ _ Hs).
      replace ((n_lastTID a + Z.of_nat i + 1) mod 65536)
        with ((n_lastTID b + Z.of_nat (i - length l1) + 1) mod 65536); [exact H2|].
      rewrite T1. unfold len.
      rewrite <- Z.add_assoc, Z.add_mod_idemp_l by lia. f_equal. lia.
Qed.

Lemma NextTID_spec nd : tid_ok nd ->
  NextTID nd = (with_lastTID nd ((n_lastTID nd + 1) mod 65536), (n_lastTID nd + 1) mod 65536).
Proof.
  intros H. unfold NextTID, tid_ok, TIDMax, TIDMin in *.
  assert (E : (if 65535 <=? n_lastTID nd then 0 else n_lastTID nd + 1) = (n_lastTID nd + 1) mod 65536).
  { destruct (65535 <=? n_lastTID nd) eqn:E.
    - replace (n_lastTID nd) with 65535 by lia. reflexivity.
    - symmetry. apply Z.mod_small. lia. }
  cbv zeta. rewrite E. reflexivity.
Qed.

Lemma tid_rel_one nd nd' s : tid_ok nd ->
  n_sent nd' = n_sent nd ++ [s] -> n_lastTID nd' = (n_lastTID nd + 1) mod 65536 ->
  shape (sent_message s) ->
  (let t := (n_lastTID nd + 1) mod 65536 in m_tid (sent_message s) = (t / 256, t mod 256)) -> tid_rel nd nd'.
Proof.
  intros Ho E1 E2 E3 E4. exists [s]. split; [assumption|]. split; [exact E2|].
  intros [|[|i]] s' Hs; try discriminate. injection Hs as <-.
  change (Z.of_nat 0) with 0. rewrite Z.add_0_r. auto.
Qed.

Lemma mod_tid v : 0 <= v mod 65536 <= 65535.
Proof. pose proof (Z.mod_pos_bound v 65536 ltac:(lia)). lia. Qed.

Lemma AnnounceMessage_run nd m : tid_ok nd -> n_running nd = true ->
  let t := (n_lastTID nd + 1) mod 65536 in
  AnnounceMessage nd m =
  (hand_over (with_lastTID nd t) (Multicast (SetDEOJ (SetTID m t) 0x0EF001)), None).
Proof.
  intros Ho Hr. unfold AnnounceMessage. rewrite Hr, NextTID_spec by assumption. reflexivity.
Qed.

Lemma AnnounceMessage_tid nd m : tid_ok nd -> shape m -> tid_rel nd (fst (AnnounceMessage nd m)).
Proof.
  intros Ho Hs. destruct (n_running nd) eqn:Hr.
  - rewrite AnnounceMessage_run by assumption. eapply tid_rel_one; [assumption|reflexivity|reflexivity| |].
    + destruct Hs as [H1 H2]. split; [exact H1|]. unfold sent_message, SetDEOJ. cbn [with_deoj m_deoj]. rewrite IntegerToByte_length. exact H2.
    + cbn [sent_message fst hand_over SetDEOJ with_deoj m_tid]. apply SetTID_TID, mod_tid.
  - unfold AnnounceMessage. rewrite Hr. apply tid_rel_same; auto.
Qed.

Lemma shape_announcement code p : shape (AddProperty (SetSEOJ (SetESV NewMessage ESVNotification) code) p).
Proof. split; [apply IntegerToByte_length|reflexivity]. Qed.

Lemma AnnounceProperty_tid nd code p : tid_ok nd -> tid_rel nd (fst (AnnounceProperty nd code p)).
Proof. intros H. apply AnnounceMessage_tid; [assumption|]. apply shape_announcement. Qed.

Lemma announce_tid evs : forall nd code, tid_ok nd -> tid_rel nd (announce_all nd code evs).
Proof.
  induction evs as [|p evs IH]; intros nd code Ho; [apply tid_rel_same; auto|].
  unfold announce_all. cbn [fold_left].
  set (nd1 := match fst (prop_Announce (Some nd) code p) with Some nd' => nd' | None => nd end).
  assert (H1 : tid_rel nd nd1).
  { unfold nd1, prop_Announce. destruct (negb (n_running nd)); [apply tid_rel_same; auto|].
    pose proof (AnnounceProperty_tid nd code p Ho) as H.
    destruct (AnnounceProperty nd code p). exact H. }
  apply (tid_rel_trans _ nd1); [assumption|]. apply IH. eapply tid_rel_ok; eauto.
Qed.

Lemma put_at_same nd r o : n_sent (put_at nd r o) = n_sent nd /\ n_lastTID (put_at nd r o) = n_lastTID nd.
Proof. destruct r; auto. Qed.

Lemma commit_tid nd r o evs : tid_ok nd -> tid_rel nd (commit nd r o evs).
Proof.
  intros H. destruct (put_at_same nd r o) as [E1 E2].
  apply (tid_rel_trans _ (put_at nd r o)); [apply tid_rel_same; auto|].
  apply announce_tid. unfold tid_ok. rewrite E2. exact H.
Qed.

Lemma on_object_tid nd r f : tid_ok nd -> tid_rel nd (fst (on_object nd r f)).
Proof.
  intros H. unfold on_object. destruct (obj_at nd r) as [o|]; [|apply tid_rel_same; auto].
  destruct (f o) as [[o' evs] e]. apply commit_tid. assumption.
Qed.

Lemma on_object_tid2 a nd r f : tid_rel a nd -> tid_rel a (fst (on_object nd r f)).
Proof.
  intros H. eapply tid_rel_trans; [exact H|]. apply on_object_tid. eapply tid_rel_ok; eauto.
Qed.

Lemma set_man_loop_tid mk k : forall n c nd, tid_ok nd -> tid_rel nd (set_manufacturer_loop mk n k c nd).
Proof.
  induction k as [|k IH]; intros n c nd H; cbn [set_manufacturer_loop]; [apply tid_rel_same; auto|].
  pose proof (on_object_tid nd (mk n) (fun o => SetManufacturerCode o c) H) as H1.
  eapply tid_rel_trans; [exact H1|]. apply IH. eapply tid_rel_ok; eauto.
Qed.

Lemma updateNodeProfile_tid nd nd' : tid_ok nd -> updateNodeProfile nd = Ok nd' -> tid_rel nd nd'.
Proof.
  intros H. unfold updateNodeProfile. destruct (NodeProfile nd) as [r|]; [|intros [= <-]; apply tid_rel_same; auto].
  destruct (collect_classes (n_devices nd) []) as [c1| |]; try discriminate. cbn [bind].
  destruct (collect_classes (n_profiles nd) c1) as [c2| |]; try discriminate. cbn [bind].
  intros [= <-].
  repeat apply on_object_tid2. apply tid_rel_same; auto.
Qed.

Lemma send_tid wrap nd m : (forall m, sent_message (wrap m) = m) -> tid_ok nd -> shape m ->
  has_np (n_profiles nd) -> tid_rel nd (fst (send_with wrap nd m)).
Proof.
  intros Hw Ho Hs (np & rest & Hp & Hc & _). unfold send_with.
  destruct (n_running nd) eqn:Hr; cbn [negb]; [|apply tid_rel_same; auto].
  unfold updateMessageDestinationHeader. rewrite NextTID_spec by assumption.
  rewrite (NodeProfile_first _ np rest) by assumption.
  cbn [obj_at with_lastTID n_profiles]. rewrite Hp. cbn [nth_error fst].
  eapply tid_rel_one; [assumption|reflexivity|reflexivity| |]; rewrite Hw.
  - destruct Hs as [H1 H2]. split; [|exact H2]. unfold SetSEOJ. cbn [with_seoj m_seoj]. rewrite IntegerToByte_length. exact H1.
  - cbv zeta. cbn [SetSEOJ with_seoj m_tid]. apply SetTID_TID, mod_tid.
Qed.

Lemma node_step_tid op nd nd' : core_inv (core_of nd) -> node_op_ok op -> tid_ok nd ->
  node_step op nd = Ok nd' -> tid_rel nd nd'.
Proof.
  intros (H1 & H2 & H3) Hop Ho. destruct op; cbn [node_step node_op_ok] in *; intros E.
  - unfold Node_AddDevice in E. destruct (SetManufacturerCode o (n_manufacturer nd)) as [[o' ev] e].
    apply updateNodeProfile_tid in E; [|exact Ho]. exact E.
  - unfold Node_AddProfile in E. destruct (SetManufacturerCode o (n_manufacturer nd)) as [[o' ev] e].
    apply updateNodeProfile_tid in E; [|exact Ho]. exact E.
  - injection E as <-. unfold Node_SetManufacturerCode. cbv zeta.
    set (nd0 := with_manufacturer nd c).
    assert (R : tid_rel nd (set_manufacturer_loop DevRef 0 (length (n_devices nd0)) c nd0))
      by (apply (set_man_loop_tid DevRef (length (n_devices nd0)) 0 c nd0); exact Ho).
    eapply tid_rel_trans; [exact R|]. apply set_man_loop_tid. eapply tid_rel_ok; eauto.
  - injection E as <-. apply on_object_tid. assumption.
  - destruct (obj_at nd r); [|injection E as <-; apply tid_rel_same; auto].
    destruct (Super_AddProperty o p) as [[o' evs]|]; [|discriminate]. injection E as <-.
    apply commit_tid. assumption.
  - injection E as <-. apply send_tid; auto.
  - injection E as <-. apply send_tid; auto.
  - injection E as <-. unfold Node_Start. destruct server as [b|]; [apply tid_rel_same; auto|].
    unfold Announce.
    destruct (NodeProfile _); [|apply tid_rel_same; auto]. destruct (obj_at _ o); [|apply tid_rel_same; auto].
    destruct (LookupProperty _ _); [|apply tid_rel_same; auto].
    exact (AnnounceProperty_tid (with_running nd true) _ _ Ho).
  - injection E as <-. apply tid_rel_same; auto.
Qed.

(** ** Histories *)

Lemma history_run ops : forall nd, core_inv (core_of nd) -> Forall node_op_ok ops -> tid_ok nd ->
  exists nd', for_each ops node_step nd = Ok nd' /\ core_inv (core_of nd') /\
    core_of nd' = fold_left (fun k op => core_step op k) ops (core_of nd) /\ tid_rel nd nd'.
Proof.
  induction ops as [|op ops IH]; intros nd Hi Hop Ho.
  - exists nd. split; [reflexivity|]. split; [assumption|]. split; [reflexivity|]. apply tid_rel_same; auto.
  - inversion Hop as [|? ? H1 H2]; subst.
    destruct (node_step_core op nd Hi H1) as (nd1 & E1 & Ec & Hi1).
    pose proof (node_step_tid op nd nd1 Hi H1 Ho E1) as R1.
    destruct (IH nd1 Hi1 H2 (tid_rel_ok _ _ R1)) as (nd2 & E2 & Hi2 & Ec2 & R2).
    exists nd2. cbn [for_each fold_left]. rewrite E1. cbn [bind]. split; [assumption|].
    split; [assumption|]. rewrite Ec2, Ec. split; [reflexivity|]. eapply tid_rel_trans; eauto.
Qed.

Lemma initial_inv : core_inv initial_core.
Proof.
  unfold core_inv, initial_core. cbn [k_devs k_profs].
  pose proof first_np_ok as H1. pose proof first_np_has_np as H2.
  split; [constructor|]. split; [apply refresh_ok; auto|apply refresh_has_np; assumption].
Qed.

Lemma node_after_spec ops : Forall node_op_ok ops ->
  exists nd, node_after ops = Ok nd /\ core_inv (core_of nd) /\
    core_of nd = fold_left (fun k op => core_step op k) ops initial_core /\
    n_lastTID nd = len (n_sent nd) mod 65536 /\
    forall i s, nth_error (n_sent nd) i = Some s ->
      let t := (Z.of_nat i + 1) mod 65536 in
      shape (sent_message s) /\ m_tid (sent_message s) = (t / 256, t mod 256).
Proof.
  intros H. destruct newLocalNode_core as (nd0 & E0 & Ec0 & S0 & T0 & _).
  destruct (history_run ops nd0) as (nd & E & Hi & Ec & R).
  - rewrite Ec0. apply initial_inv.
  - assumption.
  - unfold tid_ok. lia.
  - exists nd. unfold node_after. rewrite E0. cbn [bind]. rewrite Ec0 in Ec.
    split; [assumption|]. split; [assumption|]. split; [assumption|].
    destruct R as (new & S & T & R). rewrite S0, T0 in *. rewrite S. cbn [app]. split; [exact T|].
    intros i s Hs. specialize (R i s Hs). rewrite Z.add_0_l in R. exact R.
Qed.

(** ** Content of the node profile along a history *)

Definition dat (o : object) (c : Z) : option (list Z) := option_map p_data (LookupProperty (o_props o) c).

Lemma dat_setd o c d x : dat (setd c d o) x = if c =? x then option_map (fun _ => d) (dat o x) else dat o x.
Proof.
  unfold dat, setd. cbn [o_props Object.with_props]. rewrite Lookup_set.
  destruct (c =? x); [|reflexivity]. destruct (LookupProperty (o_props o) x); reflexivity.
Qed.

Lemma dat_setd_eq o c d : HasProp (o_props o) c = true -> dat (setd c d o) c = Some d.
Proof.
  intros H. rewrite dat_setd, Z.eqb_refl. apply HasProp_some in H as [p H]. unfold dat. rewrite H. reflexivity.
Qed.

Lemma dat_setd_ne o c d x : c <> x -> dat (setd c d o) x = dat o x.
Proof. intros H. rewrite dat_setd. destruct (c =? x) eqn:E; [lia|reflexivity]. Qed.

Lemma dat_add_std p o x : p_code p <> x -> ~ is_map_code x -> dat (add_std p o) x = dat o x.
Proof.
  intros H1 H2. unfold dat, add_std, add_props. cbn [o_props Object.with_props].
  rewrite upd_lookup_other by assumption. rewrite Lookup_Add.
  destruct (p_code p =? x) eqn:E; [lia|reflexivity].
Qed.

Definition list_codes : list Z := [0xD3; 0xD4; 0xD5; 0xD6; 0xD7].

Definition np_lists (devs profs : list object) (np : object) : Prop :=
  let cs := classes_of devs profs in
  dat np 0xD3 = Some (IntegerToByte (len devs) 3) /\
  dat np 0xD4 = Some (IntegerToByte (len cs) 2) /\
  dat np 0xD5 = Some (instance_bytes devs) /\
  dat np 0xD6 = Some (instance_bytes devs) /\
  dat np 0xD7 = Some (list_count (len cs) :: concat cs).

Definition lists_ok (k : core) : Prop :=
  exists np rest, k_profs k = np :: rest /\ np_lists (k_devs k) (k_profs k) np.

Lemma classes_codes devs profs devs' profs' :
  map o_codes devs' = map o_codes devs -> map o_codes profs' = map o_codes profs ->
  classes_of devs' profs' = classes_of devs profs.
Proof.
  intros H1 H2. unfold classes_of. f_equal. unfold cls.
  rewrite <- !(map_map o_codes (fun l => firstn 2 l)), !map_app, H1, H2. reflexivity.
Qed.

Lemma len_codes (devs devs' : list object) : map o_codes devs' = map o_codes devs -> len devs' = len devs.
Proof.
  intros H. apply (f_equal (@length (list Z))) in H. rewrite !map_length in H. unfold len. lia.
Qed.

Lemma instance_codes devs devs' : map o_codes devs' = map o_codes devs ->
  instance_bytes devs' = instance_bytes devs.
Proof.
  intros H. unfold instance_bytes. rewrite !flat_map_concat_map, H.
  rewrite (len_codes devs devs') by assumption. reflexivity.
Qed.

Lemma np_lists_ext devs profs devs' profs' np np' :
  map o_codes devs' = map o_codes devs -> map o_codes profs' = map o_codes profs ->
  (forall c, In c list_codes -> dat np' c = dat np c) ->
  np_lists devs profs np -> np_lists devs' profs' np'.
Proof.
  intros H1 H2 H3. unfold np_lists. rewrite (classes_codes devs profs devs' profs'), (instance_codes devs devs') by assumption.
  rewrite (len_codes devs devs') by assumption. cbv zeta.
  rewrite (H3 0xD3), (H3 0xD4), (H3 0xD5), (H3 0xD6), (H3 0xD7) by (simpl; auto 10). auto.
Qed.

Lemma refresh_codes devs profs : map o_codes (refresh devs profs) = map o_codes profs.
Proof. destruct profs; reflexivity. Qed.

Lemma refresh_lists devs profs m r : has_np profs -> lists_ok (mkCore devs (refresh devs profs) m r).
Proof.
  intros (np & rest & E & Hc & Hd). unfold lists_ok. cbn [k_profs k_devs].
  exists (refresh_np devs profs np), rest. split; [rewrite E; reflexivity|].
  apply (np_lists_ext devs profs devs (refresh devs profs) (refresh_np devs profs np));
    [reflexivity|apply refresh_codes|reflexivity|].
  unfold np_lists, refresh_np. cbv zeta.
  assert (HH : forall c d o x, HasProp (o_props o) x = true -> HasProp (o_props (setd c d o)) x = true).
  { intros c d o x H. apply (proj2 (setd_grows c d o)). assumption. }
  repeat split; repeat (rewrite dat_setd_ne by lia); apply dat_setd_eq; repeat apply HH; apply Hd; simpl; auto 10.
Qed.

Lemma put_codes l i f : (forall o, grows o (f o)) -> map o_codes (put_list l i f) = map o_codes l.
Proof.
  intros H. unfold put_list. destruct (nth_error l i) as [o|] eqn:E; [|reflexivity].
  apply nth_error_split in E as (l1 & l2 & -> & <-). rewrite set_nth_app, !map_app. cbn [map].
  rewrite (proj1 (H o)). reflexivity.
Qed.

Definition op_devices (op : node_op) : list (list Z) :=
  match op with NAddDevice o => [o_codes o] | _ => [] end.
Definition op_profiles (op : node_op) : list (list Z) :=
  match op with NAddProfile o => [o_codes o] | _ => [] end.

Lemma core_step_codes op k :
  map o_codes (k_devs (core_step op k)) = map o_codes (k_devs k) ++ op_devices op /\
  map o_codes (k_profs (core_step op k)) = map o_codes (k_profs k) ++ op_profiles op.
Proof.
  destruct op; cbn [core_step k_devs k_profs op_devices op_profiles];
    rewrite ?refresh_codes, ?map_app, ?app_nil_r; auto.
  - rewrite !map_map. auto.
  - destruct r; cbn [put_core k_devs k_profs]; rewrite put_codes by apply setd_grows; auto.
  - destruct r; cbn [put_core k_devs k_profs]; rewrite put_codes by apply add_std_grows; auto.
  - destruct server; auto.
Qed.

(** The application leaves the instance and class lists of the node profile to
    the library. *)
Definition keeps_lists (op : node_op) : Prop :=
  match op with
  | NSetData (ProfRef O) c _ => ~ In c list_codes
  | NAddProp (ProfRef O) p => ~ In (p_code p) list_codes
  | _ => True
  end.

Lemma list_codes_not_maps c : In c list_codes -> ~ is_map_code c.
Proof. unfold is_map_code. simpl. lia. Qed.

Lemma lists_put l i f np rest : l = np :: rest -> (forall o, grows o (f o)) ->
  (i = O -> forall c, In c list_codes -> dat (f np) c = dat np c) ->
  exists np' rest', put_list l i f = np' :: rest' /\ forall c, In c list_codes -> dat np' c = dat np c.
Proof.
  intros -> Hg H. unfold put_list. destruct i as [|i]; cbn [nth_error].
  - exists (f np), rest. split; [reflexivity|]. auto.
  - destruct (nth_error rest i); eexists; eexists; (split; [reflexivity|auto]).
Qed.

Lemma core_step_lists op k : core_inv k -> keeps_lists op -> lists_ok k -> lists_ok (core_step op k).
Proof.
  intros (H1 & H2 & H3) Hk HL. destruct op; cbn [core_step keeps_lists] in *.
  - apply refresh_lists. assumption.
  - apply refresh_lists. destruct H3 as (np & rest & E & H). rewrite E.
    exists np, (rest ++ [setman (k_man k) o]). auto.
  - destruct HL as (np & rest & E & HL). exists (setman c np), (map (setman c) rest).
    cbn [k_profs k_devs]. split; [rewrite E; reflexivity|].
    apply (np_lists_ext (k_devs k) (k_profs k) _ _ np); [rewrite map_map; auto|rewrite map_map; auto| |assumption].
    intros x Hx. apply dat_setd_ne. simpl in Hx. lia.
  - destruct HL as (np & rest & E & HL). unfold lists_ok. destruct r as [i|i]; cbn [put_core k_devs k_profs].
    + exists np, rest. split; [assumption|].
      apply (np_lists_ext (k_devs k) (k_profs k) _ _ np); auto. apply put_codes, setd_grows.
    + destruct (lists_put (k_profs k) i (setd code d) np rest E (setd_grows code d)) as (np' & rest' & Ep & Hd).
      { intros -> c Hc. apply dat_setd_ne. intros ->. auto. }
      exists np', rest'. split; [assumption|].
      apply (np_lists_ext (k_devs k) (k_profs k) _ _ np); auto. apply put_codes, setd_grows.
  - destruct HL as (np & rest & E & HL). unfold lists_ok. destruct r as [i|i]; cbn [put_core k_devs k_profs].
    + exists np, rest. split; [assumption|].
      apply (np_lists_ext (k_devs k) (k_profs k) _ _ np); auto. apply put_codes, add_std_grows.
    + destruct (lists_put (k_profs k) i (add_std p) np rest E (add_std_grows p)) as (np' & rest' & Ep & Hd).
      { intros -> c Hc. apply dat_add_std; [intros <-; auto|apply list_codes_not_maps; assumption]. }
      exists np', rest'. split; [assumption|].
      apply (np_lists_ext (k_devs k) (k_profs k) _ _ np); auto. apply put_codes, add_std_grows.
  - assumption.
  - assumption.
  - destruct server; exact HL.
  - exact HL.
Qed.

(** ** The manufacturer code along a history *)

Definition keeps_manufacturer (op : node_op) : Prop :=
  match op with
  | NAddDevice o | NAddProfile o => HasProp (o_props o) 0x8A = true
  | NSetData _ c _ => c <> 0x8A
  | NAddProp _ p => p_code p <> 0x8A
  | _ => True
  end.

Definition has_man (m : Z) (o : object) : Prop := dat o 0x8A = Some (IntegerToByte m 3).

Lemma has_man_setman m o : HasProp (o_props o) 0x8A = true -> has_man m (setman m o).
Proof. apply dat_setd_eq. Qed.

Lemma has_man_has m o : has_man m o -> HasProp (o_props o) 0x8A = true.
Proof.
  unfold has_man, dat, HasProp. destruct (LookupProperty (o_props o) 0x8A); [reflexivity|discriminate].
Qed.

Lemma has_man_refresh m devs profs : Forall (has_man m) profs -> Forall (has_man m) (refresh devs profs).
Proof.
  intros H. destruct H as [|np rest H1 H2]; [constructor|]. constructor; [|assumption].
  unfold has_man, refresh_np. cbv zeta. repeat (rewrite dat_setd_ne by lia). exact H1.
Qed.

Definition man_ok (k : core) : Prop :=
  Forall (has_man (k_man k)) (k_devs k) /\ Forall (has_man (k_man k)) (k_profs k).

Lemma core_step_man op k : keeps_manufacturer op -> man_ok k -> man_ok (core_step op k).
Proof.
  intros Hk [H1 H2]. unfold man_ok. destruct op; cbn [core_step keeps_manufacturer k_devs k_profs k_man] in *.
  - split; [apply Forall_app; auto using has_man_setman|apply has_man_refresh; assumption].
  - split; [assumption|]. apply has_man_refresh. apply Forall_app; auto using has_man_setman.
  - split; apply Forall_map; (eapply Forall_impl; [|eassumption]); intros o Ho;
      apply has_man_setman; eapply has_man_has; eauto.
  - destruct r; cbn [put_core k_devs k_profs k_man]; (split; [|try assumption]); try assumption;
      (apply Forall_put; [assumption|]); intros o Ho; unfold has_man; rewrite dat_setd_ne by assumption; assumption.
  - assert (~ is_map_code 0x8A) by (unfold is_map_code; lia).
    destruct r; cbn [put_core k_devs k_profs k_man]; (split; [|try assumption]); try assumption;
      (apply Forall_put; [assumption|]); intros o Ho; unfold has_man; rewrite dat_add_std by assumption; assumption.
  - auto.
  - auto.
  - destruct server; auto.
  - auto.
Qed.

Lemma initial_lists : lists_ok initial_core.
Proof. apply refresh_lists, first_np_has_np. Qed.

Lemma initial_man : man_ok initial_core.
Proof.
  split; [constructor|]. cbn [initial_core k_profs k_man]. apply has_man_refresh.
  constructor; [|constructor]. apply has_man_setman. apply node_profile_has. simpl. tauto.
Qed.

Lemma history_core (P : node_op -> Prop) (Q : core -> Prop) :
  (forall op k, core_inv k -> node_op_ok op -> P op -> Q k -> Q (core_step op k)) ->
  (forall op k, core_inv k -> node_op_ok op -> core_inv (core_step op k)) ->
  forall ops k, core_inv k -> Forall node_op_ok ops -> Forall P ops -> Q k ->
  Q (fold_left (fun k op => core_step op k) ops k).
Proof.
  intros HS HI. induction ops as [|op ops IH]; intros k Hi Hok Hp Hq; [assumption|].
  inversion Hok; inversion Hp; subst. cbn [fold_left]. apply IH; auto.
Qed.

Lemma core_step_inv op k : core_inv k -> node_op_ok op -> core_inv (core_step op k).
Proof.
  intros Hi Ho.
  set (nd := mkNode (k_devs k) (k_profs k) (k_man k) 0 (k_run k) NewAddress true []).
  destruct (node_step_core op nd) as (nd' & _ & E & H); [destruct k; exact Hi|assumption|].
  rewrite E in H. destruct k; exact H.
Qed.

Lemma history_codes ops : forall k,
  let k' := fold_left (fun k op => core_step op k) ops k in
  map o_codes (k_devs k') = map o_codes (k_devs k) ++ flat_map op_devices ops /\
  map o_codes (k_profs k') = map o_codes (k_profs k) ++ flat_map op_profiles ops.
Proof.
  induction ops as [|op ops IH]; intros k; cbn [fold_left flat_map].
  - rewrite !app_nil_r. auto.
  - destruct (IH (core_step op k)) as [-> ->]. destruct (core_step_codes op k) as [-> ->].
    rewrite !app_assoc. auto.
Qed.

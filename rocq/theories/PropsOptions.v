(** Theorems about the option lists of the constructors: C89. *)

From Coq Require Import String.
From Verif Require Import Go GoFacts Encoding EncodingFacts Protocol Parser MessageFacts ParserFacts ProtocolFacts
  StdDB Property PropertyFacts Object ObjectFacts Spec Node NodeFacts Transport ExchangeFacts PropsObject Options.
From Verif Require PropsNode.
From Coq Require Import ZifyBool ZifyNat.
Local Open Scope Z_scope.

(** ** What an option list chooses *)

(** [v] is what the last option selected by [sel] says, or [default] when there is
    none. *)
Definition chosen {O V} (sel : O -> option V) (opts : list O) (default v : V) : Prop :=
  (exists before o after, opts = before ++ o :: after /\ sel o = Some v /\ Forall (fun x => sel x = None) after) \/
  (Forall (fun x => sel x = None) opts /\ v = default).

Lemma chosen_nil {O V} (sel : O -> option V) d : chosen sel [] d d.
Proof. right. split; [constructor|reflexivity]. Qed.

Lemma chosen_snoc {O V} (sel : O -> option V) opts d v o : chosen sel opts d v ->
  chosen sel (opts ++ [o]) d (match sel o with Some x => x | None => v end).
Proof.
  intros H. destruct (sel o) as [x|] eqn:E.
  - left. exists opts, o, []. auto.
  - destruct H as [(b & y & a & -> & H1 & H2)|[H1 H2]].
    + left. exists b, y, (a ++ [o]). split; [rewrite <- app_assoc; reflexivity|]. split; [assumption|].
      apply Forall_app. auto.
    + right. split; [apply Forall_app; auto|assumption].
Qed.

Lemma fold_chosen {O V S} (sel : O -> option V) (step : S -> O -> S) (pr : S -> V) :
  (forall s o, pr (step s o) = match sel o with Some v => v | None => pr s end) ->
  forall opts s, chosen sel opts (pr s) (pr (fold_left step opts s)).
Proof.
  intros H opts. induction opts as [|o opts IH] using rev_ind; intros s; [apply chosen_nil|].
  rewrite fold_left_app. cbn [fold_left]. rewrite H. apply chosen_snoc, IH.
Qed.

(** The choice is unique. *)
Lemma chosen_unique {O V} (sel : O -> option V) opts d v w : chosen sel opts d v -> chosen sel opts d w -> v = w.
Proof.
  revert v w. induction opts as [|o opts IH] using rev_ind; intros v w Hv Hw.
  - destruct Hv as [([|] & ? & ? & H & _)|[_ ->]]; [discriminate|discriminate|].
    destruct Hw as [([|] & ? & ? & H & _)|[_ ->]]; [discriminate|discriminate|reflexivity].
  - assert (G : forall z, chosen sel (opts ++ [o]) d z ->
                  match sel o with Some x => z = x | None => chosen sel opts d z end).
    { clear. intros z [(b & y & a & E & H1 & H2)|[H1 H2]].
      - destruct a as [|a0 a] using rev_ind.
        + apply app_inj_tail in E as [-> ->]. rewrite H1. reflexivity.
        + rewrite app_comm_cons, app_assoc in E. apply app_inj_tail in E as [-> ->].
          apply Forall_app in H2 as [H2 H3]. inversion H3; subst. rewrite H4. left. exists b, y, a. auto.
      - apply Forall_app in H1 as [H1 H3]. inversion H3; subst. rewrite H4. right. auto. }
    apply G in Hv. apply G in Hw. destruct (sel o); [congruence|eauto].
Qed.

(** ** Properties *)

Definition name_opt o := match o with WithPropertyName n => Some n | _ => None end.
Definition code_opt o := match o with WithPropertyCode c => Some c | _ => None end.
Definition read_opt o := match o with WithPropertyReadAttribute a => Some a | _ => None end.
Definition write_opt o := match o with WithPropertyWriteAttribute a => Some a | _ => None end.
Definition anno_opt o := match o with WithPropertyAnnoAttribute a => Some a | _ => None end.
Definition data_opt o := match o with WithPropertyData d => Some d | _ => None end.

Theorem C89_property : forall opts, let p := snd (build_property opts) in
  chosen name_opt opts ""%string (fst (build_property opts)) /\
  chosen code_opt opts 0 (p_code p) /\ chosen read_opt opts Prohibited (p_get p) /\
  chosen write_opt opts Prohibited (p_set p) /\ chosen anno_opt opts Prohibited (p_anno p) /\
  chosen data_opt opts [] (p_data p).
Proof.
  intros opts. cbv zeta. unfold build_property.
  split; [apply (fold_chosen name_opt apply_prop fst); intros [n p] []; reflexivity|].
  split; [apply (fold_chosen code_opt apply_prop (fun x => p_code (snd x))); intros [n p] []; reflexivity|].
  split; [apply (fold_chosen read_opt apply_prop (fun x => p_get (snd x))); intros [n p] []; reflexivity|].
  split; [apply (fold_chosen write_opt apply_prop (fun x => p_set (snd x))); intros [n p] []; reflexivity|].
  split; [apply (fold_chosen anno_opt apply_prop (fun x => p_anno (snd x))); intros [n p] []; reflexivity|].
  apply (fold_chosen data_opt apply_prop (fun x => p_data (snd x))); intros [n p] []; reflexivity.
Qed.

(** ** Messages *)

Definition deoj_opt o := match o with WithMessageDEOJ c => Some c | _ => None end.
Definition esv_opt o := match o with WithMessageESV v => Some v | _ => None end.
(** The properties of all the options, in order. *)
Definition given_properties (opts : list msg_option) : list (Z * list Z) :=
  flat_map (fun o => match o with WithMessageProperties ps => map (fun p => (p_code p, p_data p)) ps | _ => [] end) opts.

Definition as_ops (o : msg_option) : list msg_op :=
  match o with
  | WithMessageDEOJ c => [OSetDEOJ c]
  | WithMessageESV v => [OSetESV v]
  | WithMessageProperties ps => adds (map ToProtocol ps)
  end.

Lemma fold_to_protocol ps : forall m,
  fold_left (fun m p => AddProperty m (ToProtocol p)) ps m = fold_left AddProperty (map ToProtocol ps) m.
Proof. induction ps as [|p ps IH]; intros m; [reflexivity|]. apply IH. Qed.

Lemma build_message_ops opts : build_message opts = built (flat_map as_ops opts).
Proof.
  unfold build_message, built. generalize NewMessage. induction opts as [|o opts IH]; intros m; [reflexivity|].
  cbn [fold_left flat_map]. rewrite fold_left_app, IH. f_equal. destruct o; try reflexivity.
  cbn [apply_msg as_ops]. rewrite fold_to_protocol. apply fold_adds.
Qed.

Lemma build_message_content opts : exists deoj esv,
  chosen deoj_opt opts 0 deoj /\ chosen esv_opt opts 0 esv /\
  content_of (flat_map as_ops opts) = mkContent 0 0 deoj esv (given_properties opts).
Proof.
  induction opts as [|o opts IH] using rev_ind.
  - exists 0, 0. repeat split; apply chosen_nil.
  - destruct IH as (d & e & Hd & He & E).
    eexists. eexists. split; [apply chosen_snoc; exact Hd|]. split; [apply chosen_snoc; exact He|].
    rewrite flat_map_app, content_app, E. unfold given_properties. rewrite flat_map_app.
    cbn [flat_map]. rewrite !app_nil_r.
    destruct o; cbn [as_ops fold_left content_step deoj_opt esv_opt c_tid c_seoj c_deoj c_esv c_props];
      rewrite ?app_nil_r; try reflexivity.
    rewrite content_adds. cbn [c_tid c_seoj c_deoj c_esv c_props]. rewrite map_map. reflexivity.
Qed.

(** The message has the destination and the service last given and all the given
    properties, in order; with the transaction identifier and the source that the
    node sets when it sends it, its bytes are those of the frame. *)
Theorem C89_message : forall opts, exists deoj esv,
  chosen deoj_opt opts 0 deoj /\ chosen esv_opt opts 0 esv /\
  let m := build_message opts in
  let props := given_properties opts in
  m_esv m = esv /\ map (fun p => (pp_code p, pp_data p)) (m_ep m) = props /\
  (0 <= deoj < 2 ^ 24 -> DEOJ m = deoj) /\ SEOJ m = 0 /\ TID m = 0 /\
  (forall tid seoj, frame_in_limits tid seoj deoj esv props ->
     Bytes (SetSEOJ (SetTID m tid) seoj) = Ok (wire_frame tid seoj deoj esv props)).
Proof.
  intros opts. destruct (build_message_content opts) as (d & e & Hd & He & E).
  exists d, e. split; [assumption|]. split; [assumption|]. cbv zeta.
  rewrite build_message_ops. set (ops := flat_map as_ops opts) in *.
  pose proof (built_represents ops) as HR. rewrite E in HR.
  destruct HR as (R1 & R2 & R3 & R4 & R5 & R6 & R7 & R8). cbn [c_tid c_seoj c_deoj c_esv c_props] in *.
  split; [assumption|]. split.
  { rewrite R7, map_map. rewrite <- (map_id (given_properties opts)) at 2. apply map_ext. intros [a b]. reflexivity. }
  split. { intros Hr. unfold DEOJ. rewrite R5, IntegerToByte_3 by assumption. apply ByteToInteger_be3. assumption. }
  split. { unfold SEOJ. rewrite R4. reflexivity. }
  split. { unfold TID. rewrite <- R3. reflexivity. }
  intros tid seoj HL.
  change (SetSEOJ (SetTID (built ops) tid) seoj) with (fold_left apply_op [OSetTID tid; OSetSEOJ seoj] (built ops)).
  rewrite <- built_app.
  rewrite (represents_Bytes _ _ (built_represents _)); rewrite content_app, E; [reflexivity|exact HL].
Qed.

(** ** Classes *)

Definition group_opt o :=
  match o with WithClassGroupCode c => Some c | WithClassBytes b => nth_error b 0 | _ => None end.
Definition class_opt o :=
  match o with WithClassCode c => Some c | WithClassBytes b => nth_error b 1 | _ => None end.
Definition class_option_ok (o : class_option) : Prop :=
  match o with WithClassBytes b => (2 <= List.length b)%nat | _ => True end.

(** The class has the codes last given; a byte slice that is too short is a panic,
    and nothing else is. *)
Theorem C89_class : forall opts,
  (Forall class_option_ok opts -> exists g c, build_class opts = Ok [g; c] /\
     chosen group_opt opts 0 g /\ chosen class_opt opts 0 c) /\
  (~ Forall class_option_ok opts -> build_class opts = Panic).
Proof.
  intros opts. unfold build_class.
  assert (S1 : forall o g c, class_option_ok o -> apply_class o [g; c] =
            Ok [match group_opt o with Some x => x | None => g end; match class_opt o with Some x => x | None => c end]).
  { intros [[|x [|y b]]|x|x] g c Ho; cbn [class_option_ok List.length] in Ho; try lia; reflexivity. }
  split.
  - intros H. induction opts as [|o opts IH] using rev_ind.
    + exists 0, 0. repeat split; apply chosen_nil.
    + apply Forall_app in H as [H1 H2]. inversion H2; subst. destruct (IH H1) as (g & c & E & Hg & Hc).
      rewrite for_each_app, E. cbn [bind for_each]. rewrite S1 by assumption. cbn [bind].
      eexists. eexists. split; [reflexivity|]. split; apply chosen_snoc; assumption.
  - generalize 0 at 1. generalize 0. induction opts as [|o opts IH]; intros c g H; [exfalso; apply H; constructor|].
    cbn [for_each].
    assert (D : class_option_ok o \/ ~ class_option_ok o).
    { destruct o; cbn [class_option_ok]; [|left; exact I|left; exact I]. lia. }
    destruct D as [D|D].
    + rewrite S1 by assumption. cbn [bind]. apply IH. intros Hf. apply H. constructor; assumption.
    + destruct o as [[|x [|y b]]|x|x]; cbn [class_option_ok List.length] in D; try (exfalso; lia); reflexivity.
Qed.

(** ** Configurations *)

(** The flag last given decides about TCP, for the requests of the node and for its
    servers; everything else keeps its default. *)
Theorem C89_config : forall flags, let c := build_config flags in
  chosen (@Some bool) flags false (uc_tcpEnabled (cf_unicast (uf_transport c))) /\
  uf_self c = true /\ cf_extension (uf_transport c) = cf_extension NewDefaultConfig /\
  uc_connectionTimeout (cf_unicast (uf_transport c)) = uc_connectionTimeout NewDefaultUnicastConfig /\
  uc_requestTimeout (cf_unicast (uf_transport c)) = uc_requestTimeout NewDefaultUnicastConfig /\
  uc_bindRetryCount (cf_unicast (uf_transport c)) = uc_bindRetryCount NewDefaultUnicastConfig /\
  uc_bindRetryWaitTime (cf_unicast (uf_transport c)) = uc_bindRetryWaitTime NewDefaultUnicastConfig.
Proof.
  intros flags. cbv zeta. unfold build_config. split.
  - apply (fold_chosen (@Some bool) with_tcp (fun x => uc_tcpEnabled (cf_unicast (uf_transport x)))). reflexivity.
  - assert (G : forall (A : Type) (f : user_config -> A), (forall c b, f (with_tcp c b) = f c) ->
              forall c, f (fold_left with_tcp flags c) = f c).
    { intros A f Hf. induction flags as [|b l IH]; intros c; [reflexivity|]. cbn [fold_left]. rewrite IH. apply Hf. }
    split; [apply (G _ uf_self); reflexivity|].
    split; [apply (G _ (fun c => cf_extension (uf_transport c))); reflexivity|].
    split; [apply (G _ (fun c => uc_connectionTimeout (cf_unicast (uf_transport c)))); reflexivity|].
    split; [apply (G _ (fun c => uc_requestTimeout (cf_unicast (uf_transport c)))); reflexivity|].
    split; [apply (G _ (fun c => uc_bindRetryCount (cf_unicast (uf_transport c)))); reflexivity|].
    apply (G _ (fun c => uc_bindRetryWaitTime (cf_unicast (uf_transport c)))); reflexivity.
Qed.

(** ** Devices *)

Section Devices.
Variable H : Type.

Definition dev_option_ok (o : dev_option H) : Prop :=
  match o with WithDeviceCode c | WithDeviceManufacturerCode c => 0 <= c < 2 ^ 64 | _ => True end.
Definition dcode_opt (o : dev_option H) := match o with WithDeviceCode c => Some c | _ => None end.
Definition handler_opt (o : dev_option H) := match o with WithDeviceRequestHandler h => Some (Some h) | _ => None end.

(** The codes of the super class and of the node profile class: the two classes
    with a manufacturer code of their own. *)
Definition has_own_maker (code : Z) : bool :=
  let k := (code / 256) mod 65536 in (k =? 0) || (k =? 0x0EF0).
(** What an option says about the manufacturer code of the device: it sets it, or
    takes it away by bringing in a class that has its own. *)
Definition maker_opt (o : dev_option H) : option (option Z) :=
  match o with
  | WithDeviceManufacturerCode c => Some (Some c)
  | WithDeviceCode code => if has_own_maker code then Some None else None
  | _ => None
  end.

Definition given_codes (opts : list (dev_option H)) : list Z :=
  flat_map (fun o => match o with WithDeviceCode c => [c] | _ => [] end) opts.

Lemma own_makers : forallb (fun c => Bool.eqb (match last_entry (cl_entries c) 0x8A with Some _ => true | None => false end)
  (((cl_grp c =? 0) && (cl_cls c =? 0)) || ((cl_grp c =? 14) && (cl_cls c =? 240)))) mra_table = true.
Proof. vm_compute. reflexivity. Qed.

Lemma own_maker code c : 0 <= code -> selects code c ->
  (match last_entry (cl_entries c) 0x8A with Some _ => true | None => false end) = has_own_maker code.
Proof.
  intros Hr (H1 & H2 & H3). pose proof own_makers as HF. rewrite forallb_forall in HF. specialize (HF c H1).
  apply Bool.eqb_prop in HF. rewrite HF, H2, H3. unfold has_own_maker. clear - Hr.
  assert (E : (code / 256) mod 65536 = ((code / 65536) mod 256) * 256 + (code / 256) mod 256).
  { change 65536 with (256 * 256) at 1. rewrite Z.rem_mul_r by lia. rewrite Z.div_div by lia.
    change (256 * 256) with 65536. lia. }
  cbv zeta. rewrite E. pose proof (Z.mod_pos_bound (code / 65536) 256). pose proof (Z.mod_pos_bound (code / 256) 256).
  generalize dependent ((code / 65536) mod 256). generalize dependent ((code / 256) mod 256). intros. lia.
Qed.

Definition data_at (m : props) (c : Z) : option (list Z) := option_map p_data (LookupProperty m c).

Lemma data_add m q c : ~ is_map_code c ->
  data_at (add_props m q) c = if p_code q =? c then Some (p_data q) else data_at m c.
Proof.
  intros Hc. unfold data_at, add_props. rewrite upd_lookup_other by assumption. rewrite Lookup_Add.
  destruct (p_code q =? c); reflexivity.
Qed.

Lemma data_fold l c : ~ is_map_code c -> Forall (fun q => p_data q = []) l -> forall m,
  data_at (fold_left add_props l m) c = if existsb (fun q => p_code q =? c) l then Some [] else data_at m c.
Proof.
  intros Hc. induction l as [|q l IH]; intros Hl m; [reflexivity|]. inversion Hl as [|? ? H1 H2]; subst.
  cbn [fold_left existsb]. rewrite IH by assumption. rewrite data_add by assumption. rewrite H1.
  destruct (existsb (fun q => p_code q =? c) l); [rewrite Bool.orb_true_r; reflexivity|].
  rewrite Bool.orb_false_r. reflexivity.
Qed.

Lemma data_with_std m std c : ~ is_map_code c -> props_ok std ->
  data_at (with_std m std) c = match attrs_at std c with Some _ => Some [] | None => data_at m c end.
Proof.
  intros Hc Hs. unfold with_std. rewrite data_fold; [|assumption|].
  2:{ unfold copies. apply Forall_map, Forall_forall. reflexivity. }
  rewrite <- copies_attrs by assumption. unfold attrs_at. generalize (copies std) as l. clear.
  induction l as [|q l IH]; [reflexivity|]. cbn [existsb].
  unfold LookupProperty in *. cbn [find]. destruct (p_code q =? c); [reflexivity|]. exact IH.
Qed.

(** The state after a list of options. *)
Record dev_state (opts : list (dev_option H)) (o : object) (h : option H) : Prop := mkDevState {
  ds_inv : obj_inv o;
  ds_code : exists code, chosen dcode_opt opts 0 code /\ o_codes o = be3 (code mod 2 ^ 24);
  ds_attrs : forall pc, attrs_at (o_props o) pc = option_map entry_attrs (assigned_entry (rev (given_codes opts)) pc);
  ds_data : forall pc, ~ is_map_code pc -> pc <> 0x8A -> forall d, data_at (o_props o) pc = Some d -> d = [];
  ds_maker : exists m, chosen maker_opt opts None m /\
    data_at (o_props o) 0x8A = Some (match m with Some c => IntegerToByte c 3 | None => [] end);
  ds_handler : chosen handler_opt opts None h }.

Lemma no_map_8A : ~ is_map_code 0x8A.
Proof. unfold is_map_code. lia. Qed.

Lemma fresh_data m c : fresh m -> attrs_at m c <> None -> ~ is_map_code c -> data_at m c = Some [].
Proof.
  intros Hf A Hc. unfold attrs_at in A. unfold data_at. specialize (Hf c).
  destruct (LookupProperty m c) as [p|]; [|exfalso; apply A; reflexivity].
  cbn [option_map]. rewrite (Hf p eq_refl Hc). reflexivity.
Qed.

Lemma fresh_blank m c d : fresh m -> ~ is_map_code c -> data_at m c = Some d -> d = [].
Proof.
  intros Hf Hc Hd. unfold data_at in Hd. specialize (Hf c). destruct (LookupProperty m c) as [p|]; [|discriminate].
  cbn [option_map] in Hd. rewrite (Hf p eq_refl Hc) in Hd. congruence.
Qed.

Lemma dev_initial : dev_state [] (mkObject [0; 0; 0] new_super) None.
Proof.
  pose proof new_super_inv as Hi. pose proof new_super_attrs as Ha. pose proof fresh_new_super as Hf.
  assert (A : attrs_at new_super 0x8A <> None) by (apply state_codes_present; simpl; auto).
  revert Hi Ha Hf A. generalize new_super. intros m Hi Ha Hf A. constructor.
  - exact Hi.
  - exists 0. split; [apply chosen_nil|reflexivity].
  - intros pc. exact (Ha pc).
  - intros pc Hm _ d. apply fresh_blank; assumption.
  - exists None. split; [apply chosen_nil|]. apply fresh_data; [assumption|assumption|apply no_map_8A].
  - apply chosen_nil.
Qed.

Definition known (o : dev_option H) : Prop :=
  match o with WithDeviceCode c => class_of c <> None | _ => True end.

Lemma dev_step opts o h x : dev_state opts o h -> dev_option_ok x -> known x ->
  exists o' h', apply_dev x (o, h) = Ok (o', h') /\ dev_state (opts ++ [x]) o' h'.
Proof.
  intros [Hi (code0 & Hc0 & Ec0) Ha Hd (m0 & Hm0 & Em0) Hh] Hok Hk.
  assert (GC : given_codes (opts ++ [x]) = given_codes opts ++ (match x with WithDeviceCode c => [c] | _ => [] end)).
  { unfold given_codes. rewrite flat_map_app. cbn [flat_map]. rewrite app_nil_r. reflexivity. }
  pose proof (chosen_snoc dcode_opt opts _ _ x Hc0) as Hc1.
  pose proof (chosen_snoc maker_opt opts _ _ x Hm0) as Hm1.
  pose proof (chosen_snoc handler_opt opts _ _ x Hh) as Hh1.
  destruct x as [code|code|h']; cbn [apply_dev dev_option_ok known dcode_opt maker_opt handler_opt] in *.
  - destruct (class_of code) as [c|] eqn:Ec; [|exfalso; apply Hk; reflexivity].
    pose proof (class_of_selects _ _ Ec) as Hs.
    rewrite (DB_lookup_some code c) by (tauto || lia).
    destruct (Super_SetCode_known o code c (proj1 Hi) (proj1 (proj2 Hi)) Hok Hs) as [ev E]. rewrite E.
    destruct (call_inv o (CallSetCode code) Hi Hok) as (o1 & E1 & Hi1). cbn [call] in E1. rewrite E in E1.
    injection E1 as E1. cbn [fst] in E1.
    eexists. eexists. split; [reflexivity|]. subst o1. constructor; [exact Hi1| | | | |assumption];
      cbn [o_props o_codes].
    + exists code. auto.
    + intros pc. rewrite with_std_attrs by apply (class_props_wf c (proj1 Hs)).
      unfold class_props. rewrite entries_attrs, Ha, GC, rev_app_distr. cbn [rev app assigned_entry]. rewrite Ec.
      unfold entry_for. destruct (last_entry (cl_entries c) pc); reflexivity.
    + intros pc Hp1 Hp2 d. rewrite data_with_std by (try assumption; apply (class_props_wf c (proj1 Hs))).
      destruct (attrs_at (class_props c) pc); [congruence|]. apply Hd; assumption.
    + eexists. split; [exact Hm1|]. rewrite data_with_std by (apply no_map_8A || apply (class_props_wf c (proj1 Hs))).
      unfold class_props. rewrite entries_attrs. rewrite <- (own_maker code c) by (assumption || lia).
      destruct (last_entry (cl_entries c) 0x8A); cbn [option_map]; [reflexivity|exact Em0].
  - assert (EL : exists p, LookupProperty (o_props o) 0x8A = Some p).
    { unfold data_at in Em0. destruct (LookupProperty (o_props o) 0x8A) as [p|]; [eauto|discriminate]. }
    destruct EL as [p EL].
    assert (Hb : is_bytes (IntegerToByte code 3)) by apply IntegerToByte_bytes.
    destruct (call_inv o (CallSetPropertyData 0x8A (IntegerToByte code 3)) Hi) as (o1 & E1 & Hi1).
    { split; [apply no_map_8A|exact Hb]. }
    cbn [call] in E1.
    unfold SetManufacturerCode, SetPropertyInteger, SetPropertyIntegerMap, SetPropertyData, SetPropertyDataMap,
      ObjectManufacturerCode, lift_props in *. rewrite EL in *. cbn [fst] in E1. injection E1 as E1.
    eexists. eexists. split; [reflexivity|]. subst o1. constructor; [exact Hi1| | | | |assumption];
      cbn [o_props o_codes Object.with_props].
    + exists code0. auto.
    + intros pc. rewrite attrs_set, Ha, GC, app_nil_r. reflexivity.
    + intros pc Hp1 Hp2 d. unfold data_at. rewrite Lookup_set. destruct (0x8A =? pc) eqn:E2; [lia|].
      apply Hd; assumption.
    + eexists. split; [exact Hm1|]. unfold data_at. rewrite Lookup_set, Z.eqb_refl, EL. reflexivity.
  - eexists. eexists. split; [reflexivity|]. constructor; try assumption.
    + exists code0. auto.
    + intros pc. rewrite GC, app_nil_r. apply Ha.
    + exists m0. auto.
Qed.

Lemma dev_run opts : Forall dev_option_ok opts -> Forall known opts ->
  exists o h, build_device opts = Ok (o, h) /\ dev_state opts o h.
Proof.
  unfold build_device. rewrite NewSuperObject_spec.
  induction opts as [|x opts IH] using rev_ind; intros Hok Hk.
  - eexists. eexists. split; [reflexivity|apply dev_initial].
  - apply Forall_app in Hok as [Ho1 Ho2]. apply Forall_app in Hk as [Hk1 Hk2]. inversion Ho2; inversion Hk2; subst.
    destruct (IH Ho1 Hk1) as (o & h & E & HS). rewrite for_each_app, E. cbn [bind for_each].
    destruct (dev_step opts o h x) as (o' & h' & E' & HS'); try assumption.
    rewrite E'. cbn [bind]. eauto.
Qed.

(** The device has the code last given, the properties of the classes given (each
    from the class given last that has it, or else from the super class), the
    request handler and the manufacturer code last given; all other data is empty. *)
Theorem C89_device : forall opts, Forall dev_option_ok opts ->
  (forall code, In (WithDeviceCode code) opts -> class_of code <> None) ->
  exists o h code maker, build_device opts = Ok (o, h) /\
    chosen dcode_opt opts 0 code /\ Codes o = be3 (code mod 2 ^ 24) /\
    (forall pc, match assigned_entry (rev (given_codes opts)) pc with
                | Some e => exists p, LookupProperty (o_props o) pc = Some p /\ has_access_of e p /\
                    (pc <> 0x8A -> pc <> 0x9D -> pc <> 0x9E -> pc <> 0x9F -> p_data p = [])
                | None => LookupProperty (o_props o) pc = None
                end) /\
    chosen maker_opt opts None maker /\
    ManufacturerCode o = (match maker with Some c => Ok (c mod 2 ^ 24) | None => Err ErrNoData end) /\
    chosen handler_opt opts None h.
Proof.
  intros opts Hok Hk. destruct (dev_run opts Hok) as (o & h & E & [Hi (code & Hc & Ec) Ha Hd (m & Hm & Em) Hh]).
  { apply Forall_forall. intros [c|c|x] Hx; cbn [known]; auto. }
  exists o, h, code, m. split; [assumption|]. split; [assumption|]. split; [exact Ec|]. split.
  { intros pc. specialize (Ha pc). destruct (assigned_entry (rev (given_codes opts)) pc) as [e|] eqn:EE; cbn [option_map] in Ha.
    - destruct (attrs_has_access (o_props o) pc e) as (p & EL & HA); [|assumption|].
      { revert EE. generalize (rev (given_codes opts)) as l. clear.
        induction l as [|x l IH]; cbn [assigned_entry]; [apply last_entry_code|].
        destruct (class_of x) as [c|]; [|assumption]. unfold entry_for at 1.
        destruct (last_entry (cl_entries c) pc) as [e'|] eqn:E'; [|assumption].
        intros [= <-]. eapply last_entry_code; eauto. }
      exists p. split; [assumption|]. split; [assumption|]. intros N1 N2 N3 N4.
      apply (Hd pc); [unfold is_map_code; tauto|assumption|]. unfold data_at. rewrite EL. reflexivity.
    - unfold attrs_at in Ha. destruct (LookupProperty (o_props o) pc); [discriminate|reflexivity]. }
  split; [assumption|]. split; [|assumption].
  unfold ManufacturerCode, LookupPropertyInteger, ObjectManufacturerCode. unfold data_at in Em.
  destruct (LookupProperty (o_props o) 0x8A) as [p|]; [|discriminate]. cbn [option_map] in Em. injection Em as Em.
  unfold prop_AsInteger. rewrite Em. destruct m as [c|]; [|reflexivity].
  unfold len. rewrite IntegerToByte_length. cbn [Z.of_nat Pos.of_succ_nat Pos.succ Z.eqb Pos.eqb].
  rewrite ByteToInteger_IntegerToByte; [reflexivity|].
  assert (In (WithDeviceManufacturerCode c) opts).
  { destruct Hm as [(b & x & a & -> & H1 & _)|[_ H1]]; [|discriminate].
    apply in_or_app. right. left. destruct x as [k|k|k]; cbn [maker_opt] in H1;
      [destruct (has_own_maker k); discriminate|congruence|discriminate]. }
  rewrite Forall_forall in Hok. apply (Hok _ H0).
Qed.

(** A code of no class in the database is an error. *)
Theorem C89_device_error : forall opts code, Forall dev_option_ok opts ->
  In (WithDeviceCode code) opts -> class_of code = None -> build_device opts = Err ErrOther.
Proof.
  intros opts code Hok Hin Hn.
  assert (D : forall l : list (dev_option H), Forall known l \/
     exists b x a, l = b ++ x :: a /\ Forall known b /\ ~ known x).
  { induction l as [|x l [IH|(b & y & a & -> & H1 & H2)]]; [left; constructor| |].
    - assert (K : known x \/ ~ known x).
      { destruct x as [c|c|c]; cbn [known]; auto. destruct (class_of c); [left; discriminate|right; auto]. }
      destruct K as [K|K]; [left; auto|]. right. exists [], x, l. auto.
    - assert (K : known x \/ ~ known x).
      { destruct x as [c|c|c]; cbn [known]; auto. destruct (class_of c); [left; discriminate|right; auto]. }
      destruct K as [K|K]; right; [exists (x :: b), y, a; auto|exists [], x, (b ++ y :: a); auto]. }
  destruct (D opts) as [K|(b & x & a & -> & Hb & Hx)].
  { rewrite Forall_forall in K. exfalso. apply (K _ Hin). exact Hn. }
  apply Forall_app in Hok as [O1 O2]. inversion O2 as [|? ? Ox _]; subst.
  destruct (dev_run b O1 Hb) as (o & h & E & _). unfold build_device in *. rewrite NewSuperObject_spec in *.
  rewrite for_each_app, E. cbn [bind for_each].
  destruct x as [c|c|c]; cbn [known] in Hx; try (exfalso; apply Hx; exact I).
  cbn [apply_dev dev_option_ok] in *. destruct (class_of c) eqn:Ec; [exfalso; apply Hx; discriminate|].
  rewrite DB_lookup_none by (try lia; apply class_of_none; assumption). reflexivity.
Qed.

(** A device made from options can be added to a node. *)
Lemma device_ok opts o h : Forall dev_option_ok opts -> build_device opts = Ok (o, h) ->
  obj_ok o /\ HasProp (o_props o) 0x8A = true.
Proof.
  intros Hok E. assert (K : Forall known opts).
  { apply Forall_forall. intros [c|c|x] Hx; cbn [known]; auto. intros Hn.
    rewrite (C89_device_error opts c Hok Hx Hn) in E. discriminate. }
  destruct (dev_run opts Hok K) as (o' & h' & E' & [Hi _ _ _ (m & _ & Em) _]).
  rewrite E in E'. injection E' as <- <-. split; [split; apply Hi|].
  unfold data_at in Em. unfold HasProp. destruct (LookupProperty (o_props o) 0x8A); [reflexivity|discriminate].
Qed.

End Devices.

(** ** Nodes *)

Section Self.
Variable b : bool.
Local Notation "'ws' x" := (with_self x b) (at level 10, x at level 9).

Lemma ws_objects nd ds ps : with_objects (ws nd) ds ps = ws (with_objects nd ds ps).
Proof. reflexivity. Qed.
Lemma ws_put nd r o : put_at (ws nd) r o = ws (put_at nd r o).
Proof. destruct r; reflexivity. Qed.

Lemma ws_announce evs : forall nd code, announce_all (ws nd) code evs = ws (announce_all nd code evs).
Proof.
  induction evs as [|p evs IH]; intros nd code; [reflexivity|]. unfold announce_all. cbn [fold_left].
  match goal with |- fold_left ?f evs ?x = with_self (fold_left ?f evs ?y) b =>
    change (announce_all x code evs = with_self (announce_all y code evs) b) end.
  rewrite <- IH. f_equal. unfold prop_Announce. cbn [with_self n_running].
  destruct (negb (n_running nd)) eqn:En; [reflexivity|].
  unfold AnnounceProperty, AnnounceMessage. cbn [with_self n_running]. rewrite En. reflexivity.
Qed.

Lemma ws_on_object nd r f : fst (on_object (ws nd) r f) = ws (fst (on_object nd r f)).
Proof.
  unfold on_object. replace (obj_at (ws nd) r) with (obj_at nd r) by (destruct r; reflexivity).
  destruct (obj_at nd r) as [o|]; [|reflexivity]. destruct (f o) as [[o' evs] e]. cbn [fst].
  unfold commit. rewrite ws_put. apply ws_announce.
Qed.

Lemma ws_update nd : updateNodeProfile (ws nd) = (x <- updateNodeProfile nd ;; Ok (ws x)).
Proof.
  unfold updateNodeProfile. change (NodeProfile (ws nd)) with (NodeProfile nd).
  change (n_devices (ws nd)) with (n_devices nd). change (n_profiles (ws nd)) with (n_profiles nd).
  destruct (NodeProfile nd) as [r|]; [|reflexivity].
  destruct (collect_classes (n_devices nd) []) as [c1|?|]; cbn [bind]; try reflexivity.
  destruct (collect_classes (n_profiles nd) c1) as [c2|?|]; cbn [bind]; try reflexivity.
  rewrite !ws_on_object. reflexivity.
Qed.

Lemma ws_add nd d : Node_AddDevice (ws nd) d = (x <- Node_AddDevice nd d ;; Ok (ws x)).
Proof.
  unfold Node_AddDevice. change (n_manufacturer (ws nd)) with (n_manufacturer nd).
  destruct (SetManufacturerCode d (n_manufacturer nd)) as [[d' ev] e].
  change (n_devices (ws nd)) with (n_devices nd). change (n_profiles (ws nd)) with (n_profiles nd).
  rewrite ws_objects. apply ws_update.
Qed.

Lemma ws_loop mk k : forall n c nd, set_manufacturer_loop mk n k c (ws nd) = ws (set_manufacturer_loop mk n k c nd).
Proof.
  induction k as [|k IH]; intros n c nd; [reflexivity|]. cbn [set_manufacturer_loop].
  rewrite ws_on_object. apply IH.
Qed.

Lemma ws_setman nd c : Node_SetManufacturerCode (ws nd) c = ws (Node_SetManufacturerCode nd c).
Proof.
  unfold Node_SetManufacturerCode.
  change (with_manufacturer (ws nd) c) with (ws (with_manufacturer nd c)). cbv zeta.
  rewrite ws_loop.
  cbn [with_self n_profiles n_devices]. rewrite ws_loop. reflexivity.
Qed.

End Self.

(** A stopped node sends nothing. *)
Definition still (nd nd' : node) : Prop :=
  n_running nd' = false /\ n_sent nd' = n_sent nd /\ n_lastTID nd' = n_lastTID nd /\ n_addr nd' = n_addr nd /\
  n_self nd' = n_self nd.

Lemma still_trans a b c : still a b -> still b c -> still a c.
Proof. unfold still. intros (?&?&?&?&?) (?&?&?&?&?). repeat split; congruence. Qed.

Lemma on_object_still nd r f : n_running nd = false -> still nd (fst (on_object nd r f)).
Proof.
  intros Hr. unfold on_object. destruct (obj_at nd r); [|repeat split; assumption].
  destruct (f o) as [[o' evs] err]. cbn [fst]. unfold commit.
  assert (A : forall evs x, n_running x = false -> announce_all x (Code o') evs = x).
  { clear. induction evs as [|p evs IH]; intros x Hx; [reflexivity|].
    unfold announce_all. cbn [fold_left]. unfold prop_Announce at 2. rewrite Hx. cbn [negb fst].
    apply IH. assumption. }
  rewrite A by (destruct r; exact Hr). destruct r; repeat split; assumption.
Qed.

Lemma add_still nd d nd' : n_running nd = false -> Node_AddDevice nd d = Ok nd' -> still nd nd'.
Proof.
  intros Hr. unfold Node_AddDevice. destruct (SetManufacturerCode d (n_manufacturer nd)) as [[d' ev] e].
  set (nd0 := with_objects nd (n_devices nd ++ [d']) (n_profiles nd)).
  assert (H0 : still nd nd0) by (repeat split; assumption).
  unfold updateNodeProfile.
  destruct (NodeProfile nd0) as [r|]; [|intros [= <-]; assumption].
  destruct (collect_classes (n_devices nd0) []) as [c1|?|]; cbn [bind]; try discriminate.
  destruct (collect_classes (n_profiles nd0) c1) as [c2|?|]; cbn [bind]; try discriminate.
  intros [= <-]. clearbody nd0.
  assert (K : forall x r f, still nd0 x -> still nd0 (fst (on_object x r f))).
  { intros x r0 f Hx. eapply still_trans; [exact Hx|]. apply on_object_still. apply Hx. }
  eapply still_trans; [exact H0|]. repeat apply K. repeat split. apply H0.
Qed.

Lemma loop_still mk k : forall n c nd, n_running nd = false -> still nd (set_manufacturer_loop mk n k c nd).
Proof.
  induction k as [|k IH]; intros n c nd Hr; [repeat split; assumption|]. cbn [set_manufacturer_loop].
  pose proof (on_object_still nd (mk n) (fun o => SetManufacturerCode o c) Hr) as S1.
  eapply still_trans; [exact S1|]. apply IH. apply S1.
Qed.

Lemma setman_still nd c : n_running nd = false -> still nd (Node_SetManufacturerCode nd c).
Proof.
  intros Hr. unfold Node_SetManufacturerCode. cbv zeta.
  pose proof (loop_still DevRef (List.length (n_devices (with_manufacturer nd c))) 0 c (with_manufacturer nd c) Hr) as S1.
  set (x := set_manufacturer_loop DevRef _ _ _ _) in *. clearbody x.
  eapply still_trans; [|apply loop_still; apply S1]. exact S1.
Qed.

Section Nodes.
Variable L : Type.

Definition man_opt (o : node_option L) := match o with WithLocalNodeManufacturerCode c => Some c | _ => None end.
Definition listener_opt (o : node_option L) := match o with WithLocalNodeListener l => Some (Some l) | _ => None end.
Definition config_opt (o : node_option L) := match o with WithLocalNodeConfig c => Some (Some c) | _ => None end.
Definition given_devices (opts : list (node_option L)) : list object :=
  flat_map (fun o => match o with WithLocalNodeDevices ds => ds | _ => [] end) opts.

(** The calls on a node that the options stand for ([NodeFacts]). *)
Definition as_calls (opts : list (node_option L)) : list node_op :=
  flat_map (fun o => match o with
                     | WithLocalNodeManufacturerCode c => [NSetManufacturer c]
                     | WithLocalNodeDevices ds => map NAddDevice ds
                     | _ => []
                     end) opts.

(** A device made by NewDevice from options. *)
Definition from_options (d : object) : Prop :=
  exists (H : Type) (opts : list (dev_option H)) h, Forall (dev_option_ok H) opts /\ build_device opts = Ok (d, h).

Lemma from_options_ok d : from_options d -> obj_ok d /\ HasProp (o_props d) 0x8A = true.
Proof. intros (H & opts & h & H1 & H2). apply (device_ok H opts d h H1 H2). Qed.

(** The node of a history, with the flag for self messages set. *)
Record made_state (opts : list (node_option L)) (b : made L) (nd : node) : Prop := mkMadeState {
  ms_after : node_after (as_calls opts) = Ok nd;
  ms_node : b_node b = with_self nd (n_self (b_node b));
  ms_still : still (with_self nd true) nd;
  ms_quiet : n_sent nd = [] /\ n_lastTID nd = 0;
  ms_conf : exists cfg, chosen config_opt opts None cfg /\
    match cfg with
    | Some c => n_self (b_node b) = uf_self c /\ nc_config (b_conf b) = uf_transport c /\
                uc_tcpEnabled (cf_unicast (nc_transport (b_conf b))) = uc_tcpEnabled (cf_unicast (uf_transport c)) /\
                uc_connectionTimeout (cf_unicast (nc_transport (b_conf b))) = uc_connectionTimeout (cf_unicast (uf_transport c)) /\
                ec_autoPortBindingEnabled (cf_extension (nc_transport (b_conf b))) =
                  ec_autoPortBindingEnabled (cf_extension (uf_transport c))
    | None => n_self (b_node b) = true /\ b_conf b = NewNodeConfig
    end;
  ms_listener : chosen listener_opt opts None (b_listener b) }.

Lemma add_devices ds : forall nd s, Forall obj_ok ds -> core_inv (core_of nd) -> n_running nd = false -> n_self nd = true ->
  exists nd', for_each (map NAddDevice ds) node_step nd = Ok nd' /\
    for_each ds (fun d nd => Node_AddDevice nd d) (with_self nd s) = Ok (with_self nd' s) /\
    core_inv (core_of nd') /\ still nd nd'.
Proof.
  induction ds as [|d ds IH]; intros nd s Hd Hi Hr Hs; [exists nd; repeat split; assumption || apply Hi|].
  inversion Hd as [|? ? H1 H2]; subst. cbn [map for_each].
  destruct (node_step_core (NAddDevice d) nd Hi H1) as (nd1 & E1 & _ & Hi1). rewrite E1. cbn [bind].
  cbn [node_step] in E1. pose proof (add_still nd d nd1 Hr E1) as S1.
  destruct (IH nd1 s H2 Hi1 (proj1 S1)) as (nd2 & E2 & E3 & Hi2 & S2); [unfold still in S1; intuition congruence|].
  exists nd2. split; [assumption|]. rewrite ws_add, E1. cbn [bind]. split; [assumption|]. split; [assumption|].
  eauto using still_trans.
Qed.

Lemma made_run opts : (forall ds d, In (WithLocalNodeDevices ds) opts -> In d ds -> obj_ok d) ->
  exists b nd, build_node opts = Ok b /\ made_state opts b nd /\ core_inv (core_of nd).
Proof.
  unfold build_node. destruct newLocalNode_core as (nd0 & E0 & Ec0 & S0 & T0 & _ & F0). rewrite E0. cbn [bind].
  induction opts as [|x opts IH] using rev_ind; intros Hd.
  - exists (mkMade nd0 NewNodeConfig None), nd0. split; [reflexivity|].
    assert (R0 : n_running nd0 = false) by (change (n_running nd0) with (k_run (core_of nd0)); rewrite Ec0; reflexivity).
    split; [|rewrite Ec0; apply initial_inv].
    constructor; cbn [b_node b_conf b_listener].
    + unfold node_after. cbn [as_calls flat_map]. rewrite E0. reflexivity.
    + destruct nd0; reflexivity.
    + repeat split; assumption.
    + auto.
    + exists None. split; [apply chosen_nil|auto].
    + apply chosen_nil.
  - destruct IH as (b & nd & E & [H1 H2 H3 H4 (cfg & H5 & H5') H6] & Hi).
    { intros ds d Hin. apply Hd. apply in_or_app. auto. }
    assert (EC : as_calls (opts ++ [x]) = as_calls opts ++ as_calls [x]) by apply flat_map_app.
    assert (N2 : forall nd', for_each (as_calls [x]) node_step nd = Ok nd' -> node_after (as_calls (opts ++ [x])) = Ok nd').
    { intros nd' HE. rewrite EC. unfold node_after in *. rewrite E0 in *. cbn [bind] in *.
      rewrite for_each_app, H1. exact HE. }
    pose proof (chosen_snoc config_opt opts _ _ x H5) as G5. pose proof (chosen_snoc listener_opt opts _ _ x H6) as G6.
    rewrite for_each_app, E. cbn [bind for_each].
    destruct b as [n cf ls]. cbn [b_node b_conf b_listener] in *. set (s := n_self n) in *. rewrite H2. clear H2.
    destruct x as [c|ds|l|c]; cbn [apply_node b_node b_conf b_listener config_opt listener_opt bind] in *.
    + destruct (node_step_core (NSetManufacturer c) nd Hi I) as (nd1 & E1 & _ & Hi1).
      pose proof E1 as E1'. cbn [node_step] in E1'. injection E1' as E1'.
      eexists. exists nd1. split; [reflexivity|]. split; [|exact Hi1].
      pose proof (setman_still nd c (proj1 H3)) as S1. rewrite E1' in S1.
      constructor; cbn [b_node b_conf b_listener].
      * apply N2. cbn [as_calls flat_map app for_each]. rewrite E1. reflexivity.
      * rewrite ws_setman, E1'. reflexivity.
      * unfold still in *. cbn [with_self n_running n_sent n_lastTID n_addr n_self] in *. intuition congruence.
      * unfold still in S1. intuition congruence.
      * exists cfg. split; [assumption|]. rewrite ws_setman. exact H5'.
      * assumption.
    + destruct (add_devices ds nd s) as (nd1 & E1 & E2 & Hi1 & S1);
        [apply Forall_forall; intros d Hx; apply (Hd ds); [apply in_or_app; simpl; auto|assumption]
        |assumption|apply H3|unfold still in H3; cbn [with_self n_self] in H3; tauto|].
      rewrite E2. cbn [bind].
      eexists. exists nd1. split; [reflexivity|]. split; [|exact Hi1].
      constructor; cbn [b_node b_conf b_listener].
      * apply N2. cbn [as_calls flat_map]. rewrite app_nil_r. exact E1.
      * reflexivity.
      * unfold still in *. cbn [with_self n_running n_sent n_lastTID n_addr n_self] in *. intuition congruence.
      * unfold still in S1. intuition congruence.
      * exists cfg. split; [assumption|exact H5'].
      * assumption.
    + eexists. exists nd. split; [reflexivity|]. split; [|exact Hi].
      constructor; cbn [b_node b_conf b_listener]; try assumption.
      * apply N2. reflexivity.
      * reflexivity.
      * exists cfg. split; [assumption|exact H5'].
    + eexists. exists nd. split; [reflexivity|]. split; [|exact Hi].
      constructor; cbn [b_node b_conf b_listener]; try assumption.
      * apply N2. reflexivity.
      * reflexivity.
      * exists (Some c). split; [assumption|]. cbn. auto 6.
Qed.

Lemma last_man_chosen opts : chosen man_opt opts 0xFFFFFF (PropsNode.last_manufacturer (as_calls opts)).
Proof.
  induction opts as [|x opts IH] using rev_ind; [apply chosen_nil|].
  assert (EC : as_calls (opts ++ [x]) = as_calls opts ++ as_calls [x]) by apply flat_map_app.
  rewrite EC. unfold PropsNode.last_manufacturer in *. rewrite fold_left_app.
  set (v := fold_left _ (as_calls opts) _) in *. pose proof (chosen_snoc man_opt opts _ _ x IH) as G.
  destruct x as [c|ds|l|c]; cbn [man_opt as_calls flat_map app fold_left] in *; try exact G.
  rewrite app_nil_r. clear -G. replace (fold_left _ (map NAddDevice ds) v) with v; [exact G|].
  clear. induction ds as [|d ds IH]; [reflexivity|exact IH].
Qed.

(** The node has the devices given, in order, every object the manufacturer code
    last given, wherever it stands in the list, and the listener and configuration
    last given; it is not running and has sent nothing.  It is the node of the
    corresponding calls, so that what is said about those (C24 - C28) holds for it. *)
Theorem C89_node : forall opts,
  (forall ds d, In (WithLocalNodeDevices ds) opts -> In d ds -> from_options d) ->
  (forall c, In (WithLocalNodeManufacturerCode c) opts -> 0 <= c < 2 ^ 64) ->
  exists b man cfg nd, build_node opts = Ok b /\
    node_after (as_calls opts) = Ok nd /\ b_node b = with_self nd (n_self (b_node b)) /\
    map Codes (n_devices (b_node b)) = map Codes (given_devices opts) /\
    map Codes (n_profiles (b_node b)) = [[0x0E; 0xF0; 0x01]] /\
    chosen man_opt opts 0xFFFFFF man /\ n_manufacturer (b_node b) = man /\
    (forall o, In o (Objects (b_node b)) -> ManufacturerCode o = Ok (man mod 2 ^ 24)) /\
    n_running (b_node b) = false /\ n_sent (b_node b) = [] /\
    chosen listener_opt opts None (b_listener b) /\
    chosen config_opt opts None cfg /\
    n_self (b_node b) = (match cfg with Some c => uf_self c | None => true end) /\
    let tc := match cfg with Some c => uf_transport c | None => NewDefaultConfig end in
    eff_post_tcp (b_conf b) = uc_tcpEnabled (cf_unicast tc) /\
    eff_server_tcp (b_conf b) = uc_tcpEnabled (cf_unicast tc) /\
    eff_request_timeout (b_conf b) = uc_requestTimeout (cf_unicast tc) /\
    eff_connection_timeout (b_conf b) = uc_connectionTimeout (cf_unicast tc) /\
    eff_auto_port (b_conf b) = ec_autoPortBindingEnabled (cf_extension tc).
Proof.
  intros opts Hd Hm.
  destruct (made_run opts) as (b & nd & E & [H1 H2 H3 H4 (cfg & H5 & H5') H6] & Hi).
  { intros ds d A B. apply (from_options_ok d). eauto. }
  assert (OK : Forall node_op_ok (as_calls opts) /\ Forall keeps_manufacturer (as_calls opts)).
  { unfold as_calls. split; apply Forall_flat_map, Forall_forall; intros [c|ds|l|c] Hx; try (constructor; constructor || exact I);
      try constructor; try exact I; try constructor;
      apply Forall_map, Forall_forall; intros d Hx'; apply from_options_ok; eauto. }
  destruct OK as [OK1 OK2].
  assert (HR : 0 <= PropsNode.last_manufacturer (as_calls opts) < 2 ^ 64).
  { destruct (last_man_chosen opts) as [(bf & x & a & -> & Hx & _)|[_ ->]]; [|clear; lia].
    destruct x as [c|ds|l|c]; cbn [man_opt] in Hx; try discriminate Hx. injection Hx as Hx. rewrite <- Hx.
    apply Hm. apply in_or_app. simpl. auto. }
  destruct (PropsNode.C26_manufacturer (as_calls opts) OK1 OK2 HR) as (nd' & E' & HM).
  rewrite H1 in E'. injection E' as <-.
  destruct (node_after_spec (as_calls opts) OK1) as (nd' & E' & _ & Ec & _). rewrite H1 in E'. injection E' as <-.
  destruct (history_codes (as_calls opts) initial_core) as [A B]. cbv zeta in A, B. rewrite <- Ec in A, B.
  exists b, (PropsNode.last_manufacturer (as_calls opts)), cfg, nd.
  split; [assumption|]. split; [assumption|]. split; [assumption|].
  assert (V : forall (T : Type) (f : node -> T), (forall n s, f (with_self n s) = f n) -> f (b_node b) = f nd).
  { intros T f Hf. rewrite H2. apply Hf. }
  split.
  { rewrite (V _ n_devices) by reflexivity. change (map Codes (n_devices nd)) with (map o_codes (k_devs (core_of nd))).
    rewrite A. cbn [initial_core k_devs map app]. clear. unfold as_calls, given_devices.
    induction opts as [|x opts IH]; [reflexivity|]. cbn [flat_map]. rewrite flat_map_app, map_app, IH. f_equal.
    destruct x as [c|ds|l|c]; try reflexivity. induction ds as [|d ds IHd]; [reflexivity|].
    cbn [map flat_map op_devices app]. rewrite IHd. reflexivity. }
  split.
  { rewrite (V _ n_profiles) by reflexivity. change (map Codes (n_profiles nd)) with (map o_codes (k_profs (core_of nd))).
    rewrite B. replace (flat_map op_profiles (as_calls opts)) with (@nil (list Z)); [reflexivity|]. clear.
    unfold as_calls. induction opts as [|x opts IH]; [reflexivity|]. cbn [flat_map]. rewrite flat_map_app, <- IH.
    rewrite app_nil_r. destruct x as [c|ds|l|c]; try reflexivity. induction ds as [|d ds IHd]; [reflexivity|exact IHd]. }
  split; [apply last_man_chosen|]. split.
  { rewrite (V _ n_manufacturer) by reflexivity. change (n_manufacturer nd) with (k_man (core_of nd)). rewrite Ec.
    unfold PropsNode.last_manufacturer. change 16777215 with (k_man initial_core). generalize initial_core. clear.
    induction (as_calls opts) as [|op ops IH]; intros k; [reflexivity|]. cbn [fold_left]. rewrite IH. f_equal.
    destruct op; try reflexivity; [destruct r; reflexivity|destruct r; reflexivity|destruct server; reflexivity]. }
  split; [rewrite (V _ Objects) by reflexivity; exact HM|].
  split; [rewrite (V _ n_running) by reflexivity; apply H3|].
  split; [rewrite (V _ n_sent) by reflexivity; apply H4|].
  split; [assumption|]. split; [assumption|]. cbv zeta.
  unfold eff_post_tcp, eff_server_tcp, eff_request_timeout, eff_connection_timeout, eff_auto_port, server_config, UC_SetConfig.
  cbn [uc_tcpEnabled uc_connectionTimeout].
  destruct cfg as [c|]; [|destruct H5' as [-> ->]; auto 6].
  destruct H5' as (-> & -> & -> & -> & ->). auto 6.
Qed.

End Nodes.

(** A controller is a local node that reports to it, with the configuration last
    given: [C89_node] is about it as well. *)
Theorem C89_controller : forall (L : Type) (me : L) cfgs,
  build_controller me cfgs = build_node (WithLocalNodeListener me :: map WithLocalNodeConfig cfgs).
Proof.
  intros L me cfgs. unfold build_controller, build_node. destruct newLocalNode as [nd|e|]; [|reflexivity|reflexivity].
  cbn [bind for_each apply_node b_node b_conf b_listener].
  generalize (mkMade nd NewNodeConfig (Some me)). induction cfgs as [|c cfgs IH]; intros x; [reflexivity|].
  cbn [fold_left map for_each apply_node bind]. apply IH.
Qed.

(** The manufacturer code of a device does not survive in a node: the node writes
    its own over it, the experimental one when it has none. *)
Definition C89_own_claim : Prop := forall (opts : list (dev_option unit)) d h c,
  Forall (dev_option_ok unit) opts -> build_device opts = Ok (d, h) -> ManufacturerCode d = Ok c ->
  forall b, build_node (L := unit) [WithLocalNodeDevices [d]] = Ok b ->
  forall d', In d' (n_devices (b_node b)) -> ManufacturerCode d' = Ok c.

Theorem C89_own_manufacturer_refuted : ~ C89_own_claim.
Proof.
  intros HC. set (opts := [WithDeviceCode (H := unit) 0x029001; WithDeviceManufacturerCode 0x77]).
  assert (Ok0 : Forall (dev_option_ok unit) opts) by (repeat constructor; cbn; lia).
  destruct (C89_device unit opts Ok0) as (d & h & code & mk & E & _ & _ & _ & Hm & EM & _).
  { intros code [[= <-]|[HI|[]]]; [vm_compute; discriminate|discriminate HI]. }
  assert (Emk : mk = Some 0x77).
  { apply (chosen_unique _ _ _ _ _ Hm). left. exists [WithDeviceCode 0x029001], (WithDeviceManufacturerCode 0x77), [].
    split; [reflexivity|]. split; [reflexivity|constructor]. }
  subst mk.
  destruct (C89_node unit [WithLocalNodeDevices [d]]) as (b & man & cfg & nd & EB & _ & _ & Ed & _ & Hman & _ & HO & _).
  { intros ds x [[= <-]|[]] [<-|[]]. exists unit, opts, h. auto. }
  { intros c [HI|[]]. discriminate HI. }
  destruct (n_devices (b_node b)) as [|d' rest] eqn:EN; [discriminate Ed|].
  assert (HI : In d' (Objects (b_node b))) by (unfold Objects; rewrite EN; left; reflexivity).
  specialize (HC opts d h _ Ok0 E EM b EB d'). rewrite EN in HC. specialize (HC (or_introl eq_refl)).
  rewrite (HO d' HI) in HC. destruct Hman as [(bf & x & a & Ex & Hx & _)|[_ ->]]; [|vm_compute in HC; discriminate HC].
  destruct bf as [|y bf]; cbn [app] in Ex; injection Ex as Ex1 Ex2; [subst x; discriminate Hx|].
  destruct bf; discriminate Ex2.
Qed.

(** A light with two handlers and its manufacturer code given first; the same code
    given before the class of the node profile is lost. *)
Example C89_device_example :
  match build_device [WithDeviceManufacturerCode 0x77; WithDeviceRequestHandler 1; WithDeviceCode 0x029001; WithDeviceRequestHandler 2],
        build_device (H := Z) [WithDeviceManufacturerCode 0x77; WithDeviceCode 0x0EF001],
        build_device (H := Z) [WithDeviceCode 0x029001; WithDeviceCode 0x01FF01] with
  | Ok (o, h), Ok (o', _), Err ErrOther =>
      Codes o = [2; 0x90; 1] /\ ManufacturerCode o = Ok 0x77 /\ h = Some 2 /\ HasProp (o_props o) 0xB0 = true /\
      ManufacturerCode o' = Err ErrNoData
  | _, _, _ => False
  end.
Proof. vm_compute. auto 6. Qed.

Example C89_node_example :
  match build_device (H := unit) [WithDeviceCode 0x029001; WithDeviceManufacturerCode 0x11],
        build_device (H := unit) [WithDeviceCode 0x013001] with
  | Ok (d1, _), Ok (d2, _) =>
      match build_node [WithLocalNodeDevices [d1]; WithLocalNodeConfig (build_config [true]); WithLocalNodeListener tt;
                        WithLocalNodeManufacturerCode 0x77; WithLocalNodeDevices [d2; d1]] with
      | Ok b => map Codes (n_devices (b_node b)) = [[2; 0x90; 1]; [1; 0x30; 1]; [2; 0x90; 1]] /\
                map ManufacturerCode (Objects (b_node b)) = [Ok 0x77; Ok 0x77; Ok 0x77; Ok 0x77] /\
                eff_post_tcp (b_conf b) = true /\ eff_server_tcp (b_conf b) = true /\ b_listener b = Some tt
      | _ => False
      end
  | _, _ => False
  end.
Proof. vm_compute. auto 6. Qed.

Example C89_others_example :
  build_property [WithPropertyData [1]; WithPropertyCode 0x80; WithPropertyReadAttribute Required; WithPropertyCode 0xE0; WithPropertyName "x"]
    = ("x"%string, mkProperty 0xE0 Required Prohibited Prohibited [1]) /\
  Bytes (build_message [WithMessageProperties [newProperty 0x80 Required Prohibited Prohibited]; WithMessageESV 0x61;
                        WithMessageDEOJ 0x029001; WithMessageESV 0x62;
                        WithMessageProperties [newProperty 0xB0 Required Prohibited Prohibited]])
    = Ok [0x10; 0x81; 0; 0; 0; 0; 0; 2; 0x90; 1; 0x62; 2; 0x80; 0; 0xB0; 0] /\
  build_class [WithClassBytes [1; 2; 3]; WithClassGroupCode 7] = Ok [7; 2] /\
  build_class [WithClassCode 1; WithClassBytes [9]] = Panic.
Proof. vm_compute. auto. Qed.

Print Assumptions C89_property.
Print Assumptions C89_message.
Print Assumptions C89_class.
Print Assumptions C89_config.
Print Assumptions C89_device.
Print Assumptions C89_device_error.
Print Assumptions C89_node.
Print Assumptions C89_controller.
Print Assumptions C89_own_manufacturer_refuted.

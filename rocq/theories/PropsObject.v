(** Theorems about properties, objects and devices: C14 - C23, C50. *)

From Verif Require Import Go GoFacts Encoding EncodingFacts Protocol StdDB Property
  PropertyFacts Object ObjectFacts Spec.
From Coq Require Import ZifyBool ZifyNat Permutation Sorted.
Local Open Scope Z_scope.

(** ** C14: service availability *)

(** What a service needs of a property: (read access, write access,
    announcement access); services that are not listed are refused. *)
Definition service_needs : list (Z * (bool * bool * bool)) :=
  [ (0x60, (false, true, false));   (* SetI *)
    (0x61, (false, true, false));   (* SetC *)
    (0x62, (true, false, false));   (* Get *)
    (0x63, (false, false, true));   (* INF_REQ *)
    (0x6E, (true, true, false));    (* SetGet *)
    (0x74, (false, false, true)) ]. (* INFC *)

Definition grants (needed : bool) (a : attr) : Prop := needed = true -> a <> Prohibited.

Theorem C14_service_availability : forall p esv,
  IsAvailableService p esv = true <->
  exists r w a, In (esv, (r, w, a)) service_needs /\
    grants r (p_get p) /\ grants w (p_set p) /\ grants a (p_anno p).
Proof.
  intros p esv.
  assert (HR : IsReadable p = true <-> p_get p <> Prohibited)
    by (unfold IsReadable; destruct (p_get p); simpl; split; congruence).
  assert (HW : IsWritable p = true <-> p_set p <> Prohibited)
    by (unfold IsWritable; destruct (p_set p); simpl; split; congruence).
  assert (HA : IsAnnounceable p = true <-> p_anno p <> Prohibited)
    by (unfold IsAnnounceable; destruct (p_anno p); simpl; split; congruence).
  unfold grants. split.
  - unfold IsAvailableService, ESVWriteRequest, ESVWriteRequestResponseRequired, ESVReadRequest,
      ESVNotificationRequest, ESVWriteReadRequest, ESVNotificationResponseRequired.
    repeat match goal with |- context [esv =? ?k] => destruct (Z.eqb_spec esv k) end;
      subst; intro H; try discriminate H.
    + exists false, true, false. destruct (IsWritable p); [|discriminate].
      split; [simpl; auto 10|]. intuition congruence.
    + exists false, true, false. destruct (IsWritable p); [|discriminate].
      split; [simpl; auto 10|]. intuition congruence.
    + exists true, false, false. destruct (IsReadable p); [|discriminate].
      split; [simpl; auto 10|]. intuition congruence.
    + exists false, false, true. destruct (IsAnnounceable p); [|discriminate].
      split; [simpl; auto 10|]. intuition congruence.
    + exists true, true, false. destruct (IsWritable p), (IsReadable p); try discriminate.
      split; [simpl; auto 10|]. intuition congruence.
    + exists false, false, true. destruct (IsAnnounceable p); [|discriminate].
      split; [simpl; auto 10|]. intuition congruence.
  - intros (r & w & a & Hin & Hr & Hw & Ha). unfold service_needs in Hin.
    repeat (destruct Hin as [Hin|Hin]; [inv Hin; unfold IsAvailableService; simpl;
      try (rewrite (proj2 HR (Hr eq_refl))); try (rewrite (proj2 HW (Hw eq_refl)));
      try (rewrite (proj2 HA (Ha eq_refl))); reflexivity|]).
    destruct Hin.
Qed.

Example C14_example :
  IsAvailableService (newProperty 0x80 Required Optional Prohibited) 0x6E = true /\
  IsAvailableService (newProperty 0x80 Required Optional Prohibited) 0x63 = false /\
  IsAvailableService (newProperty 0x80 Required Required Required) 0x72 = false.
Proof. repeat split. Qed.

(** ** C15: value round trip and isolation *)

(** Everything else of the object is as before. *)
Definition only_changes (code : Z) (o o' : object) : Prop :=
  Codes o' = Codes o /\
  map p_code (o_props o') = map p_code (o_props o) /\
  (forall c, c <> code -> LookupProperty (o_props o') c = LookupProperty (o_props o) c) /\
  (forall p, LookupProperty (o_props o) code = Some p ->
     exists p', LookupProperty (o_props o') code = Some p' /\
       p_code p' = p_code p /\ p_get p' = p_get p /\ p_set p' = p_set p /\ p_anno p' = p_anno p).

Lemma set_only_changes o code d p : LookupProperty (o_props o) code = Some p ->
  exists ev, SetPropertyData o code d = (with_props o (set_data (o_props o) code d), ev, None) /\
    only_changes code o (with_props o (set_data (o_props o) code d)) /\
    LookupProperty (set_data (o_props o) code d) code = Some (with_data p d).
Proof.
  intros H. unfold SetPropertyData, SetPropertyDataMap, lift_props. rewrite H. eexists.
  split; [reflexivity|]. split.
  - split; [reflexivity|]. cbn [o_props with_props]. split; [apply set_data_codes|]. split.
    + intros c Hc. rewrite Lookup_set. destruct (code =? c) eqn:E; [lia|reflexivity].
    + intros q Hq. rewrite Lookup_set, Z.eqb_refl. rewrite Hq. simpl. eauto 10.
  - rewrite Lookup_set, Z.eqb_refl, H. reflexivity.
Qed.

Theorem C15_set_get : forall o code p, LookupProperty (o_props o) code = Some p ->
  (forall d, exists o' ev, SetPropertyData o code d = (o', ev, None) /\
     LookupPropertyData (o_props o') code = Ok d /\
     LookupPropertyDataSize (o_props o') code = Ok (len d) /\
     only_changes code o o') /\
  (forall b, exists o' ev, SetPropertyByte o code b = (o', ev, None) /\
     LookupPropertyByte (o_props o') code = Ok b /\ only_changes code o o') /\
  (forall v size, 0 <= v < 2 ^ 64 -> (0 < size)%nat ->
     exists o' ev, SetPropertyInteger o code v size = (o', ev, None) /\
       LookupPropertyInteger (o_props o') code = Ok (v mod 256 ^ Z.of_nat size) /\
       only_changes code o o').
Proof.
  intros o code p HL. split; [|split].
  - intros d. destruct (set_only_changes o code d p HL) as (ev & H1 & H2 & H3).
    eexists _, ev. split; [exact H1|]. unfold LookupPropertyData, LookupPropertyDataSize.
    cbn [with_props o_props]. rewrite H3. auto.
  - intros b. destruct (set_only_changes o code [b] p HL) as (ev & H1 & H2 & H3).
    eexists _, ev. split; [exact H1|]. unfold LookupPropertyByte.
    cbn [with_props o_props]. rewrite H3. auto.
  - intros v size Hv Hs.
    destruct (set_only_changes o code (IntegerToByte v size) p HL) as (ev & H1 & H2 & H3).
    eexists _, ev. split; [exact H1|]. unfold LookupPropertyInteger.
    cbn [with_props o_props]. rewrite H3. split; [|assumption].
    unfold prop_AsInteger. cbn [with_data p_data]. unfold len. rewrite IntegerToByte_length.
    destruct (Z.of_nat size =? 0) eqn:E; [lia|].
    rewrite ByteToInteger_IntegerToByte by assumption. reflexivity.
Qed.

Theorem C15_absent : forall o code, LookupProperty (o_props o) code = None ->
  (forall d, SetPropertyData o code d = (o, [], Some ErrNotFound)) /\
  (forall b, SetPropertyByte o code b = (o, [], Some ErrNotFound)) /\
  (forall v size, SetPropertyInteger o code v size = (o, [], Some ErrNotFound)).
Proof.
  intros o code H.
  repeat split; intros; unfold SetPropertyData, SetPropertyByte, SetPropertyInteger,
    SetPropertyByteMap, SetPropertyIntegerMap, SetPropertyDataMap, lift_props;
    rewrite H; destruct o; reflexivity.
Qed.

(** Readers that report an error: empty data, and a byte getter on longer data. *)
Theorem C15_getter_errors : forall p,
  (p_data p = [] -> prop_AsByte p = Err ErrNoData /\ prop_AsInteger p = Err ErrNoData /\
                    prop_AsString p = Err ErrNoData) /\
  (1 < len (p_data p) -> prop_AsByte p = Err ErrInvalid) /\
  (0 < len (p_data p) -> prop_AsString p = Ok (p_data p)).
Proof.
  intros p. unfold prop_AsByte, prop_AsInteger, prop_AsString. repeat split.
  - rewrite H. reflexivity.
  - rewrite H. reflexivity.
  - rewrite H. reflexivity.
  - destruct (p_data p) as [|a [|b l]]; unfold len; simpl; intros; try lia; reflexivity.
  - intros H. destruct (len (p_data p) =? 0) eqn:E; [lia|reflexivity].
Qed.

Example C15_example :
  let o := mkObject [1; 48; 1] [newProperty 0x80 Required Required Required;
                                newProperty 0xB0 Required Required Required] in
  match SetPropertyInteger o 0xB0 0x12345 2 with
  | (o', ev, e) => e = None /\ LookupPropertyInteger (o_props o') 0xB0 = Ok 0x2345 /\
                   LookupPropertyInteger (o_props o') 0x80 = Err ErrNoData
  end.
Proof. vm_compute. repeat split. Qed.

(** ** C16: property maps decode to the encoded set *)

Definition decodes_to (d : list Z) (l : list Z) : Prop :=
  forall c, is_map_code c -> forall g s a, PropertyMapData (mkProperty c g s a d) = Ok l.

(** The full claim. *)
Definition C16_claim : Prop := forall codes,
  NoDup codes -> Forall (fun c => 0x80 <= c <= 0xFF) codes ->
  exists d l, propertyMapBytes codes = Ok d /\ decodes_to d l /\
              forall c, In c l <-> In c codes.

(** What holds: the encoder never fails; the list format is exact; the bitmap
    format keeps exactly the codes below 0xC0. *)
Theorem C16_property_map_partial : forall codes,
  NoDup codes -> Forall (fun c => 0x80 <= c <= 0xFF) codes ->
  exists d l, propertyMapBytes codes = Ok d /\ decodes_to d l /\ NoDup l /\
    hd 0 d = len codes /\ is_bytes d /\
    (len codes <= 15 -> l = codes /\ len d = len codes + 1) /\
    (15 < len codes -> len d = 17 /\ forall c, In c l <-> In c codes /\ c < 0xC0).
Proof.
  intros codes Hn Hr.
  assert (Hb : Forall is_byte codes)
    by (eapply Forall_impl; [|exact Hr]; unfold is_byte; simpl; intros; lia).
  exists (map_bytes codes).
  assert (Hlen : len codes <= 128).
  { assert (incl codes (map Z.of_nat (seq 128 128))) as Hi.
    { intros c Hc. rewrite Forall_forall in Hr. specialize (Hr c Hc). apply in_map_iff.
      exists (Z.to_nat c). split; [lia|apply in_seq; lia]. }
    pose proof (NoDup_incl_length Hn Hi) as HL. rewrite map_length, seq_length in HL.
    unfold len. lia. }
  destruct (Z_le_gt_dec (len codes) 15) as [Hs|Hs].
  - exists codes. split; [apply propertyMapBytes_ok; assumption|].
    split; [intros c Hc g s a; apply (map_round_trip_1 (mkProperty c g s a (map_bytes codes)) codes); auto|].
    split; [assumption|].
    assert (Em : map_bytes codes = len codes :: map u8 codes)
      by (unfold map_bytes; rewrite propertyMapBytes_1 by assumption; reflexivity).
    split; [rewrite Em; reflexivity|]. split; [apply map_bytes_bytes; assumption|].
    split; [|lia]. intros _. split; [reflexivity|].
    rewrite Em, len_cons. unfold len. rewrite map_length. lia.
  - destruct (map_round_trip_2 (mkProperty 0x9F Required Required Required (map_bytes codes)) codes)
      as (l & H1 & H2 & H3); auto; [right; right; reflexivity|lia|].
    exists l. split; [apply propertyMapBytes_ok; assumption|].
    split.
    { intros c Hc g s a. rewrite <- H1. unfold PropertyMapData. cbn [p_code p_data].
      destruct Hc as [->|[->| ->]]; reflexivity. }
    split; [assumption|].
    destruct (propertyMapBytes_2 codes) as (cells & E1 & E2 & E3 & _); [lia|assumption|].
    assert (Em : map_bytes codes = u8 (len codes) :: cells) by (unfold map_bytes; rewrite E1; reflexivity).
    split; [rewrite Em; simpl; unfold u8; apply Z.mod_small; lia|].
    split; [apply map_bytes_bytes; assumption|]. split; [lia|].
    intros _. split; [rewrite Em, len_cons; unfold len; lia|].
    intros c. rewrite H3. split; [intros [? ?]; split; [assumption|lia]|].
    intros [Hc ?]. split; [assumption|]. rewrite Forall_forall in Hr. specialize (Hr c Hc). lia.
Qed.

(** The claim is false: sixteen codes 0xC0..0xCF decode to nothing. *)
Theorem C16_property_map_refuted : ~ C16_claim.
Proof.
  intros H. destruct (H (map Z.of_nat (seq 192 16))) as (d & l & H1 & H2 & H3).
  - apply distinct_NoDup. vm_compute. reflexivity.
  - apply Forall_forall. intros c Hc. apply in_map_iff in Hc as (n & <- & Hn).
    apply in_seq in Hn. lia.
  - assert (E : propertyMapBytes (map Z.of_nat (seq 192 16)) = Ok (16 :: repeat 0 16))
      by (vm_compute; reflexivity).
    assert (d = 16 :: repeat 0 16) by congruence. subst d.
    specialize (H2 0x9F ltac:(right; right; reflexivity) Required Required Required).
    assert (E2 : PropertyMapData (mkProperty 0x9F Required Required Required (16 :: repeat 0 16)) = Ok [])
      by (vm_compute; reflexivity).
    assert (l = []) by congruence. subst l.
    apply (H3 192). vm_compute. left. reflexivity.
Qed.

Example C16_example :
  propertyMapBytes [0x80; 0x9F; 0xE0] = Ok [3; 0x80; 0x9F; 0xE0] /\
  propertyMapBytes (map Z.of_nat (seq 128 17)) = Ok (17 :: 3 :: repeat 1 15) /\
  PropertyMapData (mkProperty 0x9E Required Required Required (17 :: 3 :: repeat 1 15))
    = Ok (128 :: 144 :: map Z.of_nat (seq 129 15)).
Proof. vm_compute. repeat split. Qed.

(** The decoder never panics, whatever bytes a property map carries. *)
Theorem C16_decoder_total : forall p, is_bytes (p_data p) -> PropertyMapData p <> Panic.
Proof.
  intros p Hb. unfold PropertyMapData.
  destruct (_ || _) eqn:Em; [|discriminate].
  destruct (p_data p) as [|h t] eqn:Ed; [discriminate|].
  destruct (len (h :: t) =? 0); [discriminate|].
  change (idx (h :: t) 0) with (Ok h). cbn [bind].
  destruct (isPropertyMapDescriptionFormat1 h).
  - destruct (negb (len (h :: t) =? h + 1)) eqn:E; [discriminate|].
    rewrite len_cons in E. pose proof (len_nonneg t).
    replace (Z.to_nat h) with (length t) by (unfold len in *; lia).
    pose proof (decode1_loop t [] h []) as E1. cbn [length Z.of_nat app] in E1.
    rewrite E1. discriminate.
  - destruct (negb (len (h :: t) =? Z.of_nat PropertyMapFormat2MapSize + 1)) eqn:E; [discriminate|].
    rewrite len_cons in E. unfold PropertyMapFormat2MapSize in *.
    replace 16%nat with (length t) by (unfold len in *; lia).
    pose proof (decode2_loop t [] h []) as E1. cbn [length Z.of_nat app] in E1.
    rewrite E1. discriminate.
Qed.

(** ** C17: the property maps describe the object *)

(** A history of calls on a device or profile. *)
Inductive obj_call :=
| CallSetCode (code : Z)
| CallSetCodes (codes : list Z)
| CallAddProperty (p : property)
| CallSetPropertyData (code : Z) (data : list Z).

Definition call_ok (c : obj_call) : Prop :=
  match c with
  | CallSetCode code => 0 <= code < 2 ^ 64
  | CallSetCodes codes => is_bytes codes
  | CallAddProperty p => is_byte (p_code p) /\ is_bytes (p_data p)
  | CallSetPropertyData code data => ~ is_map_code code /\ is_bytes data
  end.

Definition call (o : object) (c : obj_call) : option object :=
  match c with
  | CallSetCode code => option_map fst (Super_SetCode o code)
  | CallSetCodes codes => option_map fst (Super_SetCodes o codes)
  | CallAddProperty p => option_map fst (Super_AddProperty o p)
  | CallSetPropertyData code data => Some (fst (fst (SetPropertyData o code data)))
  end.

Fixpoint calls (o : object) (l : list obj_call) : option object :=
  match l with
  | [] => Some o
  | c :: t => match call o c with None => None | Some o' => calls o' t end
  end.

Definition three_maps (m : props) : Prop :=
  attrs_at m 0x9D <> None /\ attrs_at m 0x9E <> None /\ attrs_at m 0x9F <> None.

Definition obj_inv (o : object) : Prop :=
  code3 o /\ wf (o_props o) /\ maps_ok (o_props o) /\ three_maps (o_props o).

Lemma three_maps_mono m k :
  (forall c, attrs_at m c <> None -> attrs_at k c <> None) -> three_maps m -> three_maps k.
Proof. unfold three_maps. intros H (A & B & C). auto. Qed.

Lemma with_std_mono m std c : wf std -> attrs_at m c <> None -> attrs_at (with_std m std) c <> None.
Proof.
  intros [Hs _] H. rewrite with_std_attrs by assumption.
  destruct (attrs_at std c); simpl; [discriminate|assumption].
Qed.

Lemma new_super_maps3 : three_maps new_super.
Proof.
  unfold three_maps. rewrite !new_super_attrs.
  repeat split; vm_compute; discriminate.
Qed.

Lemma addStd_inv o code : 0 <= code -> obj_inv o ->
  exists o' ev, addStandardPropertiesWithCode o code = Some (o', ev) /\ obj_inv o' /\
    o_codes o' = o_codes o.
Proof.
  intros Hc (H1 & H2 & H3 & H4).
  destruct (DB_LookupObject code) as [std|] eqn:E.
  - destruct (addStd_spec o code std H2 E (DB_wf code std Hc E)) as [ev ->].
    eexists _, ev. split; [reflexivity|].
    pose proof (DB_wf code std Hc E) as Hs.
    split; [|reflexivity].
    split; [exact H1|]. split; [apply with_std_wf; assumption|].
    split; [apply with_std_maps; assumption|].
    eapply three_maps_mono; [|exact H4]. intros c. apply with_std_mono. assumption.
  - rewrite addStd_none by assumption. exists o, []. repeat split; try assumption; apply H1 || apply H2 || apply H4.
Qed.

Lemma copy_into_code3 o codes : code3 o -> is_bytes codes -> code3 (Obj_SetCodes o codes).
Proof.
  intros [Hl Hb] Hc. unfold code3, Obj_SetCodes, copy_into. cbn [with_codes o_codes]. split.
  - rewrite app_length, firstn_length, skipn_length. lia.
  - apply Forall_app. split.
    + apply Forall_forall. intros x Hx. unfold is_bytes in Hc. rewrite Forall_forall in Hc.
      apply Hc. rewrite <- (firstn_skipn (length (o_codes o)) codes). apply in_or_app. auto.
    + apply Forall_forall. intros x Hx. unfold is_bytes in Hb. rewrite Forall_forall in Hb.
      apply Hb. rewrite <- (firstn_skipn (length codes) (o_codes o)). apply in_or_app. auto.
Qed.

Lemma setcode_code3 o code : code3 o -> code3 (Obj_SetCode o code).
Proof.
  intros [Hl Hb]. unfold code3, Obj_SetCode. cbn [with_codes o_codes]. rewrite Hl.
  split; [apply IntegerToByte_length|apply IntegerToByte_bytes].
Qed.

Lemma Code_nonneg o : code3 o -> 0 <= Code o.
Proof.
  intros [_ Hb]. unfold Code. rewrite ByteToInteger_spec by assumption.
  apply Z.mod_pos_bound. lia.
Qed.

Lemma call_inv o c : obj_inv o -> call_ok c -> exists o', call o c = Some o' /\ obj_inv o'.
Proof.
  intros Ho Hc. pose proof Ho as (H1 & H2 & H3 & H4). destruct c; cbn [call call_ok] in *.
  - unfold Super_SetCode. cbv zeta.
    destruct (addStd_inv (Obj_SetCode o code) (Code (Obj_SetCode o code))) as (o' & ev & E & Hi & _).
    + apply Code_nonneg, setcode_code3, H1.
    + split; [apply setcode_code3, H1|]. auto.
    + rewrite E. exists o'. auto.
  - unfold Super_SetCodes. cbv zeta.
    destruct (addStd_inv (Obj_SetCodes o codes) (Code (Obj_SetCodes o codes))) as (o' & ev & E & Hi & _).
    + apply Code_nonneg, copy_into_code3; assumption.
    + split; [apply copy_into_code3; assumption|]. auto.
    + rewrite E. exists o'. auto.
  - rewrite Super_AddProperty_spec by assumption. eexists. split; [reflexivity|].
    split; [exact H1|]. split; [apply wf_add; assumption|]. split; [apply maps_ok_upd|].
    eapply three_maps_mono; [|exact H4]. intros c Hx. cbn [fst o_props with_props].
    rewrite attrs_add. destruct (p_code p =? c); [discriminate|assumption].
  - eexists. split; [reflexivity|]. destruct Hc as [Hc1 Hc2].
    unfold SetPropertyData, SetPropertyDataMap, lift_props.
    destruct (LookupProperty (o_props o) code) as [q|] eqn:E; cbn [fst].
    + split; [exact H1|]. cbn [with_props o_props].
      split; [apply wf_set; assumption|]. split; [apply maps_ok_set; assumption|].
      eapply three_maps_mono; [|exact H4]. intros c Hx. rewrite attrs_set. assumption.
    + destruct o. exact Ho.
Qed.

Lemma calls_inv l : forall o, obj_inv o -> Forall call_ok l ->
  exists o', calls o l = Some o' /\ obj_inv o'.
Proof.
  induction l as [|c l IH]; intros o Ho Hl; [exists o; auto|].
  inversion Hl as [|? ? Hc Hl']; subst.
  destruct (call_inv o c Ho Hc) as (o1 & E & Ho1). simpl. rewrite E. auto.
Qed.

Lemma new_super_inv : obj_inv (mkObject [0; 0; 0] new_super).
Proof.
  split; [apply code3_zero|]. split; [apply new_super_wf|].
  split; [apply new_super_maps|apply new_super_maps3].
Qed.

(** The access that each of the three maps stands for, on the attributes. *)
Definition map_access : list (Z * (property -> attr)) :=
  [(0x9F, p_get); (0x9E, p_set); (0x9D, p_anno)].

(** The properties of the object to which [acc] gives access. *)
Definition accessible (o : object) (acc : property -> attr) (c : Z) : Prop :=
  exists p, LookupProperty (o_props o) c = Some p /\ acc p <> Prohibited.

(** The map property [mc] of the object lists exactly the accessible codes. *)
Definition map_describes (o : object) (mc : Z) (acc : property -> attr) : Prop :=
  exists p l, LookupProperty (o_props o) mc = Some p /\ PropertyMapData p = Ok l /\
    forall c, In c l <-> accessible o acc c.

(** The full claim. *)
Definition C17_claim : Prop := forall history o0 o,
  NewSuperObject = Some o0 -> Forall call_ok history ->
  Forall (fun c => match c with CallAddProperty p => 0x80 <= p_code p | _ => True end) history ->
  calls o0 history = Some o ->
  forall mc acc, In (mc, acc) map_access -> map_describes o mc acc.

Lemma access_filter (mc : Z) acc : In (mc, acc) map_access ->
  exists f, In (mc, f) [(0x9F, IsReadable); (0x9E, IsWritable); (0x9D, IsAnnounceable)] /\
    forall p, f p = true <-> acc p <> Prohibited.
Proof.
  intros [H|[H|[H|[]]]]; inv H.
  - exists IsReadable. split; [simpl; auto|]. intros p. unfold IsReadable.
    destruct (p_get p); simpl; split; congruence.
  - exists IsWritable. split; [simpl; auto|]. intros p. unfold IsWritable.
    destruct (p_set p); simpl; split; congruence.
  - exists IsAnnounceable. split; [simpl; auto|]. intros p. unfold IsAnnounceable.
    destruct (p_anno p); simpl; split; congruence.
Qed.

(** What holds: no history panics, and every map is up to date.  With up to 15
    accessible properties it lists exactly them, in ascending order; with more
    its count is right and it lists exactly those in 0x80..0xBF. *)
Theorem C17_maps_describe_object_partial : forall history o0,
  NewSuperObject = Some o0 -> Forall call_ok history ->
  exists o, calls o0 history = Some o /\
  forall mc acc, In (mc, acc) map_access ->
  exists codes p,
    StronglySorted Z.lt codes /\ (forall c, In c codes <-> accessible o acc c) /\
    LookupProperty (o_props o) mc = Some p /\
    (len codes <= 15 -> PropertyMapData p = Ok codes) /\
    (15 < len codes < 256 ->
       hd 0 (p_data p) = len codes /\
       exists l, PropertyMapData p = Ok l /\ NoDup l /\
         forall c, In c l <-> accessible o acc c /\ 0x80 <= c < 0xC0).
Proof.
  intros history o0 H0 Hh. rewrite NewSuperObject_spec in H0. injection H0 as <-.
  destruct (calls_inv history _ new_super_inv Hh) as (o & E & (_ & Hw & Hm & H3)).
  exists o. split; [assumption|]. intros mc acc Hin.
  destruct (access_filter mc acc Hin) as (f & Hf & Hacc).
  pose proof (proj1 Hw) as Hok.
  exists (codes_of f (o_props o)).
  assert (exists p, LookupProperty (o_props o) mc = Some p) as [p Hp].
  { assert (Ha : attrs_at (o_props o) mc <> None).
    { destruct H3 as (A & B & C). destruct Hin as [Hi|[Hi|[Hi|[]]]]; inv Hi; assumption. }
    unfold attrs_at in Ha. destruct (LookupProperty (o_props o) mc) as [q|]; [eauto|].
    exfalso. apply Ha. reflexivity. }
  exists p.
  assert (HIn : forall c, In c (codes_of f (o_props o)) <-> accessible o acc c).
  { intros c. rewrite codes_of_In by assumption. unfold accessible. split;
      intros (q & Hq & Hx); exists q; (split; [assumption|]); apply Hacc; assumption. }
  split.
  { pose proof (codes_of_sorted f (o_props o)) as HS.
    pose proof (codes_of_NoDup f (o_props o) Hok) as HN.
    clear -HS HN. induction HS as [|x l Hs IH Ha]; [constructor|]. inversion HN as [|? ? Hx Hl]; subst.
    constructor; [auto|]. rewrite Forall_forall in *. intros y Hy. specialize (Ha y Hy).
    assert (x <> y) by congruence. lia. }
  split; [assumption|]. split; [assumption|].
  pose proof (Hm mc f p Hf Hp) as Hd.
  assert (Hmc : is_map_code (p_code p)).
  { rewrite (Lookup_code _ _ _ Hp). unfold is_map_code.
    destruct Hin as [Hi|[Hi|[Hi|[]]]]; inv Hi; auto. }
  assert (Hb : Forall is_byte (codes_of f (o_props o))) by (apply Forall_map_p; assumption).
  split.
  - intros Hl. apply map_round_trip_1; assumption.
  - intros Hl. split.
    + rewrite Hd. unfold map_bytes.
      destruct (propertyMapBytes_2 (codes_of f (o_props o))) as (cells & -> & _); [lia|assumption|].
      simpl. unfold u8. apply Z.mod_small. lia.
    + destruct (map_round_trip_2 p _ Hmc Hb Hl Hd) as (l & E1 & E2 & E3).
      exists l. split; [assumption|]. split; [assumption|].
      intros c. rewrite E3, HIn. tauto.
Qed.

(** The claim is false for a home air conditioner (class 0x0130): 0xC0 is
    readable and not in its Get property map. *)
Theorem C17_maps_describe_object_refuted : ~ C17_claim.
Proof.
  intros H. unfold C17_claim in H.
  destruct NewSuperObject as [o0|] eqn:E0; [|rewrite NewSuperObject_spec in E0; discriminate].
  destruct (calls o0 [CallSetCode 0x013001]) as [o|] eqn:E1.
  2:{ destruct (C17_maps_describe_object_partial [CallSetCode 0x013001] o0 E0) as (o & E & _);
        [repeat constructor; simpl; lia|]. congruence. }
  specialize (H [CallSetCode 0x013001] o0 o eq_refl).
  destruct (H ltac:(repeat constructor; simpl; lia) ltac:(repeat constructor) E1 0x9F p_get
              ltac:(left; reflexivity)) as (p & l & HL & HD & HI).
  assert (Hacc : accessible o p_get 0xC0 /\ PropertyMapData p = Ok l /\ ~ In 0xC0 l).
  { assert (T : match NewSuperObject with
                | Some o0 => match calls o0 [CallSetCode 0x013001] with
                  | Some o => match LookupProperty (o_props o) 0x9F, LookupProperty (o_props o) 0xC0 with
                     | Some p, Some q => match PropertyMapData p with
                               | Ok l => negb (contains l 0xC0) && negb (attr_IsProhibited (p_get q))
                               | _ => false end
                     | _, _ => false end
                  | None => false end
                | None => false end = true) by (vm_compute; reflexivity).
    rewrite E0, E1, HL, HD in T.
    destruct (LookupProperty (o_props o) 0xC0) as [q|] eqn:Eq; [|discriminate].
    apply andb_prop in T as [T1 T2]. split.
    - exists q. split; [assumption|]. intros Hx. rewrite Hx in T2. discriminate.
    - split; [assumption|]. intros Hx. apply contains_In in Hx. rewrite Hx in T1. discriminate. }
  destruct Hacc as (A & _ & B). apply B, HI, A.
Qed.

Example C17_example :
  match NewSuperObject with
  | Some o0 =>
      match calls o0 [CallSetCode 0x0EF001; CallAddProperty (newProperty 0xF0 Prohibited Required Prohibited);
                      CallSetPropertyData 0x80 [0x30]] with
      | Some o => match LookupProperty (o_props o) 0x9E with
                  | Some p => PropertyMapData p
                  | None => Panic
                  end
      | None => Panic
      end
  | None => Panic
  end = Ok [0x81; 0x87; 0x8F; 0x93; 0x97; 0x98; 0x99; 0xBF; 0xF0].
Proof. vm_compute. reflexivity. Qed.

(** ** C18: enumeration *)

Theorem C18_enumeration : forall m order,
  NoDup (map p_code m) -> Permutation order (map p_code m) ->
  StronglySorted Z.lt (map p_code (Properties_order order m)) /\
  Permutation (Properties_order order m) m.
Proof.
  intros m order Hn Hp. rewrite Properties_order_any by assumption. split.
  - rewrite Properties_codes. pose proof (sort_z_sorted (map p_code m)) as HS.
    pose proof (sort_z_NoDup _ Hn) as HN.
    clear -HS HN. induction HS as [|x l Hs IH Ha]; [constructor|].
    inversion HN as [|? ? Hx Hl]; subst.
    constructor; [auto|]. rewrite Forall_forall in *. intros y Hy. specialize (Ha y Hy).
    assert (x <> y) by congruence. lia.
  - apply Properties_perm. assumption.
Qed.

(** A property map filled by any sequence of additions has one entry per code,
    and additions of the same properties in another order enumerate equally. *)
Definition add_all (l : list property) : props := fold_left AddPropertyMap l [].

Lemma add_all_ok l m : props_ok m -> props_ok (fold_left AddPropertyMap l m).
Proof. revert m. induction l; intros m H; [assumption|]. simpl. apply IHl, Add_ok, H. Qed.

Lemma add_all_nodup l : forall m, NoDup (map p_code (m ++ l)) ->
  fold_left AddPropertyMap l m = m ++ l.
Proof.
  induction l as [|q l IH]; intros m H; [rewrite app_nil_r; reflexivity|].
  simpl. assert (AddPropertyMap m q = m ++ [q]) as ->.
  { assert (Hq : ~ In (p_code q) (map p_code m)).
    { rewrite map_app in H. simpl in H. apply NoDup_remove_2 in H.
      intros Hx. apply H, in_or_app. auto. }
    clear -Hq. induction m as [|p m IHm]; [reflexivity|]. simpl in *.
    destruct (p_code p =? p_code q) eqn:E; [exfalso; apply Hq; left; lia|].
    f_equal. apply IHm. tauto. }
  rewrite IH; [rewrite <- app_assoc; reflexivity|].
  rewrite <- app_assoc. assumption.
Qed.

Theorem C18_additions : forall l1 l2 order1 order2,
  Permutation l1 l2 -> NoDup (map p_code l1) ->
  Permutation order1 (map p_code (add_all l1)) -> Permutation order2 (map p_code (add_all l2)) ->
  Properties_order order1 (add_all l1) = Properties_order order2 (add_all l2).
Proof.
  intros l1 l2 o1 o2 HP HN H1 H2. rewrite !Properties_order_any by assumption.
  assert (HN2 : NoDup (map p_code l2))
    by (eapply Permutation_NoDup; [apply Permutation_map; exact HP|assumption]).
  unfold add_all. rewrite !add_all_nodup by assumption. simpl.
  unfold Properties, Properties_order.
  rewrite (sort_z_unique _ _ (Permutation_map p_code HP)).
  apply flat_map_ext. intros c.
  assert (LookupProperty l1 c = LookupProperty l2 c) as ->; [|reflexivity].
  destruct (LookupProperty l1 c) as [p|] eqn:E.
  - symmetry. pose proof (Lookup_code _ _ _ E) as <-. apply In_Lookup; [assumption|].
    eapply Permutation_in; [exact HP|]. eapply Lookup_In; eauto.
  - symmetry. apply Lookup_None. apply Lookup_None in E. intros Hx. apply E.
    eapply Permutation_in; [|exact Hx]. apply Permutation_sym, Permutation_map. assumption.
Qed.

Theorem C18_one_entry_per_code : forall l, NoDup (map p_code (add_all l)).
Proof. intros l. apply (add_all_ok l []). constructor. Qed.

Example C18_example :
  map p_code (Properties_order [0x9F; 0x80; 0xE1]
    (add_all [newProperty 0xE1 Required Required Required;
              newProperty 0x80 Required Required Required;
              newProperty 0x9F Required Required Required])) = [0x80; 0x9F; 0xE1].
Proof. vm_compute. reflexivity. Qed.

(** ** C19: object code accessors *)

Inductive code_op :=
| OpSetCode (v : Z) | OpSetCodes (l : list Z) | OpGroup (b : Z) | OpClass (b : Z) | OpInstance (b : Z).

Definition code_op_ok (op : code_op) : Prop :=
  match op with
  | OpSetCode v => 0 <= v < 2 ^ 24
  | OpSetCodes l => length l = 3%nat /\ is_bytes l
  | OpGroup b | OpClass b | OpInstance b => is_byte b
  end.

(** The three parts of an object code, as a mathematical object. *)
Definition parts : Type := (Z * Z * Z)%type.

Definition op_parts (s : parts) (op : code_op) : parts :=
  let '(g, c, i) := s in
  match op with
  | OpSetCode v => (v / 65536, (v / 256) mod 256, v mod 256)
  | OpSetCodes l => (nth 0 l 0, nth 1 l 0, nth 2 l 0)
  | OpGroup b => (b, c, i)
  | OpClass b => (g, b, i)
  | OpInstance b => (g, c, b)
  end.

Definition op_object (o : object) (op : code_op) : res object :=
  match op with
  | OpSetCode v => Ok (Obj_SetCode o v)
  | OpSetCodes l => Ok (Obj_SetCodes o l)
  | OpGroup b => SetClassGroupCode o b
  | OpClass b => SetClassCode o b
  | OpInstance b => SetInstanceCode o b
  end.

Definition parts_ok (s : parts) : Prop :=
  let '(g, c, i) := s in is_byte g /\ is_byte c /\ is_byte i.

Lemma op_step o g c i op : o_codes o = [g; c; i] -> parts_ok (g, c, i) -> code_op_ok op ->
  exists o', op_object o op = Ok o' /\ parts_ok (op_parts (g, c, i) op) /\
    o_codes o' = (let '(g, c, i) := op_parts (g, c, i) op in [g; c; i]) /\ o_props o' = o_props o.
Proof.
  intros Hc Hp Hop. destruct op; cbn [op_object op_parts code_op_ok] in *.
  - eexists. split; [reflexivity|]. unfold Obj_SetCode. rewrite Hc. cbn [length with_codes o_codes o_props].
    split; [|split; [apply IntegerToByte_3; assumption|reflexivity]].
    unfold parts_ok, is_byte. change (2 ^ 24) with 16777216 in Hop. Z.div_mod_to_equations. lia.
  - destruct Hop as [Hl Hb]. destruct l as [|x [|y [|z [|]]]]; try discriminate.
    eexists. split; [reflexivity|]. unfold Obj_SetCodes. rewrite Hc. inv Hb. inv H2. inv H4.
    split; [simpl; auto|split; reflexivity].
  - unfold SetClassGroupCode, SetCodeByte. rewrite Hc. eexists. split; [reflexivity|].
    unfold parts_ok in *. split; [tauto|split; reflexivity].
  - unfold SetClassCode, SetCodeByte. rewrite Hc. eexists. split; [reflexivity|].
    unfold parts_ok in *. split; [tauto|split; reflexivity].
  - unfold SetInstanceCode, SetCodeByte. rewrite Hc. eexists. split; [reflexivity|].
    unfold parts_ok in *. split; [tauto|split; reflexivity].
Qed.

Lemma C19_general : forall ops, Forall code_op_ok ops -> forall g c i o,
  o_codes o = [g; c; i] -> parts_ok (g, c, i) ->
  exists o', for_each ops (fun op o => op_object o op) o = Ok o' /\
    o_codes o' = (let '(g, c, i) := fold_left op_parts ops (g, c, i) in [g; c; i]) /\
    parts_ok (fold_left op_parts ops (g, c, i)) /\ o_props o' = o_props o.
Proof.
  intros ops Hops. induction Hops as [|op ops Hop Hops IH]; intros g c i o Ho H0.
  - exists o. auto.
  - destruct (op_step o g c i op Ho H0 Hop) as (o1 & E & Hp & Hc1 & Hpr).
    cbn [for_each fold_left]. rewrite E. cbn [bind].
    destruct (op_parts (g, c, i) op) as [[g' c'] i'].
    destruct (IH g' c' i' o1 Hc1 Hp) as (o' & E' & R). exists o'. split; [assumption|].
    rewrite <- Hpr. exact R.
Qed.

Theorem C19_code_accessors : forall ops o, o_codes o = [0; 0; 0] -> Forall code_op_ok ops ->
  exists o', for_each ops (fun op o => op_object o op) o = Ok o' /\
    let '(g, c, i) := fold_left op_parts ops (0, 0, 0) in
    ClassGroupCode o' = Ok g /\ ClassCode o' = Ok c /\ InstanceCode o' = Ok i /\
    Codes o' = [g; c; i] /\ Code o' = g * 65536 + c * 256 + i /\
    Class o' = Ok [g; c] /\
    (forall code, IsCode o' code = true <-> code = g * 65536 + c * 256 + i) /\
    IsProfile o' = Ok (g =? 0x0E) /\ IsDevice o' = Ok (negb (g =? 0x0E)) /\
    ObjectCode_Bytes (Code o') = Codes o' /\ NewObjectCodeFromBytes (Codes o') = Ok (Code o') /\
    o_props o' = o_props o.
Proof.
  intros ops o Ho Hops.
  destruct (C19_general ops Hops 0 0 0 o Ho) as (o' & E & Hc' & H0 & Hp);
    [unfold parts_ok, is_byte; lia|].
  exists o'. split; [assumption|].
  destruct (fold_left op_parts ops (0, 0, 0)) as [[g c] i]. destruct H0 as (Hg & Hc & Hi).
  assert (HC : Code o' = g * 65536 + c * 256 + i)
    by (unfold Code; rewrite Hc'; apply ByteToInteger_3; assumption).
  unfold ClassGroupCode, ClassCode, InstanceCode, Codes, Class, IsCode, IsDevice, IsProfile.
  rewrite !Hc'.
  repeat split; try reflexivity; try assumption.
  - intros H. rewrite HC in H. lia.
  - intros H. rewrite HC. lia.
  - rewrite HC. unfold ObjectCode_Bytes. unfold is_byte in *.
    rewrite IntegerToByte_3 by lia. unfold be3.
    f_equal; [|f_equal; [|f_equal]]; Z.div_mod_to_equations; lia.
  - unfold Code. rewrite Hc'. reflexivity.
Qed.

Example C19_example :
  match for_each [OpSetCode 0x013001; OpInstance 7; OpClass 0x35]
          (fun op o => op_object o op) newObject with
  | Ok o => Code o = 0x013507 /\ Class o = Ok [1; 0x35]
  | _ => False
  end.
Proof. vm_compute. split; reflexivity. Qed.

(** ** C20: super class state *)

(** A device or profile made by one of the constructors. *)
Inductive created : object -> Prop :=
| created_device code o : 0 <= code < 2 ^ 64 -> NewDeviceWithCode code = Ok o -> created o
| created_profile code o : 0 <= code < 2 ^ 64 -> NewProfileWithCode code = Ok o -> created o
| created_node_profile o : NewNodeProfile = Ok o -> created o.

Inductive state_op :=
| SetOp (on : bool) | SetFault (on : bool) | SetLocation (loc : Z) | SetMaker (code : Z)
| SetOther (code : Z) (data : list Z).

Definition state_codes : list Z := [0x80; 0x88; 0x81; 0x8A].

Definition state_op_ok (op : state_op) : Prop :=
  match op with
  | SetMaker code => 0 <= code < 2 ^ 24
  | SetOther code _ => ~ In code state_codes
  | _ => True
  end.

Definition state_step (o : object) (op : state_op) : effect :=
  match op with
  | SetOp b => SetOperatingStatus o b
  | SetFault b => SetFaultStatus o b
  | SetLocation l => SetInstallationLocation o l
  | SetMaker c => SetManufacturerCode o c
  | SetOther c d => SetPropertyData o c d
  end.

Definition state_run (o : object) (ops : list state_op) : object :=
  fold_left (fun o op => fst (fst (state_step o op))) ops o.

(** The value last set, if any. *)
Definition last_of {A} (f : state_op -> option A) (ops : list state_op) : option A :=
  fold_left (fun acc op => match f op with Some v => Some v | None => acc end) ops None.

Definition get_op op := match op with SetOp b => Some b | _ => None end.
Definition get_fault op := match op with SetFault b => Some b | _ => None end.
Definition get_location op := match op with SetLocation b => Some b | _ => None end.
Definition get_maker op := match op with SetMaker b => Some b | _ => None end.

Definition value_or_no_data {A} (v : option A) : res A :=
  match v with Some x => Ok x | None => Err ErrNoData end.

Lemma with_std_keeps m std c : wf std -> attrs_at m c <> None -> attrs_at (with_std m std) c <> None.
Proof. apply with_std_mono. Qed.

Lemma created_shape o : created o ->
  fresh (o_props o) /\ (forall c, attrs_at new_super c <> None -> attrs_at (o_props o) c <> None).
Proof.
  assert (G : forall m c, fresh m -> (forall x, attrs_at new_super x <> None -> attrs_at m x <> None) ->
             In c mra_table ->
             fresh (with_std m (class_props c)) /\
             (forall x, attrs_at new_super x <> None -> attrs_at (with_std m (class_props c)) x <> None)).
  { intros m c Hf Hm Hc. split; [apply fresh_with_std; assumption|].
    intros x Hx. apply with_std_mono; [apply class_props_wf; assumption|auto]. }
  intros H. destruct H as [code o Hr H|code o Hr H|o H].
  - destruct (selects_dec code) as [[c Hc]|Hn]; [lia| |].
    + rewrite (NewDevice_known code c Hr Hc) in H. injection H as <-. cbn [o_props].
      apply G; [apply fresh_new_super|auto|apply Hc].
    + rewrite NewDevice_unknown in H by assumption. discriminate.
  - destruct (selects_dec code) as [[c Hc]|Hn]; [lia| |].
    + rewrite (NewProfile_known code c Hr Hc) in H. injection H as <-. cbn [o_props].
      apply G; [apply fresh_new_super|auto|apply Hc].
    + rewrite NewProfile_unknown in H by assumption. injection H as <-. cbn [o_props].
      split; [apply fresh_new_super|auto].
  - rewrite NewNodeProfile_spec in H. injection H as <-. cbn [o_props]. unfold node_profile_props.
    pose proof (proj1 node_profile_selected) as Hi.
    destruct (G new_super node_profile_class fresh_new_super (fun x Hx => Hx) Hi) as [A B].
    apply (G _ node_profile_class A B Hi).
Qed.

Lemma state_codes_present c : In c state_codes -> attrs_at new_super c <> None.
Proof.
  intros H. rewrite new_super_attrs.
  destruct H as [<-|[<-|[<-|[<-|[]]]]]; vm_compute; discriminate.
Qed.

Definition op_write (op : state_op) : Z * list Z :=
  match op with
  | SetOp b => (0x80, [if b then 0x30 else 0x31])
  | SetFault b => (0x88, [if b then 0x41 else 0x42])
  | SetLocation l => (0x81, [l])
  | SetMaker c => (0x8A, IntegerToByte c 3)
  | SetOther c d => (c, d)
  end.

Lemma state_step_write o op :
  state_step o op = SetPropertyData o (fst (op_write op)) (snd (op_write op)).
Proof. destruct op; reflexivity. Qed.

Lemma state_step_props o op :
  o_props (fst (fst (state_step o op))) = set_data (o_props o) (fst (op_write op)) (snd (op_write op)).
Proof.
  rewrite state_step_write. unfold SetPropertyData, SetPropertyDataMap, lift_props.
  destruct (LookupProperty (o_props o) (fst (op_write op))) eqn:E; [reflexivity|].
  symmetry. apply set_data_absent. assumption.
Qed.

Definition last_write (ops : list state_op) (c : Z) : option (list Z) :=
  last_of (fun op => if fst (op_write op) =? c then Some (snd (op_write op)) else None) ops.

Lemma last_of_cons {A} (f : state_op -> option A) op ops :
  last_of f (op :: ops) = match last_of f ops with Some v => Some v | None => f op end.
Proof.
  unfold last_of. cbn [fold_left].
  assert (G : forall acc, fold_left (fun acc op => match f op with Some v => Some v | None => acc end) ops acc
     = match fold_left (fun acc op => match f op with Some v => Some v | None => acc end) ops None with
       | Some v => Some v | None => acc end).
  { induction ops as [|x ops IH]; intros acc; [reflexivity|]. cbn [fold_left].
    destruct (f x) as [v|]; [rewrite (IH (Some v))|apply IH].
    destruct (fold_left _ ops None); reflexivity. }
  rewrite G. destruct (fold_left _ ops None); [reflexivity|]. destruct (f op); reflexivity.
Qed.

Lemma state_run_data ops : forall o c p, LookupProperty (o_props o) c = Some p ->
  exists p', LookupProperty (o_props (state_run o ops)) c = Some p' /\
    p_data p' = match last_write ops c with Some d => d | None => p_data p end.
Proof.
  induction ops as [|op ops IH]; intros o c p H; [exists p; auto|].
  unfold state_run. cbn [fold_left]. fold (state_run (fst (fst (state_step o op))) ops).
  unfold last_write. rewrite last_of_cons. fold (last_write ops c).
  assert (H1 : LookupProperty (o_props (fst (fst (state_step o op)))) c =
    Some (if fst (op_write op) =? c then with_data p (snd (op_write op)) else p)).
  { rewrite state_step_props, Lookup_set, H. destruct (fst (op_write op) =? c); reflexivity. }
  destruct (IH _ c _ H1) as (p' & E & Ed). exists p'. split; [assumption|]. rewrite Ed.
  destruct (last_write ops c); [reflexivity|]. destruct (fst (op_write op) =? c); reflexivity.
Qed.

Lemma last_of_map {A B} (f : state_op -> option A) (g : state_op -> option B) (h : A -> B) ops :
  Forall (fun op => g op = option_map h (f op)) ops -> last_of g ops = option_map h (last_of f ops).
Proof.
  induction 1 as [|op ops Ho Hs IH]; [reflexivity|]. rewrite !last_of_cons, IH, Ho.
  destruct (last_of f ops); reflexivity.
Qed.

Theorem C20_state_round_trip : forall o ops, created o -> Forall state_op_ok ops ->
  let o' := state_run o ops in
  OperatingStatus o' = value_or_no_data (last_of get_op ops) /\
  FaultStatus o' = value_or_no_data (last_of get_fault ops) /\
  InstallationLocation o' = value_or_no_data (last_of get_location ops) /\
  ManufacturerCode o' = value_or_no_data (last_of get_maker ops).
Proof.
  intros o ops Hc Hops o'. destruct (created_shape o Hc) as [Hf Hp].
  assert (G : forall c, In c state_codes -> exists p', LookupProperty (o_props o') c = Some p' /\
            p_data p' = match last_write ops c with Some d => d | None => [] end).
  { intros c Hin. pose proof (Hp c (state_codes_present c Hin)) as Hne. unfold attrs_at in Hne.
    destruct (LookupProperty (o_props o) c) as [p|] eqn:E; [|exfalso; apply Hne; reflexivity].
    destruct (state_run_data ops o c p E) as (p' & E1 & E2). exists p'. split; [exact E1|].
    rewrite E2. destruct (last_write ops c); [reflexivity|]. apply (Hf c p E).
    unfold is_map_code. destruct Hin as [<-|[<-|[<-|[<-|[]]]]]; lia. }
  assert (W : forall {A} c (f : state_op -> option A) (h : A -> list Z), In c state_codes ->
     (forall op, state_op_ok op ->
        (if fst (op_write op) =? c then Some (snd (op_write op)) else None) = option_map h (f op)) ->
     last_write ops c = option_map h (last_of f ops)).
  { intros A c f h Hin Hall. unfold last_write. apply last_of_map.
    eapply Forall_impl; [|exact Hops]. intros op Ho. apply Hall. assumption. }
  assert (O : forall code data c, ~ In code state_codes -> In c state_codes ->
     (if code =? c then Some data else None) = @None (list Z)).
  { intros code data c H1 H2. destruct (code =? c) eqn:E; [|reflexivity].
    exfalso. apply H1. replace code with c by lia. assumption. }
  split; [|split; [|split]].
  - destruct (G 0x80 ltac:(simpl; auto)) as (p & E & Ed).
    rewrite (W bool 0x80 get_op (fun b => [if b then 0x30 else 0x31])) in Ed;
      [|simpl; auto|intros []; simpl; auto; intros; apply O; simpl; auto].
    unfold OperatingStatus, LookupPropertyByte, ObjectOperatingStatus. rewrite E. unfold prop_AsByte.
    rewrite Ed. destruct (last_of get_op ops) as [[]|]; reflexivity.
  - destruct (G 0x88 ltac:(simpl; auto)) as (p & E & Ed).
    rewrite (W bool 0x88 get_fault (fun b => [if b then 0x41 else 0x42])) in Ed;
      [|simpl; auto|intros []; simpl; auto; intros; apply O; simpl; auto].
    unfold FaultStatus, LookupPropertyByte, DeviceFaultStatus. rewrite E. unfold prop_AsByte.
    rewrite Ed. destruct (last_of get_fault ops) as [[]|]; reflexivity.
  - destruct (G 0x81 ltac:(simpl; auto)) as (p & E & Ed).
    rewrite (W Z 0x81 get_location (fun b => [b])) in Ed;
      [|simpl; auto|intros []; simpl; auto; intros; apply O; simpl; auto].
    unfold InstallationLocation, LookupPropertyByte, DeviceInstallationLocation. rewrite E.
    unfold prop_AsByte. rewrite Ed. destruct (last_of get_location ops) as [|]; reflexivity.
  - destruct (G 0x8A ltac:(simpl; auto)) as (p & E & Ed).
    rewrite (W Z 0x8A get_maker (fun b => IntegerToByte b 3)) in Ed;
      [|simpl; auto|intros []; cbn [op_write fst snd]; auto; intros; apply O; simpl; auto].
    unfold ManufacturerCode, LookupPropertyInteger, ObjectManufacturerCode. rewrite E.
    unfold prop_AsInteger. rewrite Ed.
    destruct (last_of get_maker ops) as [v|] eqn:EL; [|reflexivity]. cbn [option_map].
    assert (Hv : 0 <= v < 2 ^ 24).
    { clear -EL Hops. revert v EL. induction Hops as [|op ops Ho Hs IH]; intros v EL; [discriminate|].
      rewrite last_of_cons in EL. destruct (last_of get_maker ops); [injection EL as <-; auto|].
      destruct op; try discriminate. injection EL as <-. exact Ho. }
    unfold len. rewrite IntegerToByte_length. cbn [value_or_no_data].
    change (Z.of_nat 3 =? 0) with false. cbv iota.
    rewrite ByteToInteger_IntegerToByte by lia. f_equal. apply Z.mod_small. lia.
Qed.

Example C20_example :
  match NewDeviceWithCode 0x013001 with
  | Ok o => let o' := state_run o [SetOp true; SetMaker 0x00000B; SetOther 0xB0 [0x41]; SetOp false] in
            OperatingStatus o' = Ok false /\ ManufacturerCode o' = Ok 0x0B /\
            FaultStatus o' = Err ErrNoData
  | _ => False
  end.
Proof. vm_compute. repeat split. Qed.

(** ** C21: devices from the standard database *)

(** What the rules of the database mean for a property. *)
Definition access_of_rule (r : rule) : attr :=
  match r with
  | RRequired => Required
  | ROptional => Optional
  | RNotApplicable | RRequiredC | RRequiredO => Prohibited
  end.

(** The entry that a list of entries has for a property code: the last one. *)
Definition entry_for (es : list mra_entry) (c : Z) : option mra_entry :=
  last_entry es c.

(** [p] carries the access attributes of the database entry [e]. *)
Definition has_access_of (e : mra_entry) (p : property) : Prop :=
  p_code p = pe_code e /\ p_get p = access_of_rule (pe_get e) /\
  p_set p = access_of_rule (pe_set e) /\ p_anno p = access_of_rule (pe_anno e).

(** [m] has the entries of [first], and those of [second] whose code [first]
    does not have, and nothing else. *)
Definition has_entries (m : props) (first second : list mra_entry) : Prop :=
  forall pc, match entry_for first pc, entry_for second pc with
             | Some e, _ | None, Some e =>
                 exists p, LookupProperty m pc = Some p /\ has_access_of e p
             | None, None => LookupProperty m pc = None
             end.

Lemma last_entry_code es c e : last_entry es c = Some e -> pe_code e = c.
Proof.
  induction es as [|x es IH]; [discriminate|]. simpl.
  destruct (last_entry es c); [intros [= ->]; auto|].
  destruct (pe_code x =? c) eqn:E; [intros [= ->]; lia|discriminate].
Qed.

Lemma attrs_has_access m pc e : pe_code e = pc -> attrs_at m pc = Some (entry_attrs e) ->
  exists p, LookupProperty m pc = Some p /\ has_access_of e p.
Proof.
  intros Hpc H. unfold attrs_at in H. destruct (LookupProperty m pc) as [p|] eqn:E; [|discriminate].
  exists p. split; [reflexivity|]. simpl in H. unfold attrs, entry_attrs in H.
  injection H as A B C. pose proof (Lookup_code _ _ _ E) as D. unfold has_access_of.
  assert (R : forall r, rule_attr r = access_of_rule r) by (intros []; reflexivity).
  rewrite <- !R. repeat split; congruence.
Qed.

Lemma attrs_has_entries m first second :
  (forall pc, attrs_at m pc = first_some (option_map entry_attrs (last_entry first pc))
                                         (option_map entry_attrs (last_entry second pc))) ->
  has_entries m first second.
Proof.
  intros H pc. specialize (H pc). unfold entry_for.
  destruct (last_entry first pc) as [e|] eqn:E1; simpl in H.
  - apply attrs_has_access; [eapply last_entry_code; eauto|assumption].
  - destruct (last_entry second pc) as [e|] eqn:E2; simpl in H.
    + apply attrs_has_access; [eapply last_entry_code; eauto|assumption].
    + unfold attrs_at in H. destruct (LookupProperty m pc); [discriminate|reflexivity].
Qed.

Theorem C21_device_creation : forall code, 0 <= code < 2 ^ 64 ->
  (forall cls, In cls mra_table ->
     cl_grp cls = (code / 65536) mod 256 -> cl_cls cls = (code / 256) mod 256 ->
     exists dev, NewDeviceWithCode code = Ok dev /\
       Codes dev = be3 (code mod 2 ^ 24) /\
       has_entries (o_props dev) (cl_entries cls) (cl_entries (nth 0 mra_table (CL 0 0 []))) /\
       NoDup (map p_code (o_props dev)) /\
       (forall pc p, LookupProperty (o_props dev) pc = Some p ->
          pc <> 0x9D -> pc <> 0x9E -> pc <> 0x9F -> p_data p = [])) /\
  ((forall cls, In cls mra_table ->
      ~ (cl_grp cls = (code / 65536) mod 256 /\ cl_cls cls = (code / 256) mod 256)) ->
   NewDeviceWithCode code = Err ErrOther).
Proof.
  intros code Hr. split.
  - intros cls Hin Hg Hc. assert (Hs : selects code cls) by (split; auto).
    eexists. split; [apply (NewDevice_known code cls Hr Hs)|]. cbn [o_props Codes o_codes].
    split; [reflexivity|].
    pose proof (class_props_wf cls Hin) as Hw.
    split; [apply attrs_has_entries|split].
    + intros pc. rewrite with_std_attrs by apply Hw. unfold class_props. rewrite entries_attrs.
      f_equal. exact (new_super_attrs pc).
    + apply (with_std_wf _ _ new_super_wf Hw).
    + intros pc p HL H1 H2 H3. apply (fresh_with_std _ _ fresh_new_super pc p HL).
      unfold is_map_code. tauto.
  - intros Hn. apply NewDevice_unknown; [assumption|]. intros c (A & B & C). apply (Hn c A). auto.
Qed.

Example C21_example :
  match NewDeviceWithCode 0x013001, NewDeviceWithCode 0x0130FF, NewDeviceWithCode 0x01FF01 with
  | Ok d1, Ok d2, Err ErrOther =>
      map p_code (Properties (o_props d1)) = map p_code (Properties (o_props d2)) /\
      LookupProperty (o_props d1) 0xB0 = Some (newProperty 0xB0 Required Required Required) /\
      Codes d2 = [1; 0x30; 0xFF]
  | _, _, _ => False
  end.
Proof. vm_compute. repeat split. Qed.

(** ** C22: mandatory properties *)

Definition mandatory (r : rule) : bool :=
  match r with RRequired | RRequiredC | RRequiredO => true | _ => false end.

Definition unconditional (r : rule) : bool :=
  match r with RRequired => true | _ => false end.

(** A device of the class of [c] with the rules selected by [f] observed. *)
Definition rules_hold (f : rule -> bool) (c : mra_class) (dev : object) : Prop :=
  forall e, In e (cl_entries c) ->
    exists p, LookupProperty (o_props dev) (pe_code e) = Some p /\
      (f (pe_get e) = true -> IsReadable p = true) /\
      (f (pe_set e) = true -> IsWritable p = true) /\
      (f (pe_anno e) = true -> IsAnnounceable p = true).

(** The full claim. *)
Definition C22_claim : Prop := forall code cls dev,
  0 <= code < 2 ^ 64 -> In cls mra_table ->
  cl_grp cls = (code / 65536) mod 256 -> cl_cls cls = (code / 256) mod 256 ->
  NewDeviceWithCode code = Ok dev -> rules_hold mandatory cls dev.

Definition granting (r : rule) : bool :=
  match r with RRequired | ROptional => true | _ => false end.

Definition entry_sound (es : list mra_entry) (e : mra_entry) : bool :=
  match last_entry es (pe_code e) with
  | Some x =>
      (negb (unconditional (pe_get e)) || granting (pe_get x)) &&
      (negb (unconditional (pe_set e)) || granting (pe_set x)) &&
      (negb (unconditional (pe_anno e)) || granting (pe_anno x))
  | None => false
  end.

Lemma entries_sound :
  forallb (fun c => forallb (entry_sound (cl_entries c)) (cl_entries c)) mra_table = true.
Proof. vm_compute. reflexivity. Qed.

(** What holds: the unconditional rules of every class. *)
Theorem C22_mandatory_partial : forall code cls dev,
  0 <= code < 2 ^ 64 -> In cls mra_table ->
  cl_grp cls = (code / 65536) mod 256 -> cl_cls cls = (code / 256) mod 256 ->
  NewDeviceWithCode code = Ok dev -> rules_hold unconditional cls dev.
Proof.
  intros code cls dev Hr Hin Hg Hc Hd e He.
  destruct (proj1 (C21_device_creation code Hr) cls Hin Hg Hc) as (dev' & E & _ & HE & _).
  assert (dev' = dev) by congruence. subst dev'. specialize (HE (pe_code e)).
  pose proof entries_sound as HS. rewrite forallb_forall in HS. specialize (HS cls Hin).
  rewrite forallb_forall in HS. specialize (HS e He). unfold entry_sound in HS.
  unfold entry_for in HE. destruct (last_entry (cl_entries cls) (pe_code e)) as [x|]; [|discriminate].
  destruct HE as (p & HL & _ & P1 & P2 & P3). exists p. split; [assumption|].
  apply andb_prop in HS as [HS H3]. apply andb_prop in HS as [H1 H2].
  unfold IsReadable, IsWritable, IsAnnounceable. rewrite P1, P2, P3.
  repeat split; intros Hf; rewrite Hf in *; simpl in *;
    match goal with H : granting ?r = true |- negb (attr_IsProhibited (access_of_rule ?r)) = true =>
      destruct r; try discriminate H; reflexivity end.
Qed.

(** The claim is false: the MRA requires (conditionally) the property 0xE0 of
    the class 0x00D0 to be readable; the library creates it unreadable. *)
Theorem C22_mandatory_refuted : ~ C22_claim.
Proof.
  intros H.
  assert (T : match find (fun c => (cl_grp c =? 0) && (cl_cls c =? 0xD0)) mra_table, NewDeviceWithCode 0x00D001 with
              | Some c, Ok dev =>
                  match find (fun e => pe_code e =? 0xE0) (cl_entries c), LookupProperty (o_props dev) 0xE0 with
                  | Some e, Some p => mandatory (pe_get e) && negb (IsReadable p)
                  | _, _ => false
                  end
              | _, _ => false
              end = true) by (vm_compute; reflexivity).
  revert T.
  destruct (find (fun c => (cl_grp c =? 0) && (cl_cls c =? 0xD0)) mra_table) as [c|] eqn:Ec;
    [|intros T; exact (match (Bool.diff_false_true T) with end)].
  destruct (NewDeviceWithCode 0x00D001) as [dev|err|] eqn:Ed;
    [|intros T; exact (match (Bool.diff_false_true T) with end)
     |intros T; exact (match (Bool.diff_false_true T) with end)].
  destruct (find (fun e => pe_code e =? 0xE0) (cl_entries c)) as [e|] eqn:Ee;
    [|intros T; exact (match (Bool.diff_false_true T) with end)].
  destruct (LookupProperty (o_props dev) 0xE0) as [p|] eqn:Ep;
    [|intros T; exact (match (Bool.diff_false_true T) with end)].
  intros T.
  apply andb_prop in T as [T1 T2].
  apply find_some in Ec as [Hin Hk]. apply find_some in Ee as [Hie Hke].
  destruct (H 0x00D001 c dev ltac:(lia) Hin) with (e := e) as (q & HL & HR & _);
    [change ((0x00D001 / 65536) mod 256) with 0; lia
    |change ((0x00D001 / 256) mod 256) with 0xD0; lia|assumption|assumption|].
  replace (pe_code e) with 0xE0 in HL by lia. assert (p = q) by congruence. subst q.
  rewrite (HR T1) in T2. exact (Bool.diff_false_true T2).
Qed.

Example C22_example :
  match NewDeviceWithCode 0x013001 with
  | Ok dev => option_map (fun p => (IsReadable p, IsWritable p)) (LookupProperty (o_props dev) 0xB0)
              = Some (true, true)
  | _ => False
  end.
Proof. vm_compute. reflexivity. Qed.

(** ** C23: re-coding *)

Definition class_of (code : Z) : option mra_class :=
  find (fun c => (cl_grp c =? (code / 65536) mod 256) && (cl_cls c =? (code / 256) mod 256)) mra_table.

(** The entries of the classes that were assigned, the most recent first, then
    those of the super class. *)
Fixpoint assigned_entry (recent_first : list Z) (pc : Z) : option mra_entry :=
  match recent_first with
  | [] => entry_for (cl_entries (nth 0 mra_table (CL 0 0 []))) pc
  | code :: t =>
      match class_of code with
      | Some c => match entry_for (cl_entries c) pc with
                  | Some e => Some e
                  | None => assigned_entry t pc
                  end
      | None => assigned_entry t pc
      end
  end.

(** The full claim: only the last code matters. *)
Definition C23_claim : Prop := forall codes last o0 o,
  NewSuperObject = Some o0 -> Forall (fun c => 0 <= c < 2 ^ 24) (codes ++ [last]) ->
  calls o0 (map CallSetCode (codes ++ [last])) = Some o ->
  forall pc, assigned_entry [last] pc = None -> LookupProperty (o_props o) pc = None.

Lemma class_of_selects code c : class_of code = Some c -> selects code c.
Proof. intros H. apply find_some in H as [H1 H2]. split; [assumption|lia]. Qed.

Lemma class_of_none code : class_of code = None -> forall c, ~ selects code c.
Proof. intros H c (H1 & H2 & H3). pose proof (find_none _ _ H c H1) as HN. cbn beta in HN. lia. Qed.

Lemma assigned_spec codes : forall o hist, Forall (fun c => 0 <= c < 2 ^ 64) codes -> obj_inv o ->
  (forall pc, attrs_at (o_props o) pc = option_map entry_attrs (assigned_entry hist pc)) ->
  exists o', calls o (map CallSetCode codes) = Some o' /\ obj_inv o' /\
    (forall pc, attrs_at (o_props o') pc = option_map entry_attrs (assigned_entry (rev codes ++ hist) pc)).
Proof.
  induction codes as [|code codes IH]; intros o hist Hc Ho Ha; [exists o; auto|].
  inversion Hc as [|? ? H1 H2]; subst. cbn [map calls rev].
  destruct (call_inv o (CallSetCode code) Ho H1) as (o1 & E & Ho1). rewrite E.
  rewrite <- app_assoc. apply (IH o1 (code :: hist) H2 Ho1).
  intros pc. cbn [assigned_entry]. cbn [call] in E.
  destruct Ho as (B1 & B2 & B3 & B4).
  destruct (class_of code) as [c|] eqn:Ec.
  - pose proof (class_of_selects _ _ Ec) as Hs.
    destruct (Super_SetCode_known o code c B1 B2 H1 Hs) as [ev E1]. rewrite E1 in E.
    injection E as <-. cbn [fst o_props]. rewrite with_std_attrs by apply (class_props_wf c (proj1 Hs)).
    unfold class_props. rewrite entries_attrs, Ha. unfold entry_for.
    destruct (last_entry (cl_entries c) pc); reflexivity.
  - rewrite (Super_SetCode_unknown o code B1 H1 (class_of_none _ Ec)) in E. injection E as <-.
    cbn [fst o_props]. apply Ha.
Qed.

(** What holds: for every sequence of assignments each property comes from the
    most recently assigned class that has its code, or else from the super
    class, and there are no others.  With one assignment this is the claim. *)
Theorem C23_recoding_partial : forall codes o0,
  NewSuperObject = Some o0 -> Forall (fun c => 0 <= c < 2 ^ 64) codes ->
  exists o, calls o0 (map CallSetCode codes) = Some o /\
  forall pc, match assigned_entry (rev codes) pc with
             | Some e => exists p, LookupProperty (o_props o) pc = Some p /\ has_access_of e p
             | None => LookupProperty (o_props o) pc = None
             end.
Proof.
  intros codes o0 H0 Hc. rewrite NewSuperObject_spec in H0. injection H0 as <-.
  destruct (assigned_spec codes (mkObject [0; 0; 0] new_super) [] Hc new_super_inv) as (o & E & _ & Ha).
  { intros pc. exact (new_super_attrs pc). }
  exists o. split; [assumption|]. intros pc. specialize (Ha pc). rewrite app_nil_r in Ha.
  destruct (assigned_entry (rev codes) pc) as [e|] eqn:EE; cbn [option_map] in Ha.
  - apply attrs_has_access; [|assumption]. revert EE. generalize (rev codes) as l. clear.
    induction l as [|x l IH]; cbn [assigned_entry]; [apply last_entry_code|].
    destruct (class_of x) as [c|]; [|assumption]. unfold entry_for at 1.
    destruct (last_entry (cl_entries c) pc) as [e'|] eqn:E'; [|assumption].
    intros [= <-]. eapply last_entry_code; eauto.
  - unfold attrs_at in Ha. destruct (LookupProperty (o_props o) pc); [discriminate|reflexivity].
Qed.

(** The claim is false: an air conditioner turned into general lighting keeps
    the property 0xA0 of the air conditioner, which lighting does not have. *)
Theorem C23_recoding_refuted : ~ C23_claim.
Proof.
  intros H.
  destruct NewSuperObject as [o0|] eqn:E0; [|rewrite NewSuperObject_spec in E0; discriminate].
  destruct (C23_recoding_partial [0x013001; 0x029001] o0 E0) as (o & E & HP).
  { repeat constructor; lia. }
  specialize (HP 0xA0).
  assert (T1 : match assigned_entry (rev [0x013001; 0x029001]) 0xA0 with Some _ => true | None => false end = true)
    by (vm_compute; reflexivity).
  assert (T2 : assigned_entry [0x029001] 0xA0 = None) by (vm_compute; reflexivity).
  destruct (assigned_entry (rev [0x013001; 0x029001]) 0xA0); [|discriminate].
  destruct HP as (p & HL & _).
  rewrite (H [0x013001] 0x029001 o0 o E0) in HL; [discriminate| |exact E|exact T2].
  repeat constructor; lia.
Qed.

Example C23_example :
  match NewSuperObject with
  | Some o0 =>
      match calls o0 (map CallSetCode [0x013001; 0x029001]) with
      | Some o => (HasProp (o_props o) 0xA0, HasProp (o_props o) 0xB6, Codes o) = (true, true, [2; 0x90; 1])
      | None => False
      end
  | None => False
  end.
Proof. vm_compute. reflexivity. Qed.

(** ** C50: waiting for a property *)

Theorem C50_find_property_wait : forall snap code,
  (forall p, FindPropertyWait snap code = Some p ->
     exists n, (n < 20)%nat /\ LookupProperty (snap n) code = Some p /\
       forall i, (i < n)%nat -> LookupProperty (snap i) code = None) /\
  (FindPropertyWait snap code = None <->
     forall n, (n < 20)%nat -> LookupProperty (snap n) code = None).
Proof.
  intros snap code.
  assert (G : forall tries n,
    (forall p, findPropertyWaitLoop tries n snap code = Some p ->
       exists k, (n <= k < n + tries)%nat /\ LookupProperty (snap k) code = Some p /\
         forall i, (n <= i < k)%nat -> LookupProperty (snap i) code = None) /\
    (findPropertyWaitLoop tries n snap code = None <->
       forall k, (n <= k < n + tries)%nat -> LookupProperty (snap k) code = None)).
  { induction tries as [|t IH]; intros n; cbn [findPropertyWaitLoop].
    - split; [discriminate|]. split; [intros _ k Hk; lia|reflexivity].
    - destruct (LookupProperty (snap n) code) as [q|] eqn:E.
      + split.
        * intros p [= <-]. exists n. split; [lia|]. split; [assumption|]. intros i Hi. lia.
        * split; [discriminate|]. intros H. rewrite (H n) in E by lia. discriminate.
      + destruct (IH (S n)) as [I1 I2]. split.
        * intros p Hp. destruct (I1 p Hp) as (k & A & B & C). exists k. split; [lia|].
          split; [assumption|]. intros i Hi. destruct (Nat.eq_dec i n) as [->|]; [assumption|].
          apply C. lia.
        * rewrite I2. split; intros H k Hk.
          -- destruct (Nat.eq_dec k n) as [->|]; [assumption|]. apply H. lia.
          -- apply H. lia. }
  unfold FindPropertyWait, propertyWaitRetryCount. destruct (G 20%nat 0%nat) as [G1 G2]. split.
  - intros p Hp. destruct (G1 p Hp) as (k & A & B & C). exists k. split; [lia|].
    split; [assumption|]. intros i Hi. apply C. lia.
  - rewrite G2. split; intros H n Hn; apply H; lia.
Qed.

Example C50_example :
  FindPropertyWait (fun n => if Nat.eqb n 7 then [newProperty 0x80 Required Required Required] else []) 0x80
  = Some (newProperty 0x80 Required Required Required).
Proof. reflexivity. Qed.

Print Assumptions C14_service_availability.
Print Assumptions C15_set_get.
Print Assumptions C15_absent.
Print Assumptions C15_getter_errors.
Print Assumptions C16_property_map_partial.
Print Assumptions C16_property_map_refuted.
Print Assumptions C16_decoder_total.
Print Assumptions C17_maps_describe_object_partial.
Print Assumptions C17_maps_describe_object_refuted.
Print Assumptions C18_enumeration.
Print Assumptions C18_additions.
Print Assumptions C18_one_entry_per_code.
Print Assumptions C19_code_accessors.
Print Assumptions C20_state_round_trip.
Print Assumptions C21_device_creation.
Print Assumptions C22_mandatory_partial.
Print Assumptions C22_mandatory_refuted.
Print Assumptions C23_recoding_partial.
Print Assumptions C23_recoding_refuted.
Print Assumptions C50_find_property_wait.

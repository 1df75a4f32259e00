(** C105: the version and the identification number of a node profile.
    C106: attributes, comparison, values and number of properties. *)

From Verif Require Import Go GoFacts Encoding EncodingFacts Protocol Parser StdDB Property PropertyFacts Object ObjectFacts Spec MessageFacts ProtocolFacts Transport.
From Verif Require Import PropsObject.
From Coq Require Import ZifyBool ZifyNat Permutation.
Local Open Scope Z_scope.
Local Open Scope list_scope.

(** ** C105 *)

(** SetVersion stores one byte, the major version, and changes nothing else. *)
Theorem C105_version : forall o p major minor, LookupProperty (o_props o) 0x82 = Some p ->
  exists o' ev, SetVersion o major minor = (o', ev, None) /\ LookupPropertyData (o_props o') 0x82 = Ok [major mod 256] /\ only_changes 0x82 o o'.
Proof.
  intros o p major minor H. destruct (set_only_changes o 0x82 [u8 major] p H) as (ev & A & B & C). eexists _, ev. split; [exact A|].
  unfold LookupPropertyData. cbn [with_props o_props]. rewrite C. split; [reflexivity|exact B].
Qed.

(** SetID stores the manufacturer code and thirteen zeros. *)
Theorem C105_id : forall o p m, 0 <= m < 2 ^ 24 -> LookupProperty (o_props o) 0x83 = Some p ->
  exists o' ev, SetID o m = (o', ev, None) /\
    LookupPropertyData (o_props o') 0x83 = Ok ([m / 65536; m / 256 mod 256; m mod 256] ++ repeat 0 13) /\ only_changes 0x83 o o'.
Proof.
  intros o p m M H. destruct (set_only_changes o 0x83 (IntegerToByte m 3 ++ zeros 13) p H) as (ev & A & B & C). eexists _, ev. split; [exact A|].
  unfold LookupPropertyData. cbn [with_props o_props]. rewrite C. split; [|exact B]. cbn [with_data p_data]. rewrite IntegerToByte_3 by exact M. reflexivity.
Qed.

(** The code of the manufacturer can be read back from the number. *)
Theorem C105_manufacturer : forall o o2 p p2 m m2 a ea a2 ea2, 0 <= m < 2 ^ 24 -> 0 <= m2 < 2 ^ 24 ->
  LookupProperty (o_props o) 0x83 = Some p -> LookupProperty (o_props o2) 0x83 = Some p2 ->
  SetID o m = (a, ea, None) -> SetID o2 m2 = (a2, ea2, None) ->
  (LookupPropertyData (o_props a) 0x83 = LookupPropertyData (o_props a2) 0x83 <-> m = m2).
Proof.
  intros o o2 p p2 m m2 a ea a2 ea2 M M2 H H2 E E2.
  destruct (C105_id o p m M H) as (x & ev & A & B & _). destruct (C105_id o2 p2 m2 M2 H2) as (x2 & ev2 & A2 & B2 & _).
  assert (x = a) by congruence. assert (x2 = a2) by congruence. subst x x2. rewrite B, B2. split; [|intros ->; reflexivity].
  intros X. cbn [app] in X. injection X as X1 X2 X3. change (2 ^ 24) with 16777216 in *. lia.
Qed.

(** The full claims.  node_profile.go L33-L37 gives the version 4 bytes and the
    number 1 + 3 + 13; L48: the first byte is 0xFE. *)
Definition C105_version_claim : Prop := forall o p major minor o' ev, LookupProperty (o_props o) 0x82 = Some p -> 0 <= major < 256 -> 0 <= minor < 256 ->
  SetVersion o major minor = (o', ev, None) -> exists rest, LookupPropertyData (o_props o') 0x82 = Ok (major :: minor :: rest) /\ length rest = 2%nat.
Definition C105_id_claim : Prop := forall o p m o' ev, LookupProperty (o_props o) 0x83 = Some p -> 0 <= m < 2 ^ 24 ->
  SetID o m = (o', ev, None) -> exists uniq, LookupPropertyData (o_props o') 0x83 = Ok (0xFE :: be3 m ++ uniq) /\ length uniq = 13%nat.
(** Two nodes have different numbers. *)
Definition C105_unique_claim : Prop := forall o o2 p p2 m m2 a ea a2 ea2, LookupProperty (o_props o) 0x83 = Some p -> LookupProperty (o_props o2) 0x83 = Some p2 ->
  0 <= m < 2 ^ 24 -> 0 <= m2 < 2 ^ 24 -> o <> o2 -> SetID o m = (a, ea, None) -> SetID o2 m2 = (a2, ea2, None) ->
  LookupPropertyData (o_props a) 0x83 <> LookupPropertyData (o_props a2) 0x83.

(** The profile of a new node; both properties are there. *)
Definition fresh_profile : object := match NewNodeProfile with Ok o => o | _ => mkObject [] [] end.
Lemma fresh_has c : c = 0x82 \/ c = 0x83 -> exists p, LookupProperty (o_props fresh_profile) c = Some p.
Proof.
  intros H. destruct (LookupProperty (o_props fresh_profile) c) eqn:E; [eauto|]. exfalso.
  destruct H as [-> | ->]; apply (f_equal (fun x => match x with None => true | _ => false end)) in E; vm_compute in E; discriminate E.
Qed.

(** The minor version is lost, whatever it is. *)
Theorem C105_version_refuted : ~ C105_version_claim.
Proof.
  intros H. destruct (fresh_has 0x82 (or_introl eq_refl)) as (p & HP). destruct (C105_version fresh_profile p 1 12 HP) as (o' & ev & A & B & _).
  destruct (H fresh_profile p 1 12 o' ev HP) as (r & X & _); [lia|lia|exact A|]. rewrite B in X. discriminate X.
Qed.
(** No number that SetID stores has the size and the first byte of the claim. *)
Theorem C105_id_refuted : ~ C105_id_claim.
Proof.
  intros H. destruct (fresh_has 0x83 (or_intror eq_refl)) as (p & HP). destruct (C105_id fresh_profile p 0x000106 ltac:(lia) HP) as (o' & ev & A & B & _).
  destruct (H fresh_profile p 0x000106 o' ev HP) as (r & X & _); [lia|exact A|]. rewrite B in X. discriminate X.
Qed.
Theorem C105_unique_refuted : ~ C105_unique_claim.
Proof.
  intros H. destruct (fresh_has 0x83 (or_intror eq_refl)) as (p & HP).
  destruct (C105_version fresh_profile) with (p := match LookupProperty (o_props fresh_profile) 0x82 with Some p => p | None => p end) (major := 1) (minor := 0) as (o2 & ev & _ & B & C).
  { destruct (fresh_has 0x82 (or_introl eq_refl)) as (q & HQ). rewrite HQ. reflexivity. }
  assert (N : fresh_profile <> o2).
  { intros <-. apply (f_equal (fun x => match x with Ok [] => true | _ => false end)) in B. vm_compute in B. discriminate B. }
  assert (HP2 : LookupProperty (o_props o2) 0x83 = Some p) by (destruct C as (_ & _ & C & _); rewrite C by lia; exact HP).
  destruct (C105_id fresh_profile p 6 ltac:(lia) HP) as (a & ea & A1 & B1 & _). destruct (C105_id o2 p 6 ltac:(lia) HP2) as (a2 & ea2 & A2 & B2 & _).
  apply (H fresh_profile o2 p p 6 6 a ea a2 ea2); try assumption; try lia. congruence.
Qed.

Example C105_example :
  (let '(o, _, _) := SetVersion fresh_profile 1 14 in let '(o, _, _) := SetID o 0x00000B in
   (LookupPropertyData (o_props o) 0x82, LookupPropertyData (o_props o) 0x83)) =
  (Ok [1], Ok [0; 0; 0x0B; 0; 0; 0; 0; 0; 0; 0; 0; 0; 0; 0; 0; 0]).
Proof. vm_compute. reflexivity. Qed.

(** ** C106 *)

(** The tests of the attributes. *)
Theorem C106_attributes : forall p,
  (IsReadOnly p = true <-> p_get p <> Prohibited /\ p_set p = Prohibited) /\
  (IsWriteOnly p = true <-> p_set p <> Prohibited /\ p_get p = Prohibited) /\
  (IsReadRequired p = true <-> p_get p = Required) /\
  (IsWriteRequired p = true <-> p_set p = Required) /\
  (IsAnnounceRequired p = true <-> p_anno p = Required).
Proof.
  intros p. unfold IsReadOnly, IsWriteOnly, IsReadRequired, IsWriteRequired, IsAnnounceRequired, IsReadable, IsWritable.
  destruct (p_get p), (p_set p), (p_anno p); cbn; repeat split; intros; try discriminate; try congruence; repeat (match goal with H : _ /\ _ |- _ => destruct H end); congruence.
Qed.
(** A required access is possible; read only, write only, both and neither exclude each
    other; a read only property takes no write request and a write only one no read
    request. *)
Theorem C106_consistent : forall p,
  (IsReadRequired p = true -> IsReadable p = true) /\ (IsWriteRequired p = true -> IsWritable p = true) /\ (IsAnnounceRequired p = true -> IsAnnounceable p = true) /\
  (IsReadOnly p = true -> IsWriteOnly p = false /\ IsAvailableService p 0x60 = false /\ IsAvailableService p 0x61 = false /\ IsAvailableService p 0x6E = false /\ IsAvailableService p 0x62 = true) /\
  (IsWriteOnly p = true -> IsReadOnly p = false /\ IsAvailableService p 0x62 = false /\ IsAvailableService p 0x6E = false /\ IsAvailableService p 0x61 = true).
Proof.
  intros p. unfold IsReadOnly, IsWriteOnly, IsReadRequired, IsWriteRequired, IsAnnounceRequired, IsAvailableService, IsReadable, IsWritable, IsAnnounceable.
  destruct (p_get p), (p_set p), (p_anno p); cbn; repeat split; intros; congruence.
Qed.

(** Equals compares code and data. *)
Theorem C106_equals : forall p q, prop_Equals p q = true <-> p_code p = p_code q /\ p_data p = p_data q.
Proof.
  intros p q. unfold prop_Equals. destruct (Z.eqb_spec (p_code p) (p_code q)); cbn [negb]; [|split; [discriminate|intros (X & _); congruence]].
  destruct (bytes_eqb (p_data p) (p_data q)) eqn:E; cbn [negb].
  - apply bytes_eqb_eq in E. tauto.
  - split; [discriminate|]. intros (_ & X). apply bytes_eqb_eq in X. congruence.
Qed.
(** A copy keeps code and attributes but no data: it equals the property only if that
    has no data. *)
Theorem C106_copy : forall p, (prop_Equals p (prop_Copy p) = true <-> p_data p = []) /\
  (forall esv, IsAvailableService (prop_Copy p) esv = IsAvailableService p esv).
Proof. intros p. split; [rewrite C106_equals; cbn [prop_Copy p_code p_data]; tauto|reflexivity]. Qed.

(** The number of properties after any additions is the number of different codes. *)
Theorem C106_count : forall l, PropertyCount (fold_left AddPropertyMap l []) = Z.of_nat (length (nodup Z.eq_dec (map p_code l))).
Proof.
  intros l. unfold PropertyCount, len. f_equal. rewrite <- (map_length p_code).
  assert (G : forall l m, NoDup (map p_code m) -> NoDup (map p_code (fold_left AddPropertyMap l m)) /\
    forall c, In c (map p_code (fold_left AddPropertyMap l m)) <-> In c (map p_code m) \/ In c (map p_code l)).
  { clear. induction l as [|q l IH]; intros m N; [split; [exact N|intros c; cbn; tauto]|]. cbn [fold_left map].
    destruct (IH (AddPropertyMap m q) (Add_ok m q N)) as (A & B). split; [exact A|]. intros c. rewrite B, Add_codes.
    assert (K : contains (map p_code m) (p_code q) = true <-> In (p_code q) (map p_code m)).
    { unfold contains. rewrite existsb_exists. split; [intros (x & I & E); replace (p_code q) with x by lia; exact I|]. intros I. exists (p_code q). split; [exact I|lia]. }
    destruct (contains (map p_code m) (p_code q)); cbn [In].
    - pose proof (proj1 K eq_refl). split; [intuition|]. intros [X|[<-|X]]; tauto.
    - rewrite in_app_iff. cbn [In]. intuition. }
  destruct (G l [] (NoDup_nil _)) as (A & B).
  apply Permutation_length, NoDup_Permutation; [exact A|apply NoDup_nodup|]. intros c. rewrite B, nodup_In. cbn [map In]. tauto.
Qed.

(** The values of a property and of the protocol property made of it are the same;
    the integer of at most eight bytes is the number they spell, most significant
    first. *)
Theorem C106_values : forall p,
  AsByte (pp_data (ToProtocol p)) = prop_AsByte p /\ AsString (pp_data (ToProtocol p)) = prop_AsString p /\ AsInteger (pp_data (ToProtocol p)) = prop_AsInteger p /\
  (Forall is_byte (p_data p) -> p_data p <> [] -> (length (p_data p) <= 8)%nat -> prop_AsInteger p = Ok (fold_left (fun v b => v * 256 + b) (p_data p) 0)) /\
  (forall b, p_data p = [b] -> is_byte b -> prop_AsByte p = Ok b /\ prop_AsInteger p = Ok b).
Proof.
  intros p. unfold prop_AsByte, prop_AsString, prop_AsInteger, ToProtocol, AsByte, AsString, AsInteger. cbn [pp_data].
  split; [destruct (p_data p) as [|a [|b l]]; reflexivity|]. split; [destruct (p_data p) as [|a l]; [reflexivity|]; unfold len; cbn [length]; destruct (Z.eqb_spec (Z.of_nat (S (length l))) 0); [lia|reflexivity]|].
  split; [destruct (p_data p) as [|a l]; [reflexivity|]; unfold len; cbn [length]; destruct (Z.eqb_spec (Z.of_nat (S (length l))) 0); [lia|reflexivity]|].
  split.
  - intros B N L. destruct (Z.eqb_spec (len (p_data p)) 0) as [E|E]; [unfold len in E; destruct (p_data p); [congruence|cbn in E; lia]|]. f_equal.
    rewrite ByteToInteger_small by assumption. unfold be_value. generalize 0. generalize (p_data p). clear. intros l. induction l as [|b l IH]; intros z; [reflexivity|apply IH].
  - intros b -> B. split; [reflexivity|]. cbn [len length Z.of_nat]. destruct (Z.eqb_spec (len [b]) 0) as [E|_]; [discriminate E|]. f_equal.
    rewrite ByteToInteger_small; [reflexivity|constructor; [exact B|constructor]|cbn; lia].
Qed.

(** A request for any codes names them in order, without data. *)
Theorem C106_codes : forall tid seoj deoj esv cs, 0 <= tid < 65536 -> 0 <= seoj < 2 ^ 24 -> 0 <= deoj < 2 ^ 24 -> 0 <= esv < 256 -> Forall is_byte cs -> (length cs <= 255)%nat ->
  Bytes (AddProperties (SetESV (SetDEOJ (SetSEOJ (SetTID NewMessage tid) seoj) deoj) esv) (NewPPropsWithCodes cs)) =
  Ok ([0x10; 0x81; tid / 256; tid mod 256] ++ be3 seoj ++ be3 deoj ++ [esv; Z.of_nat (length cs)] ++ flat_map (fun c => [c; 0]) cs).
Proof.
  intros tid seoj deoj esv cs T S D E B L. pose proof (build_Bytes tid seoj deoj esv (NewPPropsWithCodes cs)) as X. unfold build in X.
  assert (M : map to_pair (NewPPropsWithCodes cs) = map (fun c => (c, [])) cs) by (unfold NewPPropsWithCodes; rewrite map_map; apply map_ext; reflexivity).
  rewrite M in X. rewrite X.
  - unfold wire_frame. rewrite map_length. cbn [be2 app]. do 9 f_equal. unfold be2, be3. cbn [app]. do 9 f_equal. clear. induction cs as [|c cs IH]; [reflexivity|]. cbn [map flat_map wire_prop fst snd length app]. rewrite IH. reflexivity.
  - repeat split; try assumption; try lia; [rewrite map_length; exact L|]. apply Forall_map. eapply Forall_impl; [|exact B]. intros c H. repeat split; cbn; try apply H; try lia. constructor.
Qed.

(** The two codes of a node profile. *)
Theorem C106_node_profile : forall o, IsNodeProfile o = true <-> Code o = 0x0EF001 \/ Code o = 0x0EF002.
Proof.
  intros o. unfold IsNodeProfile, isNodeProfileObjectCode, NodeProfileObjectCode, NodeProfileObjectReadOnlyCode.
  destruct (Z.eqb_spec (Code o) 0x0EF001); [tauto|]. destruct (Z.eqb_spec (Code o) 0x0EF002); [tauto|]. split; [discriminate|tauto].
Qed.

(** Switching the retries of a bind on and off. *)
Theorem C106_retry : forall c flag, let c' := SetBindRetryEnabled c flag in
  BindRetryEnabled c' = flag /\
  uc_tcpEnabled c' = uc_tcpEnabled c /\ uc_connectionTimeout c' = uc_connectionTimeout c /\ uc_requestTimeout c' = uc_requestTimeout c /\ uc_bindRetryWaitTime c' = uc_bindRetryWaitTime c.
Proof. intros c flag c'. unfold c'. split; [destruct flag; reflexivity|]. repeat split. Qed.

(** A read only property with three bytes; a list of properties with a code twice. *)
Example C106_example :
  (let p := mkProperty 0xE0 Required Prohibited Optional [1; 2; 3] in
   (IsReadOnly p, IsWriteOnly p, IsAnnounceRequired p, prop_AsInteger p, prop_AsByte p, prop_Equals p (prop_Copy p))) =
   (true, false, false, Ok 66051, Err ErrInvalid, false) /\
  PropertyCount (fold_left AddPropertyMap [newProperty 0x80 Required Optional Required; newProperty 0x81 Optional Optional Optional; newProperty 0x80 Optional Optional Optional] []) = 2 /\
  map (fun n => isNodeProfileObjectCode n) [0x0EF001; 0x0EF002; 0x0EF003; 0x013001] = [true; true; false; false].
Proof. vm_compute. repeat split. Qed.

Print Assumptions C105_version.
Print Assumptions C105_id.
Print Assumptions C105_manufacturer.
Print Assumptions C105_version_refuted.
Print Assumptions C105_id_refuted.
Print Assumptions C105_unique_refuted.
Print Assumptions C106_attributes.
Print Assumptions C106_consistent.
Print Assumptions C106_equals.
Print Assumptions C106_copy.
Print Assumptions C106_count.
Print Assumptions C106_values.
Print Assumptions C106_codes.
Print Assumptions C106_node_profile.
Print Assumptions C106_retry.

(** Theorems about local nodes: C11, C24 - C28. *)

From Verif Require Import Go GoFacts Encoding EncodingFacts Protocol Parser MessageFacts ParserFacts
  ProtocolFacts StdDB Property PropertyFacts Object ObjectFacts Spec Node NodeFacts.
From Verif Require PropsObject.
From Coq Require Import ZifyBool ZifyNat.
Local Open Scope Z_scope.

(** Histories are lists of [node_op] (file NodeFacts): AddDevice, AddProfile,
    SetManufacturerCode, SetPropertyData and AddProperty on an attached object,
    SendMessage, PostMessage over TCP, Start (with every outcome of the server)
    and Stop.  [node_op_ok] says that objects have three code bytes and byte
    data, and that messages have three byte object codes; every object and
    message the library makes is of that kind (next lemmas). *)

Lemma created_ok o : PropsObject.created o -> obj_ok o.
Proof.
  intros H. destruct H as [code o Hr H|code o Hr H|o H].
  - destruct (selects_dec code) as [[c Hc]|Hn]; [lia| |].
    + rewrite (NewDevice_known code c Hr Hc) in H. injection H as <-.
      split; [apply be3_code3, Z.mod_pos_bound; lia|].
      apply with_std_wf; [apply new_super_wf|apply class_props_wf, Hc].
    + rewrite NewDevice_unknown in H by assumption. discriminate.
  - destruct (selects_dec code) as [[c Hc]|Hn]; [lia| |].
    + rewrite (NewProfile_known code c Hr Hc) in H. injection H as <-.
      split; [apply be3_code3, Z.mod_pos_bound; lia|].
      apply with_std_wf; [apply new_super_wf|apply class_props_wf, Hc].
    + rewrite NewProfile_unknown in H by assumption. injection H as <-.
      split; [apply be3_code3, Z.mod_pos_bound; lia|]. apply new_super_wf.
  - rewrite NewNodeProfile_spec in H. injection H as <-.
    split; [apply code3_np|apply node_profile_props_wf].
Qed.

Lemma created_manufacturer o : PropsObject.created o -> HasProp (o_props o) 0x8A = true.
Proof.
  intros H. apply HasProp_attrs. apply (PropsObject.created_shape o H).
  apply PropsObject.state_codes_present. simpl. auto.
Qed.

Lemma built_shape ops : shape (built ops).
Proof. eapply represents_shape, built_represents. Qed.

Lemma decoded_shape data m : is_bytes data -> NewMessageWithBytes data = Ok m -> shape m.
Proof.
  intros H1 H2. destruct (decoded_represents data m H1 H2) as (c & H & _).
  eapply represents_shape; eauto.
Qed.

(** ** C11: transaction identifiers *)

(** Bytes 2 and 3 of a frame. *)
Definition wire_tid (b : list Z) : list Z := firstn 2 (skipn 2 b).

Lemma Bytes_tid m t : shape m -> 0 <= t < 65536 -> m_tid m = (t / 256, t mod 256) ->
  TID m = t /\ exists b, Bytes m = Ok b /\ wire_tid b = be2 t.
Proof.
  intros Hs Ht E. split.
  - unfold TID. rewrite E. cbn [fst snd]. rewrite Z.shiftl_mul_pow2 by lia. change (2 ^ 8) with 256.
    pose proof (Z.div_mod t 256). lia.
  - rewrite Bytes_general by assumption. eexists. split; [reflexivity|].
    unfold wire_tid, raw_header. rewrite E. reflexivity.
Qed.

(** The k-th message a node hands to its transport, over any history, carries
    TID k modulo 65536, in the message and on the wire. *)
Theorem C11_fresh_tids : forall ops, Forall node_op_ok ops ->
  exists nd, node_after ops = Ok nd /\
    forall i s, nth_error (n_sent nd) i = Some s ->
      TID (sent_message s) = (Z.of_nat i + 1) mod 65536 /\
      exists b, Bytes (sent_message s) = Ok b /\ wire_tid b = be2 ((Z.of_nat i + 1) mod 65536).
Proof.
  intros ops H. destruct (node_after_spec ops H) as (nd & E & _ & _ & _ & HT).
  exists nd. split; [assumption|]. intros i s Hs. destruct (HT i s Hs) as [H1 H2].
  apply Bytes_tid; [assumption| |assumption]. apply Z.mod_pos_bound. lia.
Qed.

(** From every node state, whatever its last TID: the new messages carry
    consecutive TIDs. *)
Theorem C11_any_start : forall nd ops nd',
  core_inv (core_of nd) -> 0 <= n_lastTID nd <= 65535 -> Forall node_op_ok ops ->
  for_each ops node_step nd = Ok nd' ->
  exists new, n_sent nd' = n_sent nd ++ new /\
    forall i s, nth_error new i = Some s ->
      TID (sent_message s) = (n_lastTID nd + Z.of_nat i + 1) mod 65536 /\
      exists b, Bytes (sent_message s) = Ok b /\
                wire_tid b = be2 ((n_lastTID nd + Z.of_nat i + 1) mod 65536).
Proof.
  intros nd ops nd' Hi Ht Hok E.
  destruct (history_run ops nd Hi Hok Ht) as (nd2 & E2 & _ & _ & (new & S & _ & R)).
  assert (nd2 = nd') by congruence. subst nd2. exists new. split; [assumption|].
  intros i s Hs. destruct (R i s Hs) as [H1 H2].
  apply Bytes_tid; [assumption| |assumption]. apply Z.mod_pos_bound. lia.
Qed.

(** So any 65536 consecutive messages carry pairwise different TIDs. *)
Theorem C11_distinct : forall ops nd i j si sj,
  Forall node_op_ok ops -> node_after ops = Ok nd ->
  nth_error (n_sent nd) i = Some si -> nth_error (n_sent nd) j = Some sj ->
  (i < j)%nat -> Z.of_nat j < Z.of_nat i + 65536 ->
  TID (sent_message si) <> TID (sent_message sj).
Proof.
  intros ops nd i j si sj Hok E Hi Hj H1 H2.
  destruct (C11_fresh_tids ops Hok) as (nd' & E' & HT).
  assert (nd' = nd) by congruence. subst nd'.
  destruct (HT i si Hi) as [-> _]. destruct (HT j sj Hj) as [-> _].
  intros C. apply (f_equal (fun x => (x - (Z.of_nat i + 1)) mod 65536)) in C. revert C.
  rewrite Zminus_mod_idemp_l, Zminus_mod_idemp_l, Z.sub_diag.
  replace (Z.of_nat j + 1 - (Z.of_nat i + 1)) with (Z.of_nat j - Z.of_nat i) by lia.
  rewrite (Z.mod_small (Z.of_nat j - Z.of_nat i)) by lia. change (0 mod 65536) with 0. lia.
Qed.

(** Objects for the examples. *)
Definition ex_dev : object :=
  mkObject [0x02; 0x90; 0x01]
    [mkProperty 0x80 Required Required Required [0x30]; mkProperty 0x8A Required Prohibited Prohibited [];
     mkProperty 0xB0 Required Optional Prohibited [0x32]].
Definition ex_dev2 : object :=
  mkObject [0x01; 0x30; 0x01] [mkProperty 0x80 Required Required Required [0x30]; mkProperty 0x8A Required Prohibited Prohibited []].

Lemma ex_dev_ok : obj_ok ex_dev /\ obj_ok ex_dev2.
Proof.
  unfold obj_ok, code3, wf, props_ok, prop_wf, is_bytes, is_byte. cbn.
  repeat split; repeat (constructor; cbn; try lia); intuition (try lia).
Qed.

Definition ex_history : list node_op :=
  [NAddDevice ex_dev; NStart None; NSetData (DevRef 0) 0x80 [0x31]; NSend NewAddress (built [OSetESV 0x62])].

(** Two announcements and a request. *)
Example C11_example :
  (nd <- node_after ex_history ;; Ok (map (fun s => TID (sent_message s)) (n_sent nd))) = Ok [1; 2; 3].
Proof. vm_compute. reflexivity. Qed.

(** The counter wraps from 65535 to 0. *)
Example C11_wrap_example :
  let nd := mkNode [ex_dev] [mkObject np_codes []] 0 65534 true NewAddress true [] in
  map (fun s => TID (sent_message s))
    (n_sent (fst (SendMessage (fst (SendMessage (fst (SendMessage nd NewAddress NewMessage)) NewAddress NewMessage)) NewAddress NewMessage)))
  = [65535; 0; 1].
Proof. reflexivity. Qed.

(** ** C24: the node profile describes the node *)

Definition added_devices (ops : list node_op) : list (list Z) :=
  flat_map (fun op => match op with NAddDevice o => [o_codes o] | _ => [] end) ops.
Definition added_profiles (ops : list node_op) : list (list Z) :=
  flat_map (fun op => match op with NAddProfile o => [o_codes o] | _ => [] end) ops.

(** The count byte of a list; 255 stands for every number above 254. *)
Definition count_byte (n : nat) : Z := if Nat.leb n 254 then Z.of_nat n else 255.

Lemma count_list_count {A} (l : list A) : list_count (len l) = count_byte (length l).
Proof.
  unfold list_count, count_byte, len. destruct (Z.of_nat (length l) <=? 255 - 1) eqn:E.
  - destruct (Nat.leb (length l) 254) eqn:E2; [|apply Nat.leb_gt in E2; lia].
    unfold u8. apply Z.mod_small. lia.
  - destruct (Nat.leb (length l) 254) eqn:E2; [apply Nat.leb_le in E2; lia|reflexivity].
Qed.

Lemma history_state (P : node_op -> Prop) (Q : core -> Prop) ops :
  (forall op k, core_inv k -> node_op_ok op -> P op -> Q k -> Q (core_step op k)) -> Q initial_core ->
  Forall node_op_ok ops -> Forall P ops ->
  exists nd, node_after ops = Ok nd /\ core_inv (core_of nd) /\ Q (core_of nd) /\
    map o_codes (n_devices nd) = added_devices ops /\
    map o_codes (n_profiles nd) = np_codes :: added_profiles ops.
Proof.
  intros HS H0 Hok HP. destruct (node_after_spec ops Hok) as (nd & E & Hi & Ec & _).
  exists nd. split; [assumption|]. split; [assumption|]. split.
  - rewrite Ec. apply (history_core P Q); auto using core_step_inv, initial_inv.
  - destruct (history_codes ops initial_core) as [A B]. cbv zeta in A, B. rewrite <- Ec in A, B.
    split; [exact A|exact B].
Qed.

Lemma lists_state ops : Forall node_op_ok ops -> Forall keeps_lists ops ->
  exists nd np rest, node_after ops = Ok nd /\ core_inv (core_of nd) /\
    n_profiles nd = np :: rest /\ o_codes np = np_codes /\
    np_lists (n_devices nd) (n_profiles nd) np /\
    map o_codes (n_devices nd) = added_devices ops /\
    map o_codes (n_profiles nd) = np_codes :: added_profiles ops.
Proof.
  intros H1 H2.
  destruct (history_state keeps_lists lists_ok ops) as (nd & E & Hi & (np & rest & Ep & HL) & Ed & Eq);
    auto using core_step_lists, initial_lists.
  exists nd, np, rest. cbn [core_of k_profs k_devs] in Ep, HL.
  repeat (split; [assumption|]). split; [|auto]. rewrite Ep in Eq. cbn [map] in Eq. congruence.
Qed.

(** For every history in which the application leaves the five list properties
    of the node profile alone ([keeps_lists]): the node profile is found, and
    its five list properties are exactly those of the devices and profiles
    added, in order.  The node profile itself is the first profile. *)
Theorem C24_node_profile : forall ops, Forall node_op_ok ops -> Forall keeps_lists ops ->
  exists nd r o classes,
    node_after ops = Ok nd /\ NodeProfile nd = Some r /\ obj_at nd r = Some o /\ Code o = 0x0EF001 /\
    let data c := LookupPropertyData (o_props o) c in
    let devices := added_devices ops in
    NoDup classes /\
    (forall c, In c classes <->
       exists k, In k (devices ++ [0x0E; 0xF0; 0x01] :: added_profiles ops) /\ c = firstn 2 k) /\
    (Z.of_nat (length devices) < 2 ^ 24 -> data 0xD3 = Ok (be3 (Z.of_nat (length devices)))) /\
    (Z.of_nat (length classes) < 65536 -> data 0xD4 = Ok (be2 (Z.of_nat (length classes)))) /\
    data 0xD5 = Ok (count_byte (length devices) :: concat devices) /\
    data 0xD6 = Ok (count_byte (length devices) :: concat devices) /\
    data 0xD7 = Ok (count_byte (length classes) :: concat classes).
Proof.
  intros ops H1 H2. destruct (lists_state ops H1 H2) as (nd & np & rest & E & Hi & Ep & Hc & HL & Ed & Eq).
  exists nd, (ProfRef 0), np, (classes_of (n_devices nd) (n_profiles nd)).
  split; [assumption|]. split; [eapply NodeProfile_first; eassumption|].
  split; [cbn [obj_at]; rewrite Ep; reflexivity|]. split; [apply np_Code; assumption|]. cbv zeta.
  destruct (classes_of_spec (n_devices nd) (n_profiles nd)) as [C1 C2]. split; [assumption|].
  assert (El : length (added_devices ops) = length (n_devices nd)) by (rewrite <- Ed, map_length; reflexivity).
  destruct HL as (L1 & L2 & L3 & L4 & L5).
  assert (HD : forall c d, dat np c = Some d -> LookupPropertyData (o_props np) c = Ok d).
  { intros c d. unfold dat, LookupPropertyData. destruct (LookupProperty (o_props np) c); cbn; congruence. }
  split.
  { intros c. rewrite C2. split.
    - intros (o & Ho & Hcl). exists (o_codes o). split; [|symmetry; exact Hcl].
      change [0x0E; 0xF0; 0x01] with np_codes. rewrite <- Eq, <- Ed, <- map_app. apply in_map. assumption.
    - intros (k & Hk & ->). change [0x0E; 0xF0; 0x01] with np_codes in Hk.
      rewrite <- Eq, <- Ed, <- map_app in Hk. apply in_map_iff in Hk as (o & <- & Ho). exists o. auto. }
  rewrite El. split.
  { intros Hn. apply HD. rewrite L1. f_equal. apply IntegerToByte_3. unfold len. lia. }
  split.
  { intros Hn. apply HD. rewrite L2. f_equal. rewrite !IntegerToByte_S. unfold len, u64, be2.
    set (n := length (classes_of (n_devices nd) (n_profiles nd))) in *.
    rewrite (Z.mod_small (Z.of_nat n)) by lia. change (256 ^ Z.of_nat 1) with 256. change (256 ^ Z.of_nat 0) with 1.
    rewrite Z.div_1_r. rewrite (Z.mod_small (Z.of_nat n / 256)); [reflexivity|].
    split; [apply Z.div_pos; lia|apply Z.div_lt_upper_bound; lia]. }
  assert (EI : instance_bytes (n_devices nd) = count_byte (length (n_devices nd)) :: concat (added_devices ops)).
  { unfold instance_bytes. rewrite count_list_count, flat_map_concat_map, Ed. reflexivity. }
  rewrite <- EI. split; [apply HD; assumption|]. split; [apply HD; assumption|].
  apply HD. rewrite L5, count_list_count. reflexivity.
Qed.

(** The number of classes never exceeds the number of objects, so with fewer
    than 65536 objects the class count is exact. *)
Example C24_example :
  (nd <- node_after [NAddDevice ex_dev; NAddDevice ex_dev2; NAddDevice ex_dev; NSetManufacturer 5; NStart None] ;;
   match obj_at nd (ProfRef 0) with
   | None => Panic
   | Some o => Ok (LookupPropertyInteger (o_props o) 0xD3, LookupPropertyInteger (o_props o) 0xD4,
                   LookupPropertyData (o_props o) 0xD5, LookupPropertyData (o_props o) 0xD7)
   end)
  = Ok (Ok 3, Ok 3, Ok [3; 2; 0x90; 1; 1; 0x30; 1; 2; 0x90; 1], Ok [3; 2; 0x90; 1; 0x30; 0x0E; 0xF0]).
Proof. vm_compute. reflexivity. Qed.

(** ** C25: object lookup *)

(** The i-th object is the first one with the code. *)
Definition first_with (code : Z) (objs : list object) (i : nat) : Prop :=
  exists o, nth_error objs i = Some o /\ Code o = code /\
    forall j p, (j < i)%nat -> nth_error objs j = Some p -> Code p <> code.

Definition none_with (code : Z) (objs : list object) : Prop := forall o, In o objs -> Code o <> code.

Theorem C25_lookup : forall nd code,
  match LookupObject nd code with
  | Some (DevRef i) => first_with code (n_devices nd) i
  | Some (ProfRef i) => none_with code (n_devices nd) /\ first_with code (n_profiles nd) i
  | None => none_with code (n_devices nd) /\ none_with code (n_profiles nd)
  end.
Proof.
  intros nd code. unfold LookupObject, LookupDevice, LookupProfile.
  pose proof (find_code_spec (n_devices nd) code) as HD.
  pose proof (find_code_spec (n_profiles nd) code) as HP.
  destruct (find_code (n_devices nd) code) as [i|]; cbn [option_map].
  - exact HD.
  - destruct (find_code (n_profiles nd) code) as [i|]; cbn [option_map]; auto.
Qed.

(** The object a code denotes is unique: the three answers exclude each other. *)
Theorem C25_lookup_device : forall nd code i, first_with code (n_devices nd) i ->
  LookupObject nd code = Some (DevRef i) /\ LookupDevice nd code = Some (DevRef i).
Proof.
  intros nd code i (o & H1 & H2 & H3). unfold LookupObject, LookupDevice.
  pose proof (find_code_spec (n_devices nd) code) as HD.
  destruct (find_code (n_devices nd) code) as [k|]; cbn [option_map].
  - destruct HD as (o' & K1 & K2 & K3).
    destruct (Nat.lt_trichotomy i k) as [L|[->|L]]; [|auto|].
    + exfalso. apply (K3 i o L H1 H2).
    + exfalso. apply (H3 k o' L K1 K2).
  - exfalso. apply (HD o); [eapply nth_error_In; eauto|assumption].
Qed.

(** Whatever happens to the node later, the device a code denotes stays the
    same device. *)
Theorem C25_lookup_stable : forall ops nd nd' code i,
  core_inv (core_of nd) -> 0 <= n_lastTID nd <= 65535 -> Forall node_op_ok ops ->
  for_each ops node_step nd = Ok nd' ->
  LookupDevice nd code = Some (DevRef i) ->
  LookupDevice nd' code = Some (DevRef i) /\ LookupObject nd' code = Some (DevRef i).
Proof.
  intros ops nd nd' code i Hi Ht Hok E HL.
  destruct (history_run ops nd Hi Hok Ht) as (nd2 & E2 & _ & Ec & _).
  assert (nd2 = nd') by congruence. subst nd2.
  destruct (history_codes ops (core_of nd)) as [A _]. cbv zeta in A. rewrite <- Ec in A.
  cbn [core_of k_devs] in A.
  assert (HF : forall l l' more, map o_codes l' = map o_codes l ++ more -> forall j,
    find_code l code = Some j -> find_code l' code = Some j).
  { clear. induction l as [|o l IH]; intros l' more H j Hj; [discriminate|].
    destruct l' as [|o' l']; [discriminate|]. cbn [map app] in H. injection H as H1 H2.
    cbn [find_code] in *. unfold Code in *. rewrite H1. destruct (ByteToInteger (o_codes o) =? code); [assumption|].
    destruct (find_code l code) as [n|] eqn:En; [|discriminate].
    rewrite (IH l' more H2 n eq_refl). assumption. }
  unfold LookupDevice in HL. destruct (find_code (n_devices nd) code) as [j|] eqn:Ej; [|discriminate].
  cbn [option_map] in HL. injection HL as ->.
  unfold LookupObject, LookupDevice. rewrite (HF _ _ _ A i Ej). auto.
Qed.

Example C25_example :
  let nd := mkNode [ex_dev; ex_dev2; ex_dev] [mkObject np_codes []] 0 0 true NewAddress true [] in
  LookupObject nd 0x029001 = Some (DevRef 0) /\ LookupObject nd 0x013001 = Some (DevRef 1) /\
  LookupObject nd 0x0EF001 = Some (ProfRef 0) /\ LookupObject nd 0x013002 = None.
Proof. repeat split. Qed.

(** ** C26: the manufacturer code *)

(** The code last set, 0xFFFFFF (experimental) before that. *)
Definition last_manufacturer (ops : list node_op) : Z :=
  fold_left (fun acc op => match op with NSetManufacturer c => c | _ => acc end) ops 0xFFFFFF.

Theorem C26_manufacturer : forall ops, Forall node_op_ok ops -> Forall keeps_manufacturer ops ->
  0 <= last_manufacturer ops < 2 ^ 64 ->
  exists nd, node_after ops = Ok nd /\
    forall o, In o (Objects nd) ->
      ManufacturerCode o = Ok (last_manufacturer ops mod 2 ^ 24).
Proof.
  intros ops H1 H2 Hr.
  destruct (node_after_spec ops H1) as (nd & E & Hi & Ec & _).
  exists nd. split; [assumption|].
  assert (HM : man_ok (core_of nd)).
  { rewrite Ec. apply (history_core keeps_manufacturer man_ok); auto using core_step_inv, initial_inv, initial_man.
    intros. apply core_step_man; assumption. }
  assert (EM : n_manufacturer nd = last_manufacturer ops).
  { change (n_manufacturer nd) with (k_man (core_of nd)). rewrite Ec. unfold last_manufacturer.
    change 16777215 with (k_man initial_core). generalize initial_core. clear.
    induction ops as [|op ops IH]; intros k; [reflexivity|]. cbn [fold_left]. rewrite IH. f_equal.
    destruct op; try reflexivity; [destruct r; reflexivity|destruct r; reflexivity|destruct server; reflexivity]. }
  destruct HM as [D P]. cbn [core_of k_devs k_profs k_man] in D, P. rewrite EM in D, P.
  intros o Ho. assert (HO : has_man (last_manufacturer ops) o).
  { unfold Objects in Ho. apply in_app_or in Ho as [Ho|Ho];
      [rewrite Forall_forall in D; auto|rewrite Forall_forall in P; auto]. }
  unfold has_man, dat in HO. unfold ManufacturerCode, LookupPropertyInteger, ObjectManufacturerCode.
  destruct (LookupProperty (o_props o) 0x8A) as [p|]; [|discriminate HO]. cbn [option_map] in HO.
  injection HO as HO. unfold prop_AsInteger. rewrite HO. unfold len. rewrite IntegerToByte_length.
  cbn [Z.of_nat Pos.of_succ_nat Pos.succ Z.eqb Pos.eqb].
  rewrite ByteToInteger_IntegerToByte by assumption. reflexivity.
Qed.

(** [keeps_manufacturer] asks that added objects have the property 0x8A; all
    objects made by the constructors do. *)
Theorem C26_created : forall o, PropsObject.created o -> obj_ok o /\ HasProp (o_props o) 0x8A = true.
Proof. intros o H. split; [apply created_ok|apply created_manufacturer]; assumption. Qed.

Example C26_example :
  (nd <- node_after [NAddDevice ex_dev; NSetManufacturer 0x77; NAddDevice ex_dev2] ;;
   Ok (map ManufacturerCode (Objects nd))) = Ok [Ok 0x77; Ok 0x77; Ok 0x77].
Proof. vm_compute. reflexivity. Qed.

(** ** C27: status change announcements *)

(** A notification of one property from object [seoj] to the node profile
    class: the message fields, and the wire bytes when the data fits. *)
Definition notification_of (m : message) (tid seoj code : Z) (data : list Z) : Prop :=
  m_esv m = 0x73 /\ TID m = tid /\ SEOJ m = seoj /\ DEOJ m = 0x0EF001 /\
  m_ep m = [mkPProp code data] /\ OPC m = 1 /\
  ((length data <= 255)%nat -> Bytes m = Ok (wire_frame tid seoj 0x0EF001 0x73 [(code, data)])).

Lemma notification_built tid seoj code data :
  0 <= tid < 65536 -> 0 <= seoj < 2 ^ 24 -> is_byte code -> is_bytes data ->
  notification_of
    (SetDEOJ (SetTID (AddProperty (SetSEOJ (SetESV NewMessage ESVNotification) seoj) (mkPProp code data)) tid) 0x0EF001)
    tid seoj code data.
Proof.
  intros H1 H2 H3 H4.
  set (ops := [OSetESV 0x73; OSetSEOJ seoj; OAddProperty code data; OSetTID tid; OSetDEOJ 0x0EF001]).
  match goal with |- notification_of ?x _ _ _ _ => change x with (built ops); set (m := built ops) end.
  assert (HR : represents m (mkContent tid seoj 0x0EF001 0x73 [(code, data)])) by apply (built_represents ops).
  pose proof HR as (R1 & R2 & R3 & R4 & R5 & R6 & R7 & R8). cbn [c_tid c_seoj c_deoj c_esv c_props] in *.
  unfold notification_of. split; [assumption|].
  split. { unfold TID. rewrite <- R3. rewrite SetTID_TID by lia. cbn [fst snd].
           rewrite Z.shiftl_mul_pow2 by lia. change (2 ^ 8) with 256. pose proof (Z.div_mod tid 256). lia. }
  split. { unfold SEOJ. rewrite R4, IntegerToByte_3 by assumption. apply ByteToInteger_be3. assumption. }
  split. { unfold DEOJ. rewrite R5. reflexivity. }
  split; [assumption|]. split; [exact R8|].
  intros Hl. apply (represents_Bytes m _ HR).
  split; [assumption|]. split; [assumption|]. split; [cbn; lia|]. split; [cbn; lia|].
  split; [cbn; lia|]. constructor; [|constructor]. split; [exact H3|]. split; [exact Hl|exact H4].
Qed.

Lemma Code_range o : code3 o -> 0 <= Code o < 2 ^ 24.
Proof.
  intros [Hl Hb]. unfold Code. destruct (o_codes o) as [|a [|b [|c [|]]]]; try discriminate.
  inversion Hb as [|? ? Ha Hb1]; subst. inversion Hb1 as [|? ? Hb2 Hc]; subst. inversion Hc as [|? ? Hc1 _]; subst.
  rewrite ByteToInteger_3 by assumption. unfold is_byte in *. lia.
Qed.

Theorem C27_announced : forall nd r o code p d,
  n_running nd = true -> 0 <= n_lastTID nd <= 65535 ->
  obj_at nd r = Some o -> obj_ok o -> LookupProperty (o_props o) code = Some p -> is_bytes d ->
  p_anno p <> Prohibited ->
  exists m, let '(nd', e) := on_object nd r (fun o => SetPropertyData o code d) in
    e = None /\ n_sent nd' = n_sent nd ++ [Multicast m] /\
    notification_of m ((n_lastTID nd + 1) mod 65536) (Code o) code d.
Proof.
  intros nd r o code p d Hr Ht Ho [H3 Hw] Hp Hd Ha.
  unfold on_object. rewrite Ho. unfold SetPropertyData, SetPropertyDataMap, lift_props. rewrite Hp.
  unfold announcement, IsAnnounceable. cbn [with_data p_anno].
  assert (Ea : attr_IsProhibited (p_anno p) = false) by (destruct (p_anno p); reflexivity || congruence).
  rewrite Ea. cbn [negb]. unfold commit, announce_all. cbn [fold_left].
  match goal with |- context [prop_Announce (Some ?n) ?c ?q] =>
    assert (HP : prop_Announce (Some n) c q =
      (Some (hand_over (with_lastTID n ((n_lastTID nd + 1) mod 65536))
         (Multicast (SetDEOJ (SetTID (AddProperty (SetSEOJ (SetESV NewMessage ESVNotification) c) q)
            ((n_lastTID nd + 1) mod 65536)) 0x0EF001))), None))
  end.
  { unfold prop_Announce. replace (n_running _) with true by (destruct r; symmetry; exact Hr). cbn [negb].
    unfold AnnounceProperty. rewrite AnnounceMessage_run by (destruct r; assumption).
    destruct r; reflexivity. }
  rewrite HP. cbn [fst]. eexists. split; [reflexivity|]. split; [destruct r; reflexivity|].
  assert (Ec : ToProtocol (with_data p d) = mkPProp code d)
    by (unfold ToProtocol, with_data; cbn [p_code p_data]; rewrite (Lookup_code _ _ _ Hp); reflexivity).
  rewrite Ec. apply notification_built.
  - apply Z.mod_pos_bound. lia.
  - apply (Code_range o). assumption.
  - rewrite <- (Lookup_code _ _ _ Hp). apply (wf_lookup _ _ _ Hw Hp).
  - assumption.
Qed.

(** Nothing is sent when the property is not announceable, when the node is
    stopped, or when the object has no such property. *)
Theorem C27_not_announced : forall nd r o code d,
  obj_at nd r = Some o ->
  (forall p, LookupProperty (o_props o) code = Some p -> p_anno p = Prohibited) \/ n_running nd = false ->
  let nd' := fst (on_object nd r (fun o => SetPropertyData o code d)) in
  n_sent nd' = n_sent nd /\ n_lastTID nd' = n_lastTID nd.
Proof.
  intros nd r o code d Ho H nd'. subst nd'. unfold on_object. rewrite Ho.
  unfold SetPropertyData, SetPropertyDataMap, lift_props.
  destruct (LookupProperty (o_props o) code) as [p|]; [|cbn [fst]; unfold commit; cbn; destruct r; auto].
  cbn [fst]. unfold commit, announcement, IsAnnounceable. cbn [with_data p_anno].
  destruct H as [H|H].
  - rewrite (H p eq_refl). cbn. destruct r; auto.
  - destruct (attr_IsProhibited (p_anno p)); cbn [negb announce_all fold_left]; [destruct r; auto|].
    unfold announce_all. cbn [fold_left]. unfold prop_Announce.
    replace (n_running _) with false by (destruct r; symmetry; exact H). destruct r; auto.
Qed.

(** An object that is not attached to a node has nowhere to send to: its setter
    only changes the object ([SetPropertyData] has no node argument), and
    Announce reports an error. *)
Theorem C27_unattached : forall code p, prop_Announce None code p = (None, Some ErrInvalid).
Proof. reflexivity. Qed.

Example C27_example :
  let nd := mkNode [ex_dev] [mkObject np_codes []] 0 7 true NewAddress true [] in
  map (fun s => Bytes (sent_message s)) (n_sent (fst (on_object nd (DevRef 0) (fun o => SetPropertyData o 0x80 [0x31]))))
    = [Ok [0x10; 0x81; 0; 8; 2; 0x90; 1; 0x0E; 0xF0; 1; 0x73; 1; 0x80; 1; 0x31]] /\
  n_sent (fst (on_object nd (DevRef 0) (fun o => SetPropertyData o 0xB0 [0x31]))) = [] /\
  n_sent (fst (on_object (with_running nd false) (DevRef 0) (fun o => SetPropertyData o 0x80 [0x31]))) = [].
Proof. repeat split. Qed.

(** ** C28: the start-up announcement *)

(** The full claim, for a history [ops]: starting the node multicasts exactly
    one message, and its bytes decode to a notification of the node profile
    with the instance list of the devices added. *)
Definition startup_announcement (ops : list node_op) : Prop :=
  exists nd m b r,
    node_after ops = Ok nd /\ snd (Node_Start nd None) = None /\
    n_sent (fst (Node_Start nd None)) = n_sent nd ++ [Multicast m] /\
    Bytes m = Ok b /\ NewMessageWithBytes b = Ok r /\
    m_esv r = 0x73 /\ SEOJ r = 0x0EF001 /\ DEOJ r = 0x0EF001 /\
    m_ep r = [mkPProp 0xD5 (count_byte (length (added_devices ops)) :: concat (added_devices ops))].

Lemma np_code_range : 0 <= 0x0EF001 < 2 ^ 24.
Proof. lia. Qed.

Lemma byte_D5 : is_byte 0xD5.
Proof. unfold is_byte. lia. Qed.

Lemma header_bytes t : 0 <= t <= 65535 ->
  is_bytes [16; 129; t / 256; t mod 256; 14; 240; 1; 14; 240; 1; 115; 1].
Proof.
  intros Ht.
  assert (A : is_byte (t / 256)).
  { unfold is_byte. split; [apply Z.div_pos; lia|apply Z.div_lt_upper_bound; lia]. }
  assert (B : is_byte (t mod 256)) by (apply Z.mod_pos_bound; lia). clear Ht.
  repeat (apply Forall_cons; [first [exact A|exact B|clear; unfold is_byte; lia]|]). apply Forall_nil.
Qed.

Lemma concat3 (l : list (list Z)) : Forall (fun k => length k = 3%nat) l -> length (concat l) = (3 * length l)%nat.
Proof.
  induction 1 as [|k l Hk Hl IH]; [reflexivity|]. cbn [concat length]. rewrite app_length, Hk, IH. lia.
Qed.

Lemma startup_message ops : Forall node_op_ok ops -> Forall keeps_lists ops ->
  exists nd m, node_after ops = Ok nd /\ snd (Node_Start nd None) = None /\
    n_sent (fst (Node_Start nd None)) = n_sent nd ++ [Multicast m] /\ shape m /\
    is_bytes (count_byte (length (added_devices ops)) :: concat (added_devices ops)) /\
    notification_of m ((n_lastTID nd + 1) mod 65536) 0x0EF001 0xD5
      (count_byte (length (added_devices ops)) :: concat (added_devices ops)) /\
    m_ehd1 m = 0x10 /\ m_ehd2 m = 0x81 /\ is_bytes (raw_header m).
Proof.
  intros H1 H2. destruct (lists_state ops H1 H2) as (nd & np & rest & E & Hi & Ep & Hc & HL & Ed & Eq).
  destruct (node_after_spec ops H1) as (nd1 & E1 & _ & _ & ET & _).
  assert (nd1 = nd) by congruence. subst nd1.
  assert (Ht : tid_ok nd). { unfold tid_ok. rewrite ET. apply mod_tid. }
  destruct HL as (_ & _ & L3 & _).
  assert (EI : instance_bytes (n_devices nd) = count_byte (length (added_devices ops)) :: concat (added_devices ops)).
  { unfold instance_bytes. rewrite count_list_count, flat_map_concat_map, <- Ed, map_length. reflexivity. }
  assert (HB : is_bytes (instance_bytes (n_devices nd))) by (apply instance_bytes_ok, Hi).
  rewrite EI in *. unfold dat in L3.
  destruct (LookupProperty (o_props np) 0xD5) as [p|] eqn:EL; [|discriminate L3]. cbn [option_map] in L3.
  injection L3 as L3.
  exists nd. unfold Node_Start, Announce.
  rewrite (NodeProfile_first (with_running nd true) np rest Ep Hc). cbn [obj_at].
  replace (nth_error (n_profiles (with_running nd true)) 0) with (Some np)
    by (change (n_profiles (with_running nd true)) with (n_profiles nd); rewrite Ep; reflexivity).
  unfold NodeProfileInstanceListNotification. rewrite EL. unfold AnnounceProperty.
  rewrite AnnounceMessage_run by (assumption || reflexivity).
  eexists. split; [assumption|]. split; [reflexivity|]. split; [reflexivity|].
  unfold ToProtocol. rewrite (Lookup_code _ _ _ EL), L3, (np_Code np Hc).
  change (n_lastTID (with_running nd true)) with (n_lastTID nd).
  pose proof (notification_built ((n_lastTID nd + 1) mod 65536) 0x0EF001 0xD5 _
    (Z.mod_pos_bound _ _ (eq_refl : 0 < 65536)) np_code_range byte_D5 HB) as HN.
  split; [split; reflexivity|]. split; [assumption|]. split; [exact HN|].
  split; [reflexivity|]. split; [reflexivity|].
  match goal with |- is_bytes (raw_header ?M) =>
    assert (ER : raw_header M =
      [16; 129; fst (m_tid (SetTID NewMessage ((n_lastTID nd + 1) mod 65536)));
       snd (m_tid (SetTID NewMessage ((n_lastTID nd + 1) mod 65536))); 14; 240; 1; 14; 240; 1; 115; 1])
      by reflexivity
  end.
  rewrite ER, SetTID_TID by apply mod_tid. cbn [fst snd].
  apply header_bytes, mod_tid.
Qed.

Theorem C28_startup_partial : forall ops, Forall node_op_ok ops -> Forall keeps_lists ops ->
  (length (added_devices ops) <= 84)%nat -> startup_announcement ops.
Proof.
  intros ops H1 H2 Hn.
  destruct (startup_message ops H1 H2) as (nd & m & E & E1 & E2 & Hs & HB & HN & _).
  destruct HN as (_ & _ & _ & _ & _ & _ & HW).
  assert (H3 : Forall (fun k => length k = 3%nat) (added_devices ops)).
  { destruct (lists_state ops H1 H2) as (nd' & _ & _ & _ & Hi & _ & _ & _ & Ed & _).
    rewrite <- Ed. apply Forall_map. destruct Hi as [Hi _]. eapply Forall_impl; [|exact Hi].
    intros o [[Ho _] _]. exact Ho. }
  assert (HL : (length (count_byte (length (added_devices ops)) :: concat (added_devices ops)) <= 255)%nat).
  { cbn [length]. rewrite concat3 by assumption. lia. }
  specialize (HW HL).
  set (l := count_byte (length (added_devices ops)) :: concat (added_devices ops)) in *.
  destruct (parse_wire ((n_lastTID nd + 1) mod 65536) 0x0EF001 0x0EF001 0x73 [(0xD5, l)] []) as
    (r & Er & R1 & R2 & R3 & R4 & R5 & R6 & _).
  { split; [apply Z.mod_pos_bound; lia|]. split; [lia|]. split; [lia|]. split; [lia|].
    split; [cbn; lia|]. constructor; [|constructor]. split; [cbn; lia|]. split; [exact HL|exact HB]. }
  { constructor. }
  rewrite app_nil_r in Er.
  exists nd, m, (wire_frame ((n_lastTID nd + 1) mod 65536) 0x0EF001 0x0EF001 0x73 [(0xD5, l)]), r.
  auto 12.
Qed.

Lemma split_props_short k : forall d, is_bytes d -> Forall (fun p => (length (snd p) <= 255)%nat) (split_props k d).
Proof.
  induction k as [|k IH]; intros d Hd; [constructor|]. cbn [split_props].
  destruct d as [|c [|n rest]].
  - constructor; [cbn; lia|]. apply IH. assumption.
  - constructor; [cbn; lia|]. apply IH. constructor.
  - inversion Hd as [|? ? Hc Hd1]; subst. inversion Hd1 as [|? ? Hn Hr]; subst.
    destruct (n <=? Z.of_nat (length rest)).
    + constructor; [cbn [snd]; rewrite firstn_length; unfold is_byte in Hn; lia|].
      apply IH. rewrite <- (firstn_skipn (Z.to_nat n) rest) in Hr. apply Forall_app in Hr. apply Hr.
    + constructor; [cbn; lia|]. apply IH. assumption.
Qed.

(** With 85 devices or more the claim fails, for every history: the instance
    list has more than 255 bytes, its length byte wraps, and no property of the
    decoded message carries it. *)
Theorem C28_startup_refuted : forall ops, Forall node_op_ok ops -> Forall keeps_lists ops ->
  (85 <= length (added_devices ops))%nat ->
  ~ startup_announcement ops /\
  exists nd m b r,
    node_after ops = Ok nd /\ n_sent (fst (Node_Start nd None)) = n_sent nd ++ [Multicast m] /\
    Bytes m = Ok b /\ NewMessageWithBytes b = Ok r /\
    forall p, In p (m_ep r) -> (length (pp_data p) <= 255)%nat.
Proof.
  intros ops H1 H2 Hn.
  assert (G : exists nd m b r,
    node_after ops = Ok nd /\ n_sent (fst (Node_Start nd None)) = n_sent nd ++ [Multicast m] /\
    Bytes m = Ok b /\ NewMessageWithBytes b = Ok r /\
    forall p, In p (m_ep r) -> (length (pp_data p) <= 255)%nat).
  { destruct (startup_message ops H1 H2) as (nd & m & E & E1 & E2 & Hs & HB & HN & Hh1 & Hh2 & Hh).
    exists nd, m. pose proof (Bytes_general m Hs) as HBy.
    set (area := flat_map raw_prop (visited m)) in *.
    assert (HA : is_bytes area).
    { unfold area, visited. destruct HN as (_ & _ & _ & _ & He & Ho & _). rewrite He.
      unfold OPC in Ho. rewrite Ho. match goal with |- context [firstn (Z.to_nat 1) [?q]] => change (firstn (Z.to_nat 1) [q]) with [q] end.
      unfold raw_prop. cbn [flat_map pp_code pp_data app]. rewrite app_nil_r.
      constructor; [apply u8_byte|]. constructor; [apply u8_byte|exact HB]. }
    unfold raw_header in *. rewrite Hh1, Hh2 in *.
    destruct Hs as [Hs1 Hs2].
    destruct (m_seoj m) as [|s0 [|s1 [|s2 [|]]]]; try discriminate Hs1.
    destruct (m_deoj m) as [|d0 [|d1 [|d2 [|]]]]; try discriminate Hs2.
    cbn [app] in *. eexists. eexists. split; [exact E|]. split; [exact E2|]. split; [exact HBy|].
    rewrite ParseBytes_long.
    - cbn [Z.eqb Pos.eqb andb]. split; [reflexivity|]. unfold parsed. cbn [m_ep].
      intros p Hp. apply in_map_iff in Hp as (q & <- & Hq).
      pose proof (split_props_short (Z.to_nat (m_opc m)) area HA) as HS. rewrite Forall_forall in HS.
      apply HS in Hq. destruct q; exact Hq.
    - match goal with |- is_bytes ?l => match type of Hh with is_bytes ?h => change l with (h ++ area) end end.
      apply Forall_app. auto. }
  split; [|exact G].
  intros (nd & m & b & r & E & _ & E2 & E3 & E4 & _ & _ & _ & E5).
  destruct G as (nd' & m' & b' & r' & F1 & F2 & F3 & F4 & F5).
  assert (nd' = nd) by congruence. subst nd'. rewrite E2 in F2. apply app_inv_head in F2.
  injection F2 as <-. assert (b' = b) by congruence. subst b'. assert (r' = r) by congruence. subst r'.
  specialize (F5 _ ltac:(rewrite E5; left; reflexivity)). cbn [pp_data length] in F5.
  rewrite concat3 in F5; [lia|].
  destruct (lists_state ops H1 H2) as (nd' & _ & _ & _ & Hi & _ & _ & _ & Ed & _).
  rewrite <- Ed. apply Forall_map. destruct Hi as [Hi _]. eapply Forall_impl; [|exact Hi].
  intros o [[Ho _] _]. exact Ho.
Qed.

(** Such histories exist. *)
Theorem C28_startup_refuted_witness : exists ops,
  Forall node_op_ok ops /\ Forall keeps_lists ops /\ ~ startup_announcement ops.
Proof.
  exists (repeat (NAddDevice ex_dev) 85).
  assert (H1 : Forall node_op_ok (repeat (NAddDevice ex_dev) 85)).
  { apply Forall_forall. intros op H. apply repeat_spec in H. subst. apply ex_dev_ok. }
  assert (H2 : Forall keeps_lists (repeat (NAddDevice ex_dev) 85)).
  { apply Forall_forall. intros op H. apply repeat_spec in H. subst. exact I. }
  split; [assumption|]. split; [assumption|]. apply C28_startup_refuted; [assumption|assumption|].
  vm_compute. repeat constructor.
Qed.

Example C28_example :
  (nd <- node_after [NAddDevice ex_dev; NAddDevice ex_dev2; NStart None] ;;
   Ok (map (fun s => Bytes (sent_message s)) (n_sent nd))) =
  Ok [Ok [0x10; 0x81; 0; 1; 0x0E; 0xF0; 1; 0x0E; 0xF0; 1; 0x73; 1; 0xD5; 7; 2; 2; 0x90; 1; 1; 0x30; 1]].
Proof. vm_compute. reflexivity. Qed.

Print Assumptions C11_fresh_tids.
Print Assumptions C11_any_start.
Print Assumptions C11_distinct.
Print Assumptions C24_node_profile.
Print Assumptions C25_lookup.
Print Assumptions C25_lookup_device.
Print Assumptions C25_lookup_stable.
Print Assumptions C26_manufacturer.
Print Assumptions C26_created.
Print Assumptions C27_announced.
Print Assumptions C27_not_announced.
Print Assumptions C27_unattached.
Print Assumptions C28_startup_partial.
Print Assumptions C28_startup_refuted.
Print Assumptions C28_startup_refuted_witness.

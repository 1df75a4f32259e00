(** Facts about remote nodes and controllers. *)

From Verif Require Import Go GoFacts Encoding EncodingFacts Protocol Parser MessageFacts ParserFacts
  ProtocolFacts StdDB Property PropertyFacts Object ObjectFacts Spec Node NodeFacts Handler HandlerFacts Remote.
From Coq Require Import ZifyBool ZifyNat.
Local Open Scope Z_scope.

(** ** Loops *)

Lemma for_range_list {A S : Type} (l : list A) (f : A -> S -> res S) (body : Z -> S -> res S) :
  (forall n a s, nth_error l n = Some a -> body (Z.of_nat n) s = f a s) ->
  forall s, for_range (length l) 0 body s = for_each l f s.
Proof.
  intros H. assert (G : forall post pre s, l = pre ++ post ->
    for_range (length post) (Z.of_nat (length pre)) body s = for_each post f s).
  { induction post as [|a post IH]; intros pre s E; [reflexivity|]. cbn [length for_range for_each].
    rewrite (H (length pre) a s).
    - destruct (f a s) as [s'| |]; [|reflexivity|reflexivity]. cbn [bind].
      specialize (IH (pre ++ [a]) s'). rewrite app_length in IH. cbn [length] in IH.
      replace (Z.of_nat (length pre) + 1) with (Z.of_nat (length pre + 1)) by lia.
      apply IH. rewrite <- app_assoc. exact E.
    - rewrite E, nth_error_app2 by lia. rewrite Nat.sub_diag. reflexivity. }
  intros s. exact (G l [] s eq_refl).
Qed.

(** Cutting a list in pieces of three. *)
Lemma chunks {A} k : forall l : list A, (3 * k <= length l)%nat ->
  exists cs tr, l = concat cs ++ tr /\ length cs = k /\ Forall (fun c => length c = 3%nat) cs.
Proof.
  induction k as [|k IH]; intros l H.
  - exists [], l. repeat split. constructor.
  - destruct l as [|a [|b [|c l]]]; cbn [length] in H; try lia.
    destruct (IH l) as (cs & tr & E & L & F); [lia|].
    exists ([a; b; c] :: cs), tr. cbn [concat length]. rewrite E, L.
    split; [reflexivity|]. split; [reflexivity|]. constructor; [reflexivity|assumption].
Qed.

Lemma concat_at {A} n : forall (cs : list (list A)) c tr,
  Forall (fun c => length c = 3%nat) cs -> nth_error cs n = Some c ->
  exists tr', skipn (3 * n) (concat cs ++ tr) = c ++ tr'.
Proof.
  induction n as [|n IH]; intros cs c tr F E; (destruct cs as [|x cs]; [discriminate E|]).
  - injection E as ->. exists (concat cs ++ tr). cbn [concat]. rewrite app_assoc. reflexivity.
  - cbn [nth_error] in E. inversion F as [|? ? L F']; subst.
    destruct (IH cs c tr F' E) as (tr' & E'). exists tr'. rewrite <- E'.
    destruct x as [|x1 [|x2 [|x3 [|]]]]; try discriminate L.
    replace (3 * S n)%nat with (S (S (S (3 * n)))) by lia. reflexivity.
Qed.

(** ** Objects from code bytes *)

Lemma len3 {A} (c : list A) : length c = 3%nat -> exists x y z, c = [x; y; z].
Proof. destruct c as [|x [|y [|z [|]]]]; try discriminate. eauto. Qed.

Lemma be3_bytes_inv x y z : is_bytes [x; y; z] ->
  let v := x * 65536 + y * 256 + z in
  0 <= v < 2 ^ 24 /\ be3 v = [x; y; z] /\ ByteToInteger [x; y; z] = v.
Proof.
  intros H v. unfold is_bytes in H.
  repeat match goal with H : Forall is_byte (_ :: _) |- _ => inversion H; clear H; subst end.
  unfold is_byte in *. assert (R : 0 <= v < 2 ^ 24) by (change (2 ^ 24) with 16777216; subst v; lia).
  assert (E : be3 v = [x; y; z]).
  { unfold be3. subst v. f_equal; [lia|]. f_equal; [lia|]. f_equal. lia. }
  split; [assumption|]. split; [assumption|]. rewrite <- E. apply ByteToInteger_be3, R.
Qed.

Definition add_code (c : list Z) (nd : rnode) : res rnode :=
  match c with
  | x :: _ =>
      if x =? 0x0E then o <- NewProfileWithCode (be_value c) ;; Ok (rn_AddProfile nd o)
      else o <- NewDeviceWithCode (be_value c) ;; Ok (rn_AddDevice nd o)
  | [] => Panic
  end.

Lemma be_value3 x y z : be_value [x; y; z] = x * 65536 + y * 256 + z.
Proof. unfold be_value. cbn [be_value_acc]. lia. Qed.

Lemma add_instance_eq k cs tr n c nd :
  Forall (fun c => length c = 3%nat) cs -> is_bytes (concat cs) -> nth_error cs n = Some c ->
  add_instance (k :: concat cs ++ tr) (Z.of_nat n) nd = add_code c nd.
Proof.
  intros F HB E. unfold add_instance, ObjectCodeSize.
  assert (LT : (n < length cs)%nat) by (apply nth_error_Some; congruence).
  assert (LC : length (concat cs) = (3 * length cs)%nat).
  { clear -F. induction cs as [|c cs IH]; [reflexivity|]. inversion F; subst. cbn [concat length].
    rewrite app_length, IH by assumption. lia. }
  unfold slice_from, slice. rewrite len_cons. unfold len. rewrite app_length, LC.
  match goal with |- context [if ?b then Panic else _] => destruct b eqn:X; [exfalso; lia|] end.
  cbn [bind].
  replace (skipn (Z.to_nat (Z.of_nat n * 3 + 1)) (k :: concat cs ++ tr)) with (skipn (3 * n) (concat cs ++ tr))
    by (replace (Z.to_nat (Z.of_nat n * 3 + 1)) with (S (3 * n)) by lia; reflexivity).
  destruct (concat_at n cs c tr F E) as (tr' & ->).
  pose proof E as E'. apply nth_error_In in E'. pose proof F as F'. rewrite Forall_forall in F'.
  destruct (len3 c (F' c E')) as (x & y & z & ->).
  assert (BC : is_bytes [x; y; z]).
  { unfold is_bytes in *. rewrite Forall_forall in *. intros b Hb. apply HB. apply in_concat. eauto. }
  destruct (be3_bytes_inv x y z BC) as (R & _ & EB).
  assert (EK : go_copy (zeros 3) (firstn
     (Z.to_nat (1 + Z.of_nat (3 * length cs + length tr) - (Z.of_nat n * 3 + 1))) ([x; y; z] ++ tr')) = [x; y; z]).
  { destruct (Z.to_nat _) as [|[|[|q]]] eqn:Q; try (exfalso; lia).
    cbn [app firstn]. unfold go_copy. change (length (zeros 3)) with 3%nat. cbn [firstn].
    change (zeros 3) with [0; 0; 0]. cbn [length skipn]. destruct (length (firstn q tr')); reflexivity. }
  rewrite EK. unfold NewObjectCodeFromBytes. change (negb (len [x; y; z] =? 3)) with false. cbv iota.
  cbn [bind]. change (idx [x; y; z] 0) with (Ok x). cbn [bind]. rewrite EB.
  unfold add_code. rewrite be_value3. reflexivity.
Qed.

(** A class of the standard database. *)
Definition known_class (c : list Z) : Prop := exists k, selects (be_value c) k.
Definition is_profile (c : list Z) : bool := match c with x :: _ => x =? 0x0E | [] => false end.

(** The object has these code bytes and is what the constructors make of them. *)
Definition made_device (c : list Z) (o : object) : Prop :=
  o_codes o = c /\ NewDeviceWithCode (be_value c) = Ok o.
Definition made_profile (c : list Z) (o : object) : Prop :=
  o_codes o = c /\ NewProfileWithCode (be_value c) = Ok o.

Lemma add_code_cases c nd : length c = 3%nat -> is_bytes c ->
  if is_profile c then exists o, made_profile c o /\ add_code c nd = Ok (rn_AddProfile nd o)
  else (known_class c /\ exists o, made_device c o /\ add_code c nd = Ok (rn_AddDevice nd o)) \/
       (~ known_class c /\ add_code c nd = Err ErrOther).
Proof.
  intros L B. destruct (len3 c L) as (x & y & z & ->).
  destruct (be3_bytes_inv x y z B) as (R & E3 & _). rewrite <- be_value3 in R, E3.
  set (v := be_value [x; y; z]) in *.
  assert (R64 : 0 <= v < 2 ^ 64) by (change (2 ^ 24) with 16777216 in R; lia).
  assert (M : v mod 2 ^ 24 = v) by (apply Z.mod_small, R).
  cbn [is_profile add_code]. fold v. unfold made_profile, made_device, known_class. fold v.
  destruct (x =? 14).
  - destruct (selects_dec v (proj1 R)) as [[k K]|N].
    + rewrite (NewProfile_known v k R64 K), M, E3. cbn [bind]. eexists. split; [|reflexivity]. auto.
    + rewrite (NewProfile_unknown v R64 N), M, E3. cbn [bind]. eexists. split; [|reflexivity]. auto.
  - destruct (selects_dec v (proj1 R)) as [[k K]|N].
    + left. split; [eauto|]. rewrite (NewDevice_known v k R64 K), M, E3. cbn [bind].
      eexists. split; [|reflexivity]. auto.
    + right. split; [intros [k K]; exact (N k K)|]. rewrite (NewDevice_unknown v R64 N). reflexivity.
Qed.

Definition acceptable (c : list Z) : Prop := is_profile c = true \/ known_class c.

Lemma add_codes cs : Forall (fun c => length c = 3%nat) cs -> is_bytes (concat cs) ->
  forall nd,
  (Forall acceptable cs /\ exists ds ps,
     for_each cs add_code nd = Ok (mkRNode (rn_addr nd) (rn_devices nd ++ ds) (rn_profiles nd ++ ps)) /\
     Forall2 made_device (filter (fun c => negb (is_profile c)) cs) ds /\
     Forall2 made_profile (filter is_profile cs) ps) \/
  (~ Forall acceptable cs /\ for_each cs add_code nd = Err ErrOther).
Proof.
  induction cs as [|c cs IH]; intros F B nd.
  - left. split; [constructor|]. exists [], []. cbn [for_each filter]. rewrite !app_nil_r.
    destruct nd. repeat split; constructor.
  - inversion F as [|? ? L F']; subst. cbn [concat] in B. apply Forall_app in B as [BC B].
    pose proof (add_code_cases c nd L BC) as A. cbn [for_each filter].
    destruct (is_profile c) eqn:P; cbn [negb].
    + destruct A as (o & MO & ->). cbn [bind].
      destruct (IH F' B (rn_AddProfile nd o)) as [(FA & ds & ps & E & D & Q)|(N & E)].
      * left. split; [constructor; [left; assumption|assumption]|]. exists ds, (o :: ps).
        rewrite E. cbn [rn_AddProfile rn_addr rn_devices rn_profiles]. rewrite <- app_assoc.
        split; [reflexivity|]. split; [assumption|]. constructor; assumption.
      * right. split; [intros X; inversion X; auto|assumption].
    + destruct A as [(K & o & MO & ->)|(K & ->)].
      * cbn [bind]. destruct (IH F' B (rn_AddDevice nd o)) as [(FA & ds & ps & E & D & Q)|(N & E)].
        -- left. split; [constructor; [right; assumption|assumption]|]. exists (o :: ds), ps.
           rewrite E. cbn [rn_AddDevice rn_addr rn_devices rn_profiles]. rewrite <- app_assoc.
           split; [reflexivity|]. split; [|assumption]. constructor; assumption.
        -- right. split; [intros X; inversion X; auto|assumption].
      * right. split; [|reflexivity]. intros X. inversion X as [|? ? [Y|Y] _]; subst; [congruence|auto].
Qed.

(** ** Instance list messages *)

(** The first property of the message is an instance list: property 0xD5 or 0xD6
    with a count, that many object codes, and possibly more bytes. *)
Definition instance_list (m : message) (codes : list (list Z)) : Prop :=
  exists p rest trailing, 1 <= OPC m /\ m_ep m = p :: rest /\ In (pp_code p) [0xD5; 0xD6] /\
    pp_data p = Z.of_nat (length codes) :: concat codes ++ trailing /\
    Forall (fun c => length c = 3%nat) codes.

(** Data of the properties are bytes. *)
Definition byte_props (m : message) : Prop := Forall (fun p => is_bytes (pp_data p)) (m_ep m).

Lemma received_byte_props m : received m -> byte_props m.
Proof. intros H. eapply Forall_impl; [|apply received_props, H]. intros p [_ Hp]. exact Hp. Qed.

Definition np_object : object := mkObject np_codes node_profile_props.

Lemma remote_accepts m codes : byte_props m -> instance_list m codes ->
  (Forall acceptable codes /\ exists ds ps,
    newRemoteNodeWithInstanceListMessage m =
      Ok (mkRNode (m_from m) ds ([np_object] ++ ps ++ [np_object])) /\
    Forall2 made_device (filter (fun c => negb (is_profile c)) codes) ds /\
    Forall2 made_profile (filter is_profile codes) ps) \/
  (~ Forall acceptable codes /\ newRemoteNodeWithInstanceListMessage m = Err ErrOther).
Proof.
  intros HB (p & rest & tr & HO & HE & HC & HD & HF).
  assert (BC : is_bytes (concat codes)).
  { unfold byte_props in HB. rewrite HE in HB. inversion HB as [|? ? B _]; subst. rewrite HD in B.
    inversion B; subst. apply Forall_app in H2. apply H2. }
  assert (EQ : newRemoteNodeWithInstanceListMessage m =
    (nd <- for_each codes add_code (rn_AddProfile (rn_SetAddress newRemoteNode (m_from m)) np_object) ;;
     Ok (rn_AddProfile nd np_object))).
  { unfold newRemoteNodeWithInstanceListMessage. destruct (OPC m <? 1) eqn:X; [lia|].
  change 0 with (Z.of_nat 0) at 1. rewrite MsgProperty_nth, HE. cbn [nth_error bind].
  assert (XC : negb (pp_code p =? NodeProfileInstanceListNotification) &&
               negb (pp_code p =? NodeProfileInstanceListS) = false).
  { unfold NodeProfileInstanceListNotification, NodeProfileInstanceListS. cbn [In] in HC.
    destruct HC as [<-|[<-|[]]]; reflexivity. }
  rewrite XC, HD.
  assert (LC : length (concat codes) = (3 * length codes)%nat).
  { clear -HF. induction codes as [|c cs IH]; [reflexivity|]. inversion HF; subst. cbn [concat length].
    rewrite app_length, IH by assumption. lia. }
  assert (LD : len (Z.of_nat (length codes) :: concat codes ++ tr) = 1 + Z.of_nat (3 * length codes + length tr)).
  { rewrite len_cons. unfold len. rewrite app_length, LC. reflexivity. }
  rewrite LD. destruct (1 + Z.of_nat (3 * length codes + length tr) =? 0) eqn:X1; [lia|].
  change (idx (Z.of_nat (length codes) :: concat codes ++ tr) 0) with (@Ok Z (Z.of_nat (length codes))).
  cbn [bind]. unfold ObjectCodeSize at 1.
  destruct (1 + Z.of_nat (3 * length codes + length tr) <? Z.of_nat (length codes) * 3 + 1) eqn:X2; [lia|].
  rewrite NewNodeProfile_spec. cbn [bind]. rewrite Nat2Z.id.
  rewrite (for_range_list codes add_code).
  2:{ intros n c s E. apply add_instance_eq; assumption. }
  reflexivity. }
  rewrite EQ. clear EQ.
  destruct (add_codes codes HF BC (rn_AddProfile (rn_SetAddress newRemoteNode (m_from m)) np_object))
    as [(FA & ds & ps & E & D & Q)|(N & E)]; rewrite E.
  - left. split; [assumption|]. exists ds, ps. cbn [bind]. split; [|auto].
    unfold rn_AddProfile, rn_SetAddress, newRemoteNode. cbn [rn_addr rn_devices rn_profiles app]. reflexivity.
  - right. auto.
Qed.

Lemma remote_refuses m : byte_props m -> ~ (exists codes, instance_list m codes) ->
  newRemoteNodeWithInstanceListMessage m = Err ErrInvalid.
Proof.
  intros HB HN. unfold newRemoteNodeWithInstanceListMessage.
  destruct (OPC m <? 1) eqn:X; [reflexivity|].
  change 0 with (Z.of_nat 0) at 1. rewrite MsgProperty_nth. cbn [bind].
  destruct (m_ep m) as [|p rest] eqn:HE; [reflexivity|]. cbn [nth_error].
  destruct (negb (pp_code p =? NodeProfileInstanceListNotification) &&
            negb (pp_code p =? NodeProfileInstanceListS)) eqn:XC; [reflexivity|].
  assert (HC : In (pp_code p) [0xD5; 0xD6]).
  { unfold NodeProfileInstanceListNotification, NodeProfileInstanceListS in XC. cbn [In]. lia. }
  destruct (pp_data p) as [|k d] eqn:HD; [reflexivity|].
  destruct (len (k :: d) =? 0) eqn:X1; [reflexivity|].
  change (idx (k :: d) 0) with (@Ok Z k). cbn [bind].
  destruct (len (k :: d) <? k * ObjectCodeSize + 1) eqn:X2; [reflexivity|].
  exfalso. apply HN.
  assert (KB : 0 <= k < 256).
  { unfold byte_props in HB. rewrite HE in HB. inversion HB as [|? ? B _]; subst. rewrite HD in B.
    inversion B; subst. assumption. }
  rewrite len_cons in X2. unfold len, ObjectCodeSize in X2.
  destruct (chunks (Z.to_nat k) d) as (cs & tr & E & L & F); [lia|].
  exists cs, p, rest, tr. rewrite L, Z2Nat.id by lia. rewrite HD, E. split; [lia|]. auto.
Qed.

(** The first three bytes of a list, as Prop: whether there is a list is decidable. *)
Lemma instance_list_dec m : byte_props m ->
  (exists codes, instance_list m codes) \/ ~ (exists codes, instance_list m codes).
Proof.
  intros HB. destruct (Z_lt_le_dec (OPC m) 1) as [H|H].
  { right. intros (cs & p & rest & tr & HO & _). lia. }
  destruct (m_ep m) as [|p rest] eqn:HE.
  { right. intros (cs & p & rest & tr & _ & X & _). congruence. }
  destruct (in_dec Z.eq_dec (pp_code p) [0xD5; 0xD6]) as [HC|HC].
  2:{ right. intros (cs & p' & rest' & tr & _ & X & Y & _). rewrite HE in X. injection X as <- <-. auto. }
  destruct (pp_data p) as [|k d] eqn:HD.
  { right. intros (cs & p' & rest' & tr & _ & X & _ & Y & _). rewrite HE in X. injection X as <- <-. congruence. }
  assert (KB : 0 <= k < 256).
  { unfold byte_props in HB. rewrite HE in HB. inversion HB as [|? ? B _]; subst. rewrite HD in B.
    inversion B; subst. assumption. }
  destruct (le_lt_dec (3 * Z.to_nat k) (length d)) as [L|L].
  - left. destruct (chunks (Z.to_nat k) d L) as (cs & tr & E & L' & F).
    exists cs, p, rest, tr. rewrite L', Z2Nat.id by lia. rewrite HD, E. auto.
  - right. intros (cs & p' & rest' & tr & _ & X & _ & Y & F). rewrite HE in X. injection X as <- <-.
    rewrite HD in Y. injection Y as -> ->. rewrite Nat2Z.id in L. rewrite app_length in L.
    assert (LC : length (concat cs) = (3 * length cs)%nat).
    { clear -F. induction cs as [|c cs IH]; [reflexivity|]. inversion F; subst. cbn [concat length].
      rewrite app_length, IH by assumption. lia. }
    lia.
Qed.

Lemma remote_no_panic m : byte_props m ->
  newRemoteNodeWithInstanceListMessage m <> Panic.
Proof.
  intros HB. destruct (instance_list_dec m HB) as [(cs & H)|H].
  - destruct (remote_accepts m cs HB H) as [(_ & ds & ps & -> & _)|(_ & ->)]; discriminate.
  - rewrite remote_refuses by assumption. discriminate.
Qed.

(** ** The controller *)

Lemma OnMessage_ok conf self ct m : byte_props m -> exists ct', OnMessage conf self ct m = Ok ct'.
Proof.
  intros HB. unfold OnMessage. destruct (negb self && _); [eauto|].
  assert (P : exists c, (if isNodeProfileMessage m then parseNodeProfileMessage conf self ct m else Ok ct) = Ok c).
  { destruct (isNodeProfileMessage m); [|eauto]. unfold parseNodeProfileMessage.
    destruct (negb self && _); [eauto|]. unfold newRemoteNodeWithInstanceListMessageAndConfig.
    pose proof (remote_no_panic m HB) as NP.
    destruct (newRemoteNodeWithInstanceListMessage m); cbn [bind]; eauto. contradiction. }
  destruct P as [c ->]. cbn [bind]. eauto.
Qed.

Lemma ctrl_keeps conf : keeps_node (ctrl_callbacks conf).
Proof.
  unfold keeps_node, respects. cbn [ctrl_callbacks cb_node cb_listener cb_handler]. split; [|split].
  - intros g w nd m [= <-]. destruct (OnMessage _ _ _ _); reflexivity.
  - intros r g w nd esv p H. discriminate H.
  - intros r g w nd esv p H. discriminate H.
Qed.

(** The listener of a controller runs for a valid message and does what OnMessage does. *)
Lemma ctrl_exec conf nd ct m : LookupObject nd (DEOJ m) <> None -> byte_props m ->
  exists st, executeMessageListeners (ctrl_callbacks conf) ct nd m = Ok st /\
    OnMessage conf (n_self nd) ct m = Ok (r_world st) /\ r_node st = nd /\ r_err st = false.
Proof.
  intros HL HB. destruct (OnMessage_ok conf (n_self nd) ct m HB) as [ct' E].
  unfold executeMessageListeners. destruct (LookupObject nd (DEOJ m)) as [r|]; [|congruence].
  cbn [ctrl_callbacks cb_node option_map call_back r_world r_node]. rewrite E.
  rewrite (msg_loop m (fun p st => Ok st)).
  - assert (L : forall l (s : run ctrl), for_each l (fun (_ : pprop) st => Ok st) s = Ok s).
    { induction l as [|a l IH]; intros s; [reflexivity|]. cbn [for_each bind]. apply IH. }
    rewrite L. eexists. split; [reflexivity|]. cbn [set_err r_world r_node r_err]. auto.
  - intros n st. rewrite MsgProperty_nth. cbn [bind]. destruct (nth_error (m_ep m) n); [|reflexivity].
    unfold notifyPropertyRequest. cbn [ctrl_callbacks cb_listener cb_handler option_map call_back].
    destruct st as [w x c e]. unfold set_err. cbn [r_world r_node r_calls r_err orb].
    rewrite Bool.orb_false_r. reflexivity.
Qed.

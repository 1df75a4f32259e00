(** C91: what uechosearch and uechobench print. *)

From Coq Require Import String ZifyBool ZifyNat Permutation.
From Verif Require Import Go GoFacts Encoding EncodingFacts Protocol Parser MessageFacts ParserFacts
  ProtocolFacts Reader StdDB StdNames Property PropertyFacts Object ObjectFacts Spec Node NodeFacts
  Handler HandlerFacts PropsHandler Remote RemoteFacts PropsRemote Transport TransportFacts Exchange ExchangeFacts
  PropsExchange PropsSearch Lan LanFacts PropsLan Cmd LanScan PropsLanScan Names PropsNames Programs PropsPrograms SearchTool.
From Verif Require PropsProtocol PropsNode PropsDetails ManDB.
Local Open Scope Z_scope.
Local Open Scope list_scope.

(** ** Vocabulary *)

(** What a line is about: the node with its number, the object with its number in the
    node, a property of an object. *)
Inductive item : Type :=
| INode (i : Z) (rn : rnode)
| IObject (rn : rnode) (j : Z) (o : object)
| IProperty (rn : rnode) (o : object) (p : property).

Fixpoint numbered {A} (i : Z) (l : list A) : list (Z * A) :=
  match l with [] => [] | x :: l => (i, x) :: numbered (i + 1) l end.

(** The nodes in order, each followed by its objects, each followed by those of its
    properties that [wanted] selects. *)
Definition items (wanted : property -> bool) (rns : list rnode) : list item :=
  flat_map (fun x => INode (fst x) (snd x) ::
    flat_map (fun y => IObject (snd x) (fst y) (snd y) ::
      map (IProperty (snd x) (snd y)) (filter wanted (Properties (o_props (snd y)))))
      (numbered 0 (rn_devices (snd x) ++ rn_profiles (snd x)))) (numbered 0 rns).

Definition is_required (p : property) : bool := match p_get p with Required => true | _ => false end.
Definition is_readable (p : property) : bool := match p_get p with Prohibited => false | _ => true end.

(** The name the standard gives to property [c] of class [k]. *)
Definition standard_name (k : name_class) (c : Z) (s : string) : Prop :=
  last_name (nc_props k) c = Some s \/
  last_name (nc_props k) c = None /\ exists sup, standard_class 0 = Some sup /\ last_name (nc_props sup) c = Some s.

(** [text15] is [text] with blanks behind it up to 15 characters. *)
Definition wide (n : nat) (text wide_text : string) : Prop :=
  exists blanks, wide_text = (text ++ blanks)%string /\ Forall (fun c => c = 32) (map char_code (list_ascii_of_string blanks)) /\
    String.length wide_text = Nat.max n (String.length text).

(** [u] has, for each character of [t], the two hexadecimal digits of its ASCII code. *)
Inductive spelled : string -> string -> Prop :=
| spelled_nil : spelled EmptyString EmptyString
| spelled_cons c t a b u :
    String.get (Z.to_nat (char_code c / 16)) "0123456789ABCDEF" = Some a ->
    String.get (Z.to_nat (char_code c mod 16)) "0123456789ABCDEF" = Some b ->
    spelled t u -> spelled (String c t) (String a (String b u)).

(** A line tells about a member: its address, the manufacturer of its node profile,
    the code (spelled in ASCII codes) and name of the object, the code and name of
    the property and the data the member holds; [none] stands for refused reads. *)
Definition tells (text : Z -> string) (property_format : string -> string -> string -> string) (none : string)
  (nds : list node) (it : item) (line : string) : Prop :=
  match it with
  | INode i rn =>
      exists nd man a15, In nd nds /\ n_addr nd = rn_addr rn /\ wide 15 (text (a_ip (n_addr nd))) a15 /\
        line = ("[" ++ fmt_d i ++ "] " ++ a15 ++ ":" ++ fmt_d (a_port (n_addr nd)) ++ " (" ++ man ++ ")")%string /\
        (forall v name, readable_value nd 0x0EF001 0x8A v -> In (ByteToInteger v, name) ManDB.man_table -> man = name) /\
        (forall v, readable_value nd 0x0EF001 0x8A v -> ~ In (ByteToInteger v) (map fst ManDB.man_table) -> man = "unknown"%string) /\
        (unreadable nd 0x0EF001 0x8A -> man = "unknown"%string)
  | IObject rn j o =>
      exists k shown, standard_class (Code o) = Some k /\ spelled (fmt_X 6 (Code o)) shown /\
        line = ("    [" ++ fmt_d j ++ "] " ++ shown ++ " (" ++ nc_name k ++ ")")%string
  | IProperty rn o p =>
      exists nd k name data, In nd nds /\ n_addr nd = rn_addr rn /\
        standard_class (Code o) = Some k /\ standard_name k (p_code p) name /\
        line = property_format (fmt_X 2 (p_code p)) name data /\
        (forall v, readable_value nd (Code o) (p_code p) v -> data = PropsDetails.hex_text v) /\
        (unreadable nd (Code o) (p_code p) -> data = none)
  end.

Definition search_format (code name data : string) : string := ("        [" ++ code ++ "] " ++ name ++ ": " ++ data)%string.
Definition bench_format (code name data : string) : string := ("        [" ++ code ++ "] " ++ data ++ " (" ++ name ++ ")")%string.

Lemma upper_get d : 0 <= d < 16 -> String.get (Z.to_nat d) "0123456789ABCDEF" = Some (upper_digit d).
Proof.
  intros H. assert (K : forallb (fun n => match String.get n "0123456789ABCDEF" with Some c => Ascii.eqb c (upper_digit (Z.of_nat n)) | None => false end) (seq 0 16) = true)
    by reflexivity.
  rewrite forallb_forall in K. specialize (K (Z.to_nat d)). rewrite Z2Nat.id in K by lia. assert (I : In (Z.to_nat d) (seq 0 16)) by (apply in_seq; lia).
  specialize (K I). destruct (String.get (Z.to_nat d) "0123456789ABCDEF"); [|discriminate K]. apply Ascii.eqb_eq in K. congruence.
Qed.

Lemma char_code_byte c : 0 <= char_code c < 256.
Proof. unfold char_code. pose proof (Ascii.N_ascii_bounded c). lia. Qed.

Lemma spelled_out t : spelled t (fmt_X_String t).
Proof.
  unfold fmt_X_String, fmt_bytes. induction t as [|c t IH]; cbn [list_ascii_of_string map flat_map app text]; [constructor|].
  pose proof (char_code_byte c). constructor; [apply upper_get; lia..|exact IH].
Qed.

Lemma spelled_length t u : spelled t u -> String.length u = (2 * String.length t)%nat.
Proof. induction 1 as [|c t a b u _ _ _ IH]; cbn [String.length]; lia. Qed.

Lemma get_inj n m a : (n < 16)%nat -> (m < 16)%nat -> String.get n "0123456789ABCDEF" = Some a -> String.get m "0123456789ABCDEF" = Some a -> n = m.
Proof.
  intros H1 H2 E1 E2. assert (K : forallb (fun n => forallb (fun m => if Nat.eqb n m then true else
    match String.get n "0123456789ABCDEF", String.get m "0123456789ABCDEF" with Some x, Some y => negb (Ascii.eqb x y) | _, _ => false end) (seq 0 16)) (seq 0 16) = true) by reflexivity.
  rewrite forallb_forall in K. specialize (K n ltac:(apply in_seq; lia)). rewrite forallb_forall in K. specialize (K m ltac:(apply in_seq; lia)).
  destruct (Nat.eqb_spec n m); [assumption|]. rewrite E1, E2, Ascii.eqb_refl in K. discriminate K.
Qed.

Lemma spelled_inj t u : spelled t u -> forall t', spelled t' u -> t = t'.
Proof.
  induction 1 as [|c t a b u Ha Hb _ IH]; intros t' H; inversion H as [|c' t1 a' b' u' Ha' Hb' H']; subst; [reflexivity|].
  rewrite (IH _ H'). f_equal. pose proof (char_code_byte c). pose proof (char_code_byte c').
  assert (E1 : Z.to_nat (char_code c / 16) = Z.to_nat (char_code c' / 16)) by (apply (get_inj _ _ a); [lia|lia|assumption|assumption]).
  assert (E2 : Z.to_nat (char_code c mod 16) = Z.to_nat (char_code c' mod 16)) by (apply (get_inj _ _ b); [lia|lia|assumption|assumption]).
  assert (E : char_code c = char_code c') by lia. unfold char_code in E.
  rewrite <- (Ascii.ascii_N_embedding c), <- (Ascii.ascii_N_embedding c'). f_equal. lia.
Qed.

(** ** The table of nodes does not change *)

Section Kept.
Variable conf : ctrl_conf.

Lemma remote_addr m n : newRemoteNodeWithInstanceListMessageAndConfig m (cc_auto conf) = Ok n -> rn_addr n = sender conf m.
Proof.
  unfold newRemoteNodeWithInstanceListMessageAndConfig.
  destruct (newRemoteNodeWithInstanceListMessage m) as [n0|e|] eqn:E; cbn [bind]; try discriminate.
  intros [= <-]. assert (A : rn_addr n0 = m_from m).
  { unfold newRemoteNodeWithInstanceListMessage in E. destruct (OPC m <? 1); [discriminate E|].
    destruct (MsgProperty m 0) as [[p|]| |]; cbn [bind] in E; try discriminate E. cbv zeta in E.
    destruct (negb _ && negb _); [discriminate E|]. destruct (len (pp_data p) =? 0); [discriminate E|].
    destruct (idx (pp_data p) 0) as [ic| |]; cbn [bind] in E; try discriminate E.
    destruct (len (pp_data p) <? _); [discriminate E|]. destruct NewNodeProfile as [np| |]; cbn [bind] in E; try discriminate E.
    destruct (for_range (Z.to_nat ic) 0 (add_instance (pp_data p)) _) as [n1| |] eqn:ER; cbn [bind] in E; try discriminate E.
    injection E as <-. cbn [rn_AddProfile rn_addr]. apply (range_world rn_addr) in ER; [rewrite ER; reflexivity|].
    intros i st st' EA. unfold add_instance in EA.
    destruct (slice_from _ _) as [src| |]; cbn [bind] in EA; try discriminate EA. cbv zeta in EA.
    destruct (NewObjectCodeFromBytes _) as [oc| |]; cbn [bind] in EA; try discriminate EA.
    destruct (idx _ 0) as [c0| |]; cbn [bind] in EA; try discriminate EA.
    destruct (isProfileObjectCode c0).
    - destruct (NewProfileWithCode oc); cbn [bind] in EA; try discriminate EA. injection EA as <-. reflexivity.
    - destruct (NewDeviceWithCode oc); cbn [bind] in EA; try discriminate EA. injection EA as <-. reflexivity. }
  unfold sender. destruct (cc_auto conf); [rewrite A; destruct (m_from m); reflexivity|]. cbn [rn_SetPort rn_addr]. rewrite A. reflexivity.
Qed.

Lemma OnMessage_known self ct m ct' : known ct (sender conf m) -> OnMessage conf self ct m = Ok ct' -> ct_found ct' = ct_found ct.
Proof.
  intros HK. unfold OnMessage. destruct (negb self && isSelfMessage conf m) eqn:ES; [intros [= <-]; reflexivity|].
  assert (G : forall ct1, (if isNodeProfileMessage m then parseNodeProfileMessage conf self ct m else Ok ct) = Ok ct1 -> ct_found ct1 = ct_found ct).
  { intros ct1. destruct (isNodeProfileMessage m); [|intros [= <-]; reflexivity].
    unfold parseNodeProfileMessage. rewrite ES.
    destruct (newRemoteNodeWithInstanceListMessageAndConfig m (cc_auto conf)) as [n|e|] eqn:EN; intros [= <-]; [|reflexivity].
    apply remote_addr in EN. unfold addNode. rewrite <- EN in HK. rewrite (proj2 (known_iff ct n) HK). reflexivity. }
  destruct (if isNodeProfileMessage m then _ else _) as [ct1|e|]; cbn [bind]; intros [= <-].
  specialize (G ct1 eq_refl). destruct (cc_listener conf); exact G.
Qed.

Lemma served_known ct nd pending pt sa d : known ct (seen conf (d_from d)) ->
  ct_found (out_world (fst (serve_datagram (ctrl_callbacks conf) ct nd pending pt sa d))) = ct_found ct.
Proof.
  intros HK. unfold serve_datagram. destruct (ReadMessage d) as [m|e|] eqn:EM; try reflexivity.
  assert (HF : m_from m = d_from d).
  { unfold ReadMessage in EM. destruct (NewMessageWithBytes _); cbn [bind] in EM; try discriminate EM.
    injection EM as <-. reflexivity. }
  assert (HK' : known ct (sender conf (SetPacketType m pt))).
  { unfold sender. cbn [SetPacketType m_from]. rewrite HF. exact HK. }
  unfold handle_datagram_message. cbn [fst]. revert HK'. generalize (SetPacketType m pt). clear m EM HF. intros m HK'.
  unfold ProtocolMessageReceived.
  destruct (negb (n_self nd) && _); [reflexivity|]. destruct (isResponseMessage pending m); try reflexivity.
  destruct (validateReceivedMessage nd m) as [[]| |]; try reflexivity.
  destruct (executeMessageListeners (ctrl_callbacks conf) ct nd m) as [st| |] eqn:E; try reflexivity.
  assert (G : ct_found (r_world st) = ct_found ct); [|destruct (r_err st); [exact G|destruct (negb _); exact G]].
  unfold executeMessageListeners in E. destruct (LookupObject nd (DEOJ m)) as [r|]; [|discriminate E].
  cbn [call_back option_map ctrl_callbacks cb_node r_world r_node r_calls r_err] in E.
  destruct (match OnMessage conf (n_self nd) ct m with Ok ct0 => (ct0, nd, false) | _ => (ct, nd, true) end) as [[ct1 nd1] e1] eqn:E1.
  cbn [app set_err r_world r_node r_calls r_err] in E. apply (range_world r_world) in E.
  - rewrite E. cbn [r_world]. destruct (OnMessage conf (n_self nd) ct m) as [x|x|] eqn:EM; injection E1 as <- _ _; try reflexivity.
    apply (OnMessage_known _ _ _ _ HK' EM).
  - intros i st1 st2 E2. destruct (MsgProperty m i) as [[p|]| |]; cbn [bind] in E2; try discriminate E2; [|congruence].
    unfold notifyPropertyRequest in E2. cbn [ctrl_callbacks cb_listener cb_handler option_map call_back] in E2. injection E2 as <-. reflexivity.
Qed.

Context {W : Type}.
Implicit Types (s : lan W).

Lemma post_found s a m : known (l_ctrl s) (seen conf a) -> NoDup (map n_addr (members s)) ->
  ct_found (l_ctrl (fst (net_post conf s a m))) = ct_found (l_ctrl s).
Proof.
  intros HK ND. unfold net_post.
  destruct (Node_PostMessage (l_node s) a m _) as [[[cl evs] x]|e|]; try reflexivity.
  destruct evs as [|[| | |k b] [|? ?]]; try reflexivity; destruct x as [| |req]; try reflexivity.
  destruct (owner (members s) a) as [[|i]|] eqn:EO; try reflexivity.
  destruct (nth_error (l_hosts s) i) as [h|] eqn:EH; [|reflexivity].
  assert (EA : n_addr (h_node h) = a).
  { clear -EO EH. unfold members in EO. cbn [owner] in EO. destruct (addr_eqb (n_addr (l_node s)) a); [discriminate EO|].
    destruct (owner (map h_node (l_hosts s)) a) as [j|] eqn:EJ; [|discriminate EO]. injection EO as ->.
    revert i EJ EH. induction (l_hosts s) as [|x l IH]; intros i EJ EH; [discriminate EJ|]. cbn [map owner] in EJ.
    destruct (addr_eqb (n_addr (h_node x)) a) eqn:EX.
    - injection EJ as <-. cbn [nth_error] in EH. injection EH as <-. apply addr_eqb_iff in EX. exact EX.
    - destruct (owner (map h_node l) a) as [j'|]; [|discriminate EJ]. injection EJ as <-. cbn [nth_error] in EH. exact (IH j' eq_refl EH). }
  destruct (serve_datagram (h_cb h) _ _ _ _ _ _) as [out r] eqn:ES.
  destruct r as [[[dst d]|]| |]; try reflexivity. destruct (negb (addr_eqb dst (n_addr cl))); [reflexivity|].
  assert (HD : d_from d = a).
  { unfold serve_datagram in ES. destruct (ReadMessage _) as [q| |]; try discriminate ES. unfold handle_datagram_message in ES.
    injection ES as _ ES. destruct (out_reply _) as [[resp|]| |]; try discriminate ES. unfold UDP_SendMessage in ES.
    destruct (Bytes resp); cbn [bind] in ES; try discriminate ES. injection ES as _ <-. exact EA. }
  pose proof (served_known (l_ctrl s) cl (Some req) UDPUnicastPacket (n_addr cl) d ltac:(rewrite HD; exact HK)) as G.
  destruct (serve_datagram (ctrl_callbacks conf) _ _ _ _ _ _) as [out' r']. exact G.
Qed.

End Kept.

(** ** Names *)

Lemma described_cases nd n a o : ready nd -> describes a (devs_of nd) n -> In o (rn_devices n ++ rn_profiles n) ->
  (is_profile (o_codes o) = false /\ NewDeviceWithCode (Code o) = Ok o) \/ o = np_object.
Proof.
  intros HR (_ & D & ps & E & P) I.
  assert (HC : Forall (fun c => known_class c /\ is_profile c = false) (devs_of nd)) by apply HR.
  assert (HI : Forall obj_ok (n_devices nd)) by apply HR.
  assert (F1 : filter (fun c => negb (is_profile c)) (devs_of nd) = devs_of nd).
  { clear -HC. induction HC as [|k l [_ Hk] _ IH]; [reflexivity|]. cbn [filter]. rewrite Hk. cbn [negb]. rewrite IH. reflexivity. }
  assert (F2 : filter is_profile (devs_of nd) = []).
  { clear -HC. induction HC as [|k l [_ Hk] _ IH]; [reflexivity|]. cbn [filter]. rewrite Hk. exact IH. }
  rewrite F1 in D. rewrite F2 in P. inversion P; subst ps. clear P F1 F2.
  apply in_app_or in I. destruct I as [I|I].
  - left. assert (G : Forall (fun c => is_profile c = false /\ length c = 3%nat /\ is_bytes c) (devs_of nd)).
    { unfold devs_of in *. apply Forall_map in HC. apply Forall_map. rewrite Forall_forall in *. intros x Hx.
      destruct (HC x Hx) as (_ & K). destruct (HI x Hx) as ((A & B) & _). auto. }
    clear -D G I. revert I. induction D as [|c o' cs os (Hc & Ho) D IH]; intros I; [destruct I|]. inversion G as [|? ? (K & L & B) G']; subst.
    destruct I as [<-|I]; [|exact (IH G' I)]. split; [exact K|].
    unfold Code. rewrite ByteToInteger_small by (try exact B; clear -L; lia). exact Ho.
  - right. rewrite E in I. cbn [app In] in I. destruct I as [<-|[<-|[]]]; reflexivity.
Qed.

Definition np_class : name_class := match standard_class 0x0EF001 with Some k => k | None => NC 0 0 "" [] end.
Definition np_named : named := match NamedProfileWithCode 0x0EF001 with Ok n => n | _ => mkNamed newObject "" [] end.

Lemma np_names : remote_named np_object = Ok np_named /\ standard_class 0x0EF001 = Some np_class /\
  is_blank (ClassName np_named) = false /\ ClassName np_named = nc_name np_class /\
  forall p, In p (Properties (o_props np_object)) -> exists s, PropertyName np_named (p_code p) = Some s /\ is_blank s = false /\
    standard_name np_class (p_code p) s.
Proof.
  split; [vm_compute; reflexivity|]. split; [vm_compute; reflexivity|]. split; [vm_compute; reflexivity|]. split; [vm_compute; reflexivity|].
  assert (ES : exists sup, standard_class 0 = Some sup) by (rewrite super_class_name; eauto).
  assert (T : forallb (fun p => match PropertyName np_named (p_code p) with
      | None => false
      | Some s => negb (is_blank s) &&
          match last_name (nc_props np_class) (p_code p) with
          | Some s' => String.eqb s s'
          | None => match standard_class 0 with
                    | Some sup => match last_name (nc_props sup) (p_code p) with Some s' => String.eqb s s' | None => false end
                    | None => false end
          end
      end) (Properties (o_props np_object)) = true) by (vm_compute; reflexivity).
  intros p Hp. rewrite forallb_forall in T. specialize (T p Hp). destruct (PropertyName np_named (p_code p)) as [s|]; [|discriminate T].
  exists s. split; [reflexivity|]. apply andb_prop in T. destruct T as (T1 & T2).
  split; [destruct (is_blank s); [discriminate T1|reflexivity]|]. unfold standard_name.
  destruct (last_name (nc_props np_class) (p_code p)) as [s'|].
  - apply String.eqb_eq in T2. left. rewrite T2. reflexivity.
  - right. split; [reflexivity|]. destruct ES as (sup & ES). rewrite ES in T2. exists sup. split; [exact ES|].
    destruct (last_name (nc_props sup) (p_code p)) as [s'|]; [|discriminate T2]. apply String.eqb_eq in T2. rewrite T2. reflexivity.
Qed.

Lemma not_blank s : s <> ""%string -> is_blank s = false.
Proof. destruct s; [intros H; exfalso; apply H; reflexivity|reflexivity]. Qed.

Lemma shown_names nd n a o : ready nd -> describes a (devs_of nd) n -> In o (rn_devices n ++ rn_profiles n) ->
  exists k, standard_class (Code o) = Some k /\ shown_class o = nc_name k /\
    forall p, In p (Properties (o_props o)) -> standard_name k (p_code p) (shown_property o p).
Proof.
  intros HR HD I. pose proof (described_objects nd n a o HR HD I) as ((OL & OB) & OW).
  destruct (described_cases nd n a o HR HD I) as [(HP & HN)| ->].
  - pose proof (PropsNode.Code_range o (conj OL OB)) as HC.
    assert (HC64 : 0 <= Code o < 2 ^ 64) by (change (2 ^ 24) with 16777216 in HC; lia).
    assert (EX : exists k, standard_class (Code o) = Some k).
    { apply class_exists; [lia|]. destruct (selects_dec (Code o) ltac:(lia)) as [Hs|Hno]; [exact Hs|].
      exfalso. unfold NewDeviceWithCode in HN. rewrite NewSuperObject_spec, DB_lookup_none in HN by (try exact Hno; lia). discriminate HN. }
    destruct (proj2 (C90_made (Code o) HC64) EX) as (nm & EN).
    destruct (C90_device (Code o) nm HC64 EN) as (E1 & k & sup & K1 & K2 & K3 & K4 & K5).
    assert (EO : na_obj nm = o) by congruence. rewrite EO in K5.
    assert (ER : remote_named o = Ok nm).
    { unfold remote_named. destruct (o_codes o) as [|x [|y [|z [|t l]]]] eqn:EC; try discriminate OL.
      unfold IsProfile. rewrite EC. change (idx [x; y; z] 0) with (Ok x). cbn [bind].
      unfold is_profile in HP. cbn [nth hd] in HP. unfold isProfileObjectCode. rewrite HP. exact EN. }
    exists k. split; [exact K1|]. unfold shown_class, shown_property. rewrite ER. split.
    + rewrite (not_blank _ K4). exact K3.
    + intros p Hp. destruct (Properties_in _ _ Hp) as (c & LP). pose proof (Lookup_code _ _ _ LP) as LC.
      destruct (K5 c p LP) as (s & S1 & S2 & S3). rewrite LC, S1, (not_blank _ S2). unfold standard_name. destruct S3 as [S3|(S3 & S4)]; eauto.
  - exists np_class. destruct np_names as (N1 & N2 & N3 & N4 & N5). rewrite (proj2 np_object_ok). split; [exact N2|].
    unfold shown_class, shown_property. rewrite N1, N3. split; [exact N4|].
    intros p Hp. destruct (N5 p Hp) as (s & S1 & S2 & S3). rewrite S1, S2. exact S3.
Qed.

(** ** The lines *)

Lemma spaces_length n : String.length (spaces n) = n.
Proof. induction n as [|n IH]; [reflexivity|]. cbn [spaces String.length]. rewrite IH. reflexivity. Qed.

Lemma append_length (a b : string) : String.length (a ++ b)%string = (String.length a + String.length b)%nat.
Proof. induction a as [|c a IH]; [reflexivity|]. cbn. rewrite IH. reflexivity. Qed.

Lemma pad_wide n s : wide n s (pad_right n s).
Proof.
  unfold wide, pad_right. exists (spaces (n - String.length s)). split; [reflexivity|]. split.
  - generalize (n - String.length s)%nat as k. induction k as [|k IH]; [constructor|]. cbn [spaces list_ascii_of_string map].
    constructor; [vm_compute; reflexivity|exact IH].
  - rewrite append_length, spaces_length. lia.
Qed.

Section Lines.
Context {W : Type}.
Variable conf : ctrl_conf.
Variable text : Z -> string.
Implicit Types (s : lan W).

Definition during (s s' : lan W) : Prop := posts conf s s' /\ ct_found (l_ctrl s') = ct_found (l_ctrl s).

(** What holds when the search is over. *)
Definition searched (s0 s : lan W) : Prop :=
  settled conf s0 s /\ table_shows conf s0 s /\ n_self (l_node s0) = false /\
  Forall (fun h => recorded conf (h_node h) = n_addr (h_node h)) (l_hosts s0).

Lemma node_of s0 s rn : searched s0 s -> In rn (ct_found (l_ctrl s)) ->
  exists nd a, In nd (map h_node (l_hosts s)) /\ n_addr nd = rn_addr rn /\ ready nd /\ describes a (devs_of nd) rn /\
    known (l_ctrl s) (seen conf (rn_addr rn)).
Proof.
  intros (HS & (_ & HT) & Hself & HR) J1.
  destruct (HT rn J1) as (j & nd0 & E0 & Hj & (S1 & S2 & S3)).
  destruct Hj as [Hj|Hj]; [congruence|]. destruct j as [|i]; [exfalso; apply Hj; reflexivity|]. clear Hj.
  pose proof HS as ((I1 & _) & HM & _). destruct (same_at' _ _ _ _ HM E0) as (nd & E & (A1 & _ & A3 & _)).
  assert (Rn : ready nd) by (rewrite Forall_forall in I1; apply I1; eapply nth_error_In, E).
  rewrite <- A1, <- A3 in S3. rewrite <- A1 in S1.
  assert (Hnd : In nd (map h_node (l_hosts s))) by (unfold members in E; cbn [nth_error] in E; eapply nth_error_In, E).
  assert (EA : n_addr nd = rn_addr rn).
  { rewrite S1. unfold members in E0. cbn [nth_error] in E0. rewrite nth_error_map in E0.
    destruct (nth_error (l_hosts s0) i) as [h|] eqn:EH; [|discriminate E0]. injection E0 as E0.
    rewrite Forall_forall in HR. specialize (HR h (nth_error_In _ _ EH)). rewrite E0, recorded_seen, <- A1 in HR. symmetry. exact HR. }
  exists nd, (seen conf (n_addr nd)). split; [exact Hnd|]. split; [exact EA|]. split; [exact Rn|]. split; [exact S3|].
  unfold known. rewrite <- EA, <- S1. apply in_map, J1.
Qed.

Definition env_at (s' : lan W) : scan_env :=
  mkEnv text (fun _ => ""%string) (fun _ _ => ""%string) (fun _ => None) (fun _ rn m => snd (net_post conf s' (rn_addr rn) m)).

Lemma asked s0 s s' rn : searched s0 s -> during s s' -> In rn (ct_found (l_ctrl s)) ->
  exists nd a, In nd (map h_node (l_hosts s)) /\ n_addr nd = rn_addr rn /\ ready nd /\ describes a (devs_of nd) rn /\
  forall obj code, 0 <= obj < 2 ^ 24 -> 0 <= code < 256 ->
    during s (fst (net_post conf s' (rn_addr rn) (read_message obj code))) /\
    (forall v, readable_value nd obj code v ->
       exists resp, snd (net_post conf s' (rn_addr rn) (read_message obj code)) = inl resp /\ m_ep resp = [mkPProp code v]) /\
    (unreadable nd obj code ->
       exists resp, snd (net_post conf s' (rn_addr rn) (read_message obj code)) = inl resp /\ m_ep resp = [mkPProp 0 []; mkPProp 0 []]).
Proof.
  intros HS (HP & HF) I. destruct (node_of s0 s rn HS I) as (nd & a & N1 & N2 & N3 & N4 & N5). exists nd, a.
  split; [exact N1|]. split; [exact N2|]. split; [exact N3|]. split; [exact N4|]. intros obj code Ho Hc.
  assert (HE : scans conf s (env_at s')).
  { intros n. exists s'. split; [exact HP|]. intros rn' m. reflexivity. }
  destruct (scan_post conf s0 s (env_at s') 0%nat rn nd (proj1 HS) HE N1 N2) as (P1 & P2).
  split; [split|split].
  - apply posts_more, HP.
  - rewrite post_found; [exact HF| |].
    + unfold known in *. rewrite HF. exact N5.
    + destruct HS as (((I1 & I2 & I3 & _) & _) & _).
      assert (Rc : ready (l_node s)) by (unfold members in I1; inversion I1; assumption).
      assert (U0 : unchanged s s).
      { unfold unchanged. split; [reflexivity|]. split; [exact I2|]. destruct Rc as (A & _ & _ & B & C & _). auto. }
      pose proof (posts_unchanged conf s s' HP U0) as (U1 & _ & _ & _ & _ & U6 & _).
      unfold members in *. cbn [map] in *. rewrite U1, U6. exact I3.
  - intros v. apply (P1 obj code v Ho Hc).
  - apply (P2 obj code Ho Hc).
Qed.

Definition format_of (t : tool) : string -> string -> string -> string :=
  match t with Uechosearch => search_format | Uechobench => bench_format end.

Definition lines_for (t : tool) (s : lan W) (its : list item) (r : lan W * list string) : Prop :=
  during s (fst r) /\ Forall2 (tells text (format_of t) (no_data t) (map h_node (l_hosts s))) its (snd r).

Lemma property_lines_ok t s0 s rn o : searched s0 s -> In rn (ct_found (l_ctrl s)) -> In o (rn_devices rn ++ rn_profiles rn) ->
  forall ps s', (forall p, In p ps -> In p (Properties (o_props o))) -> during s s' ->
  lines_for t s (map (IProperty rn o) (filter (tool_shows t) ps)) (property_lines conf t s' rn o ps).
Proof.
  intros HS I Io. induction ps as [|p ps IH]; intros s' Hps HD; [split; [exact HD|constructor]|].
  cbn [property_lines filter]. destruct (tool_shows t p) eqn:ET; cbn [negb].
  2:{ apply IH; [|exact HD]. intros q Hq. apply Hps. right. exact Hq. }
  destruct (asked s0 s s' rn HS HD I) as (nd & a & N1 & N2 & N3 & N4 & N5).
  destruct (shown_names nd rn a o N3 N4 Io) as (k & K1 & K2 & K3).
  pose proof (described_objects nd rn a o N3 N4 Io) as (OC & OW). pose proof (PropsNode.Code_range o OC) as HC.
  assert (Hp : In p (Properties (o_props o))) by (apply Hps; left; reflexivity).
  destruct (Properties_in _ _ Hp) as (c & LP). destruct (wf_lookup _ _ _ OW LP) as (PB & _). unfold is_byte in PB.
  destruct (N5 (Code o) (p_code p) HC PB) as (D1 & D2 & D3). unfold ask_value.
  destruct (net_post conf s' (rn_addr rn) (read_message (Code o) (p_code p))) as [s1 r]. cbn [fst snd] in D1, D2, D3.
  destruct (IH s1 (fun q Hq => Hps q (or_intror Hq)) D1) as (X1 & X2).
  destruct (property_lines conf t s1 rn o ps) as [s2 lines]. cbn [fst snd] in X1, X2.
  split; [exact X1|]. cbn [snd map]. constructor; [|exact X2]. cbn [tells].
  exists nd, k, (shown_property o p), (match r with
      | inl res => match m_ep res with [q] => EncodeToString (pp_data q) | _ => no_data t end
      | inr e => e
      end).
  split; [exact N1|]. split; [exact N2|]. split; [exact K1|]. split; [exact (K3 p Hp)|]. split; [destruct t; reflexivity|]. split.
  - intros v HV. destruct (D2 v HV) as (resp & -> & E). rewrite E. cbn [pp_data]. apply PropsDetails.hex_encode.
    destruct HV as (_ & _ & _ & _ & _ & _ & _ & _ & (_ & HV)). exact HV.
  - intros HV. destruct (D3 HV) as (resp & -> & E). rewrite E. reflexivity.
Qed.

Lemma object_lines_ok t s0 s rn : searched s0 s -> In rn (ct_found (l_ctrl s)) ->
  forall os j s', (forall o, In o os -> In o (rn_devices rn ++ rn_profiles rn)) -> during s s' ->
  lines_for t s (flat_map (fun y => IObject rn (fst y) (snd y) ::
      map (IProperty rn (snd y)) (filter (tool_shows t) (Properties (o_props (snd y))))) (numbered j os))
    (object_lines conf t s' rn j os).
Proof.
  intros HS I. induction os as [|o os IH]; intros j s' Hos HD; [split; [exact HD|constructor]|].
  cbn [object_lines numbered flat_map fst snd].
  assert (Io : In o (rn_devices rn ++ rn_profiles rn)) by (apply Hos; left; reflexivity).
  destruct (property_lines_ok t s0 s rn o HS I Io (Properties (o_props o)) s' (fun p Hp => Hp) HD) as (X1 & X2).
  destruct (property_lines conf t s' rn o (Properties (o_props o))) as [s1 mine]. cbn [fst snd] in X1, X2.
  destruct (IH (j + 1) s1 (fun q Hq => Hos q (or_intror Hq)) X1) as (Y1 & Y2).
  destruct (object_lines conf t s1 rn (j + 1) os) as [s2 lines]. cbn [fst snd] in Y1, Y2.
  split; [exact Y1|]. cbn [snd]. cbn [app]. constructor; [|apply Forall2_app; assumption].
  destruct (node_of s0 s rn HS I) as (nd & a & N1 & N2 & N3 & N4 & N5).
  destruct (shown_names nd rn a o N3 N4 Io) as (k & K1 & K2 & _). cbn [tells].
  exists k, (fmt_X_String (fmt_X 6 (Code o))). split; [exact K1|]. split; [apply spelled_out|]. unfold object_line. rewrite K2. reflexivity.
Qed.

Lemma node_lines_ok t s0 s : searched s0 s ->
  forall rns i s', (forall rn, In rn rns -> In rn (ct_found (l_ctrl s))) -> during s s' ->
  lines_for t s (flat_map (fun x => INode (fst x) (snd x) ::
    flat_map (fun y => IObject (snd x) (fst y) (snd y) ::
      map (IProperty (snd x) (snd y)) (filter (tool_shows t) (Properties (o_props (snd y)))))
      (numbered 0 (rn_devices (snd x) ++ rn_profiles (snd x)))) (numbered i rns))
    (node_lines conf text t s' i rns).
Proof.
  intros HS. induction rns as [|rn rns IH]; intros i s' Hrn HD; [split; [exact HD|constructor]|].
  cbn [node_lines numbered flat_map fst snd].
  assert (I : In rn (ct_found (l_ctrl s))) by (apply Hrn; left; reflexivity).
  destruct (asked s0 s s' rn HS HD I) as (nd & a & N1 & N2 & N3 & N4 & N5).
  destruct (N5 0x0EF001 0x8A ltac:(clear; lia) ltac:(clear; lia)) as (D1 & D2 & D3). unfold ask_manufacturer.
  destruct (net_post conf s' (rn_addr rn) (read_message 0x0EF001 0x8A)) as [s1 r]. cbn [fst snd] in D1, D2, D3.
  destruct (object_lines_ok t s0 s rn HS I (rn_devices rn ++ rn_profiles rn) 0 s1 (fun o Ho => Ho) D1) as (X1 & X2).
  destruct (object_lines conf t s1 rn 0 (rn_devices rn ++ rn_profiles rn)) as [s2 mine]. cbn [fst snd] in X1, X2.
  destruct (IH (i + 1) s2 (fun q Hq => Hrn q (or_intror Hq)) X1) as (Y1 & Y2).
  destruct (node_lines conf text t s2 (i + 1) rns) as [s3 lines]. cbn [fst snd] in Y1, Y2.
  split; [exact Y1|]. cbn [snd]. cbn [app]. constructor; [|apply Forall2_app; assumption]. cbn [tells].
  eexists nd, _, (pad_right 15 (text (a_ip (n_addr nd)))). split; [exact N1|]. split; [exact N2|]. split; [apply pad_wide|].
  split; [unfold node_line; rewrite N2; reflexivity|]. split; [|split].
  - intros v name HV HM. destruct (D2 v HV) as (resp & -> & E). rewrite E. cbn [pp_data].
    rewrite (proj2 (C75_lookup _ _) HM). reflexivity.
  - intros v HV HM. destruct (D2 v HV) as (resp & -> & E). rewrite E. cbn [pp_data].
    destruct (LookupManufacture (ByteToInteger v)) as [name|] eqn:EL; [|reflexivity].
    exfalso. apply HM. apply C75_lookup in EL. exact (in_map fst _ _ EL).
  - intros HV. destruct (D3 HV) as (resp & -> & E). rewrite E. reflexivity.
Qed.

Lemma wanted_same t rns : items (tool_shows t) rns = items (match t with Uechosearch => is_required | Uechobench => is_readable end) rns.
Proof.
  unfold items. apply flat_map_ext. intros x. f_equal. apply flat_map_ext. intros y. f_equal. f_equal.
  apply filter_ext. intros p. destruct t; unfold tool_shows, IsReadRequired, IsReadable, is_required, is_readable; destruct (p_get p); reflexivity.
Qed.

End Lines.

(** ** The claims *)

Section Statements.
Context {W : Type}.
Implicit Types (s : lan W).

Lemma searched_any conf s0 es : network conf s0 -> l_packets s0 = [] -> l_ctrl s0 = newCtrl ->
  n_self (l_node s0) = false -> Forall (fun h => recorded conf (h_node h) = n_addr (h_node h)) (l_hosts s0) ->
  Forall allowed es -> searched conf s0 (lan_run conf s0 es).
Proof.
  intros HN HP HC Hself HR HA.
  destruct (run_table_shows conf s0 es s0 (settled_start conf s0 HN HP) HA) as (HSs & HT).
  { unfold table_shows. rewrite HC. split; [constructor|intros n []]. }
  repeat (split; [assumption|]). assumption.
Qed.

Lemma searched_run conf s0 es1 esv es2 : network conf s0 -> l_packets s0 = [] -> l_ctrl s0 = newCtrl ->
  n_self (l_node s0) = false -> Forall (fun h => recorded conf (h_node h) = n_addr (h_node h)) (l_hosts s0) ->
  Forall allowed es1 -> In esv [0x62; 0x63] -> Forall allowed es2 -> searched conf s0 (lan_run conf s0 (es1 ++ LSearch 0 esv :: es2)).
Proof.
  intros HN HP HC Hself HR HA1 HE HA2. apply searched_any; try assumption.
  apply Forall_app; split; [exact HA1|constructor; assumption].
Qed.

Lemma bench_rounds conf text s0 s : searched conf s0 s -> forall n s', during conf s s' ->
  during conf s (fst (uechobench conf text n s')) /\
  exists rounds, length rounds = n /\ snd (uechobench conf text n s') = concat rounds /\
    Forall (Forall2 (tells text bench_format "" (map h_node (l_hosts s))) (items is_readable (ct_found (l_ctrl s)))) rounds.
Proof.
  intros HS. induction n as [|n IH]; intros s' HD.
  { split; [exact HD|]. exists []. split; [reflexivity|]. split; [reflexivity|constructor]. }
  cbn [uechobench]. destruct (node_lines_ok conf text Uechobench s0 s HS (ct_found (l_ctrl s)) 0 s' (fun r H => H) HD) as (X1 & X2).
  rewrite (proj2 HD). destruct (node_lines conf text Uechobench s' 0 (ct_found (l_ctrl s))) as [s1 mine]. cbn [fst snd] in X1, X2.
  destruct (IH s1 X1) as (Y1 & rounds & Y2 & Y3 & Y4). destruct (uechobench conf text n s1) as [s2 lines]. cbn [fst snd] in *.
  split; [exact Y1|]. exists (mine :: rounds). split; [cbn [length]; congruence|]. split; [cbn [concat]; congruence|].
  constructor; [|exact Y4]. rewrite <- (wanted_same Uechobench). exact X2.
Qed.

(** uechosearch after a search without losses: the nodes are the members
    of the network; there is one line for each node, object and mandatory property
    to read, in this order, and each line tells what the member holds. *)
Theorem C91_search : forall conf text s0 es1 esv es2, network conf s0 -> l_packets s0 = [] -> l_ctrl s0 = newCtrl ->
  n_self (l_node s0) = false -> Forall (fun h => recorded conf (h_node h) = n_addr (h_node h)) (l_hosts s0) ->
  Forall allowed es1 -> In esv [0x62; 0x63] -> Forall allowed es2 -> Forall lossless es2 ->
  let s := lan_run conf s0 (es1 ++ LSearch 0 esv :: es2) in
  l_packets s = [] ->
  Permutation (map view (ct_found (l_ctrl s))) (map (expected conf) (map h_node (l_hosts s0))) /\
  Forall2 (tells text search_format "--" (map h_node (l_hosts s))) (items is_required (ct_found (l_ctrl s)))
    (snd (uechosearch conf text s)).
Proof.
  intros conf text s0 es1 esv es2 HN HP HC Hself HR HA1 HE HA2 HL s Hq. split.
  - replace (map h_node (l_hosts s0)) with (audible s0) by (unfold audible; rewrite Hself; reflexivity).
    apply C79_found; assumption.
  - rewrite <- (wanted_same Uechosearch). unfold uechosearch.
    apply (node_lines_ok conf text Uechosearch s0 s (searched_run conf s0 es1 esv es2 HN HP HC Hself HR HA1 HE HA2)
      (ct_found (l_ctrl s)) 0 s (fun r H => H)). split; [apply posts_none|reflexivity].
Qed.

(** uechobench: as many rounds as asked for, each with one line for every
    node, object and readable property. *)
Theorem C91_bench : forall conf text n s0 es1 esv es2, network conf s0 -> l_packets s0 = [] -> l_ctrl s0 = newCtrl ->
  n_self (l_node s0) = false -> Forall (fun h => recorded conf (h_node h) = n_addr (h_node h)) (l_hosts s0) ->
  Forall allowed es1 -> In esv [0x62; 0x63] -> Forall allowed es2 -> Forall lossless es2 ->
  let s := lan_run conf s0 (es1 ++ LSearch 0 esv :: es2) in
  l_packets s = [] ->
  Permutation (map view (ct_found (l_ctrl s))) (map (expected conf) (map h_node (l_hosts s0))) /\
  exists rounds, length rounds = n /\ snd (uechobench conf text n s) = concat rounds /\
    Forall (Forall2 (tells text bench_format "" (map h_node (l_hosts s))) (items is_readable (ct_found (l_ctrl s)))) rounds.
Proof.
  intros conf text n s0 es1 esv es2 HN HP HC Hself HR HA1 HE HA2 HL s Hq. split.
  - replace (map h_node (l_hosts s0)) with (audible s0) by (unfold audible; rewrite Hself; reflexivity).
    apply C79_found; assumption.
  - apply (bench_rounds conf text s0 s (searched_run conf s0 es1 esv es2 HN HP HC Hself HR HA1 HE HA2) n s).
    split; [apply posts_none|reflexivity].
Qed.

(** Whatever happened before, also with losses or in the middle of a search: each line
    tells what the member holds, and the programs change no member and
    no entry of the table of nodes. *)
Theorem C91_always : forall conf text n s0 es, network conf s0 -> l_packets s0 = [] -> l_ctrl s0 = newCtrl ->
  n_self (l_node s0) = false -> Forall (fun h => recorded conf (h_node h) = n_addr (h_node h)) (l_hosts s0) ->
  Forall allowed es ->
  let s := lan_run conf s0 es in
  Forall2 (tells text search_format "--" (map h_node (l_hosts s))) (items is_required (ct_found (l_ctrl s)))
    (snd (uechosearch conf text s)) /\
  forall s', In s' [fst (uechosearch conf text s); fst (uechobench conf text n s)] ->
    map h_node (l_hosts s') = map h_node (l_hosts s) /\ ct_found (l_ctrl s') = ct_found (l_ctrl s).
Proof.
  intros conf text n s0 es HN HP HC Hself HR HA s.
  pose proof (searched_any conf s0 es HN HP HC Hself HR HA) as HS. fold s in HS. split.
  { rewrite <- (wanted_same Uechosearch). unfold uechosearch.
    apply (node_lines_ok conf text Uechosearch s0 s HS (ct_found (l_ctrl s)) 0 s (fun r H => H)). split; [apply posts_none|reflexivity]. }
  intros s' Hs'.
  assert (D0 : during conf s s) by (split; [apply posts_none|reflexivity]).
  assert (D : during conf s s').
  { destruct Hs' as [<-|[<-|[]]].
    - apply (node_lines_ok conf text Uechosearch s0 s HS (ct_found (l_ctrl s)) 0 s (fun r H => H) D0).
    - apply (bench_rounds conf text s0 s HS n s D0). }
  destruct D as (D1 & D2). split; [|exact D2].
  destruct HS as (((I1 & I2 & _) & _) & _).
  assert (Rc : ready (l_node s)) by (unfold members in I1; inversion I1; assumption).
  assert (U0 : unchanged s s).
  { unfold unchanged. split; [reflexivity|]. split; [exact I2|]. destruct Rc as (A & _ & _ & B & C & _). auto. }
  apply (posts_unchanged conf s s' D1 U0).
Qed.

End Statements.

(** The code of an object is not shown as other programs show it: no line for an
    object has its six digits there, but the twelve of [spelled], from which the code
    can be told. *)
Theorem C91_code_refuted : forall text f none nds rn j o line, tells text f none nds (IObject rn j o) line ->
  exists k, standard_class (Code o) = Some k /\
    line <> ("    [" ++ fmt_d j ++ "] " ++ fmt_X 6 (Code o) ++ " (" ++ nc_name k ++ ")")%string.
Proof.
  intros text f none nds rn j o line (k & shown & K & S & ->). exists k. split; [exact K|]. intros E.
  assert (A : forall a b, String.length (a ++ b) = (String.length a + String.length b)%nat)
    by (induction a as [|x a IH]; intros b; cbn; [reflexivity|rewrite IH; reflexivity]).
  apply (f_equal String.length) in E. rewrite !A in E. rewrite (spelled_length _ _ S) in E.
  assert (L : (6 <= String.length (fmt_X 6 (Code o)))%nat).
  { unfold fmt_X. cbv zeta. rewrite CmdFacts.text_length, map_length, app_length, repeat_length. lia. }
  revert E L. clear. generalize (String.length (fmt_X 6 (Code o))) (String.length (fmt_d j)) (String.length (nc_name k)). intros. lia.
Qed.

(** Lines for objects that look alike have the same code. *)
Theorem C91_code_told : forall shown c c', CmdFacts.printable c -> CmdFacts.printable c' ->
  spelled (fmt_X 6 c) shown -> spelled (fmt_X 6 c') shown -> c = c'.
Proof. intros shown c c' H H' S S'. exact (CmdFacts.fmt_X_inj 6 6 c c' H H' (spelled_inj _ _ S _ S')). Qed.

(** ** A network *)

Definition ex_text (ip : Z) : string := if ip =? 7 then "192.168.0.7"%string else "192.168.0.9"%string.

Definition ex_lan : lan unit := lan_run ex_conf ex_net ([] ++ LSearch 0 0x62 :: ex_deliveries).

Example C91_example :
  firstn 12 (snd (uechosearch ex_conf ex_text ex_lan)) =
  ["[0] 192.168.0.9    :3610 (Experimental)";
   "    [0] 303239303031 (General lighting)";
   "        [80] Operation status: 30";
   "        [81] Installation location: --";
   "        [82] Standard version information: --";
   "        [88] Fault status: --";
   "        [8A] Manufacturer code: ffffff";
   "        [9D] Status change announcement property map: --";
   "        [9E] Set property map: --";
   "        [9F] Get property map: --";
   "        [B6] Lighting mode setting: --";
   "    [1] 304546303031 (Node profile)"]%string.
Proof. vm_compute. reflexivity. Qed.

(** The number of lines of three rounds of the other program, and one of them. *)
Example C91_example_bench :
  let lines := snd (uechobench ex_conf ex_text 3 ex_lan) in
  (length lines, nth 3 lines ""%string) = (858%nat, "        [81]  (Installation location)"%string).
Proof. vm_compute. reflexivity. Qed.

(** The hypotheses hold for this network. *)
Example C91_applies :
  Forall2 (tells ex_text search_format "--" (map h_node (l_hosts ex_lan))) (items is_required (ct_found (l_ctrl ex_lan)))
    (snd (uechosearch ex_conf ex_text ex_lan)).
Proof.
  assert (H1 : l_packets (lan_run ex_conf ex_net ([] ++ LSearch 0 0x62 :: ex_deliveries)) = []) by (vm_compute; reflexivity).
  assert (H2 : n_self (l_node ex_net) = false) by (vm_compute; reflexivity).
  assert (H3 : Forall (fun h => recorded ex_conf (h_node h) = n_addr (h_node h)) (l_hosts ex_net)).
  { apply Forall_cons; [vm_compute; reflexivity|]. apply Forall_cons; [vm_compute; reflexivity|]. apply Forall_nil. }
  assert (H4 : Forall allowed ex_deliveries) by (unfold ex_deliveries; repeat (apply Forall_cons; [exact I|]); apply Forall_nil).
  assert (H5 : Forall lossless ex_deliveries) by (unfold ex_deliveries; repeat (apply Forall_cons; [exact I|]); apply Forall_nil).
  apply (C91_search ex_conf ex_text ex_net [] 0x62 ex_deliveries ex_network eq_refl eq_refl H2 H3 (Forall_nil _) (or_introl eq_refl) H4 H5 H1).
Qed.

Print Assumptions C91_search.
Print Assumptions C91_bench.
Print Assumptions C91_always.
Print Assumptions C91_code_refuted.
Print Assumptions C91_code_told.

(** C100: the texts of messages and of nodes tell them apart. *)

From Coq Require Import String.
From Verif Require Import Go GoFacts Encoding Spec Protocol Parser ProtocolFacts HandlerFacts Cmd CmdFacts PropsCmd PropsDetails PropsPostTool Packet AddressText PropsAddress NodeText PropsProtocol PropsPrograms PropsConnection.
Local Open Scope Z_scope.

(** ** Messages *)

(** The content of a message as its getters show it. *)
Definition shown (m : message) : content :=
  mkContent (TID m) (SEOJ m) (DEOJ m) (m_esv m) (map (fun p => (pp_code p, pp_data p)) (m_ep m)).

Lemma received_represents m : received m -> represents m (shown m) /\ in_limits (shown m).
Proof.
  intros HR. pose proof (received_short m HR) as HS. destruct HR as (data & m0 & a & t & HB & HM & ->).
  destruct (decoded_represents data m0 HB HM) as (c & R & (L1 & L2 & L3 & L4 & L5) & L6).
  cbn [SetPacketType SetFrom m_ep] in HS.
  assert (L : in_limits c).
  { destruct R as (_ & _ & _ & _ & _ & _ & HP & _). rewrite HP in HS.
    repeat (split; [assumption|]). revert HS L6. clear. generalize (c_props c). intros ps. induction ps as [|[x d] ps IH]; intros HS L6; [constructor|].
    inversion HS as [|? ? S1 S2]; subst. inversion L6 as [|? ? T1 T2]; subst. constructor; [|apply IH; assumption].
    destruct T1 as (T1 & T3). split; [exact T1|]. split; [exact S1|exact T3]. }
  destruct (represents_getters m0 c R L) as (G1 & G2 & G3 & G4 & G5 & G6).
  assert (E : shown (SetPacketType (SetFrom m0 a) t) = c).
  { unfold shown. change (TID (SetPacketType (SetFrom m0 a) t)) with (TID m0). change (SEOJ (SetPacketType (SetFrom m0 a) t)) with (SEOJ m0).
    change (DEOJ (SetPacketType (SetFrom m0 a) t)) with (DEOJ m0). cbn [SetPacketType SetFrom m_esv m_ep].
    rewrite G1, G2, G3, G4, G6, map_map. destruct c as [x1 x2 x3 x4 x5]. cbn [c_tid c_seoj c_deoj c_esv c_props]. f_equal.
    clear. induction x5 as [|[u v] x5 IH]; [reflexivity|]. cbn [map]. rewrite IH. reflexivity. }
  rewrite E. split; [exact R|exact L].
Qed.

Lemma wire_bytes c : in_limits c -> is_bytes (wire c).
Proof.
  intros (Ht & Hs & Hd & He & Hl & Hp). change (2 ^ 24) with 16777216 in *. unfold wire, wire_frame, be2, be3, is_bytes. cbn [app].
  repeat (apply Forall_cons; [unfold is_byte; lia|]).
  induction Hp as [|[x d] ps (P1 & P2 & P3) _ IH]; [constructor|]. cbn [flat_map wire_prop fst snd app]. cbn [fst snd] in *.
  constructor; [exact P1|]. constructor; [unfold is_byte; lia|]. apply Forall_app. split; [exact P3|].
  apply IH. cbn [length] in Hl. lia.
Qed.

Lemma represented_text m c : represents m c -> in_limits c -> MsgString (Some m) = Ok (hex_text (wire c)).
Proof.
  intros HR HL. unfold MsgString. rewrite (represents_Bytes m c HR HL). cbn [bind]. rewrite hex_encode; [reflexivity|]. apply wire_bytes, HL.
Qed.

Lemma hex_text_inj a : is_bytes a -> forall b, is_bytes b -> hex_text a = hex_text b -> a = b.
Proof.
  intros HA b HB E. rewrite <- (hex_encode a HA), <- (hex_encode b HB) in E.
  assert (X : map lower_digit (nibbles a) = map lower_digit (nibbles b)).
  { unfold EncodeToString in E. apply text_inj in E. revert E. unfold nibbles.
    assert (G : forall l, flat_map (fun b0 => [lower_digit (b0 / 16); lower_digit (b0 mod 16)]) l = map lower_digit (flat_map (fun b0 => [b0 / 16; b0 mod 16]) l)).
    { induction l as [|x l IH]; [reflexivity|]. cbn [flat_map app map]. rewrite IH. reflexivity. }
    rewrite !G. auto. }
  apply nibbles_inj. revert X. generalize (nibbles_range a HA) (nibbles_range b HB). generalize (nibbles a) (nibbles b). clear.
  induction l as [|x l IH]; intros [|y k] Hl Hk E; try discriminate E; [reflexivity|].
  inversion Hl as [|? ? X1 X2]; subst. inversion Hk as [|? ? Y1 Y2]; subst. injection E as E1 E2. f_equal; [|apply IH; assumption].
  destruct (digit_value x X1) as [_ Ex]. destruct (digit_value y Y1) as [_ Ey]. congruence.
Qed.

Lemma written_spells s ds : PropsPrograms.written s ds -> spells s ds.
Proof. induction 1; constructor; assumption. Qed.

(** The text of a message built within the limits of the format is the frame it stands
    for, two digits of 0123456789abcdef for each byte. *)
Theorem C100_built : forall ops, in_limits (content_of ops) ->
  MsgString (Some (built ops)) = Ok (hex_text (wire (content_of ops))).
Proof. intros ops HL. apply represented_text; [apply built_represents|exact HL]. Qed.

(** So is the text of a message that came from the network, with what its getters show,
    wherever and however it came. *)
Theorem C100_received : forall m, received m -> MsgString (Some m) = Ok (hex_text (wire (shown m))).
Proof. intros m HR. destruct (received_represents m HR) as (R & L). apply represented_text; assumption. Qed.

(** A message has no other text: the tools' reading of hexadecimal texts gives the
    frame, and its decoder the fields of the message. *)
Theorem C100_read_back : forall m, received m -> exists text data back,
  MsgString (Some m) = Ok text /\ hexStringToByte text = Ok data /\ NewMessageWithBytes data = Ok back /\
  TID back = TID m /\ SEOJ back = SEOJ m /\ DEOJ back = DEOJ m /\ m_esv back = m_esv m /\ OPC back = OPC m /\ m_ep back = m_ep m.
Proof.
  intros m HR. destruct (received_represents m HR) as (R & L). pose proof (wire_bytes _ L) as WB.
  destruct (wire_parses (shown m) L) as (back & EB & RB & _).
  exists (hex_text (wire (shown m))), (wire (shown m)), back. split; [apply represented_text; assumption|]. split.
  - pose proof (hexStringToByte_spec (hex_text (wire (shown m)))) as HX.
    assert (SP : spells (hex_text (wire (shown m))) (nibbles (wire (shown m)))).
    { rewrite <- hex_encode by exact WB. apply written_spells, written_encode, WB. }
    destruct (hexStringToByte (hex_text (wire (shown m)))) as [bs|e|].
    + destruct HX as (HX & _). f_equal. apply nibbles_inj. exact (spells_fun _ _ _ HX SP).
    + exfalso. exact (HX _ SP).
    + destruct HX.
  - split; [exact EB|].
    destruct (represents_getters _ _ R L) as (A1 & A2 & A3 & A4 & A5 & A6).
    destruct (represents_getters _ _ RB L) as (B1 & B2 & B3 & B4 & B5 & B6).
    repeat split; congruence.
Qed.

(** Two messages from the network have the same text exactly if Equals says they are
    equal, and exactly if they have the same fields. *)
Theorem C100_messages : forall m m', received m -> received m' ->
  (MsgString (Some m) = MsgString (Some m') <->
   TID m = TID m' /\ SEOJ m = SEOJ m' /\ DEOJ m = DEOJ m' /\ m_esv m = m_esv m' /\ OPC m = OPC m' /\ m_ep m = m_ep m') /\
  (MsgString (Some m) = MsgString (Some m') <-> Equals (Some m) (Some m') = Ok true).
Proof.
  intros m m' HR HR'. destruct (received_represents m HR) as (R & L). destruct (received_represents m' HR') as (R' & L').
  rewrite (represented_text _ _ R L), (represented_text _ _ R' L').
  assert (K : Ok (hex_text (wire (shown m))) = Ok (hex_text (wire (shown m'))) <-> shown m = shown m').
  { split; [|intros ->; reflexivity]. intros E. assert (E' := f_equal (fun r => match r with Ok t => t | _ => EmptyString end) E). cbv beta iota in E'. clear E. apply wire_inj; [assumption..|]. apply hex_text_inj; [apply wire_bytes; assumption..|exact E']. }
  rewrite K. split.
  - destruct (represents_getters _ _ R L) as (A1 & A2 & A3 & A4 & A5 & A6).
    destruct (represents_getters _ _ R' L') as (B1 & B2 & B3 & B4 & B5 & B6). split.
    + intros E. repeat split; congruence.
    + intros (E1 & E2 & E3 & E4 & E5 & E6). unfold shown. congruence.
  - destruct (equals_built _ _ _ _ R L R' L') as (b & EB & HB). rewrite EB, <- HB. split; [intros ->; reflexivity|intros [= ->]; reflexivity].
Qed.

(** No message has the text of a nil message. *)
Theorem C100_nil : MsgString None = Ok EmptyString /\ forall m, received m -> MsgString (Some m) <> MsgString None.
Proof.
  split; [reflexivity|]. intros m HR. rewrite (C100_received m HR). unfold MsgString. intros [= E].
Qed.

(** ** Nodes *)

Lemma text_as16 ip : an_ip ip -> IP_String (as16 ip) = IP_String ip.
Proof.
  intros (_ & [->|[L|L]]).
  - reflexivity.
  - destruct ip as [|a [|b [|c [|d [|]]]]]; try discriminate L. reflexivity.
  - unfold as16. rewrite L. reflexivity.
Qed.
Lemma same_text a b : an_ip a -> an_ip b -> as16 a = as16 b -> IP_String a = IP_String b.
Proof. intros A B E. rewrite <- (text_as16 a A), <- (text_as16 b B), E. reflexivity. Qed.

(** Equals of two nodes says that they show the same address and the same port. *)
Theorem C100_equals : forall a b, nodeEquals a b = true <-> nf_address a = nf_address b /\ nf_port a = nf_port b.
Proof.
  intros a b. unfold nodeEquals. destruct (nf_port a =? nf_port b) eqn:E1; cbn [negb].
  - destruct (bytes_eqb (nf_address a) (nf_address b)) eqn:E2; cbn [negb].
    + rewrite bytes_eqb_eq in E2. apply Z.eqb_eq in E1. split; auto.
    + split; [discriminate|]. intros (X & _). apply bytes_eqb_eq in X. congruence.
  - split; [discriminate|]. intros (_ & X). apply Z.eqb_eq in X. congruence.
Qed.

(** Two nodes have the same text exactly if they are equal: for all addresses without
    brackets, as all texts of IP addresses, with or without a zone, and the empty one. *)
Definition plain_host (s : list Z) : Prop := ~ In 91 s /\ ~ In 93 s.
Theorem C100_nodes : forall a b, plain_host (nf_address a) -> plain_host (nf_address b) -> an_int (nf_port a) -> an_int (nf_port b) ->
  (Node_String a = Node_String b <-> nodeEquals a b = true).
Proof.
  intros a b (A1 & A2) (B1 & B2) PA PB. rewrite C100_equals. split.
  - intros E. destruct (port_chars _ PA) as (X1 & X2 & X3). destruct (port_chars _ PB) as (Y1 & Y2 & Y3).
    pose proof (split_join (nf_address a) (Itoa (nf_port a)) A1 A2 X1 X2 X3) as SA.
    pose proof (split_join (nf_address b) (Itoa (nf_port b)) B1 B2 Y1 Y2 Y3) as SB.
    unfold Node_String in E. rewrite E, SB in SA. injection SA as E1 E2. split; [congruence|].
    pose proof (Atoi_Itoa _ PA) as TA. pose proof (Atoi_Itoa _ PB) as TB. rewrite E2 in TB. congruence.
  - destruct a, b. cbn. intros (-> & ->). reflexivity.
Qed.

(** Nodes at IP addresses: the text is that of the address, and tells the nodes apart as
    their addresses and ports do. *)
Theorem C100_ip_nodes : forall ip ip' port port', an_ip ip -> an_ip ip' -> an_int port -> an_int port' ->
  (nodeEquals (mkFace (IP_String ip) port) (mkFace (IP_String ip') port') = true <-> as16 ip = as16 ip' /\ port = port') /\
  (Node_String (mkFace (IP_String ip) port) = Node_String (mkFace (IP_String ip') port') <-> as16 ip = as16 ip' /\ port = port').
Proof.
  intros ip ip' port port' HI HI' HP HP'. rewrite C100_nodes; try assumption; try (apply text_no_brackets; assumption).
  rewrite C100_equals. cbn [nf_address nf_port].
  enough (K : IP_String ip = IP_String ip' <-> as16 ip = as16 ip') by (rewrite K; tauto). split.
  - apply C92_ip_injective; assumption.
  - apply same_text; assumption.
Qed.

(** ** Cases *)

Example C100_example :
  MsgString (Some (built sample_ops)) = Ok "1081123405ff010290016102800130b000"%string.
Proof. vm_compute. reflexivity. Qed.

Example C100_example_received : exists m m', NewMessageWithBytes [16; 129; 0; 7; 14; 240; 1; 5; 255; 1; 115; 1; 213; 4; 1; 2; 144; 1] = Ok m /\
  NewMessageWithBytes [16; 129; 0; 7; 14; 240; 1; 5; 255; 1; 115; 1; 213; 4; 1; 2; 144; 2] = Ok m' /\
  MsgString (Some (SetPacketType m UDPUnicastPacket)) = Ok "108100070ef00105ff017301d50401029001"%string /\
  MsgString (Some m) = Ok "108100070ef00105ff017301d50401029001"%string /\
  MsgString (Some m') = Ok "108100070ef00105ff017301d50401029002"%string /\ Equals (Some m) (Some m') = Ok false.
Proof. eexists. eexists. split; [vm_compute; reflexivity|]. split; [vm_compute; reflexivity|]. vm_compute. repeat split. Qed.

Example C100_example_nodes :
  Node_String (mkFace (IP_String [192; 168; 1; 10]) 3610) = bytes_of "192.168.1.10:3610" /\
  Node_String (mkFace (IP_String fe80) 3610) = bytes_of "[fe80::1]:3610" /\
  Node_String (mkFace [] 0) = bytes_of ":0" /\
  nodeEquals (mkFace (IP_String [192; 168; 1; 10]) 3610) (mkFace (IP_String [192; 168; 1; 10]) 3611) = false /\
  nodeEquals (mkFace (IP_String [192; 168; 1; 10]) 3610) (mkFace (IP_String [192; 168; 11; 0]) 3610) = false.
Proof. vm_compute. repeat split. Qed.

Print Assumptions C100_built.
Print Assumptions C100_received.
Print Assumptions C100_read_back.
Print Assumptions C100_messages.
Print Assumptions C100_nil.
Print Assumptions C100_equals.
Print Assumptions C100_nodes.
Print Assumptions C100_ip_nodes.

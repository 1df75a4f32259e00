(** Facts about messages on their way. *)

From Verif Require Import Go GoFacts Encoding EncodingFacts Protocol Parser MessageFacts ParserFacts
  ProtocolFacts Reader StdDB Property PropertyFacts Object ObjectFacts Spec Node NodeFacts Handler HandlerFacts
  Transport TransportFacts Exchange.
From Verif Require PropsProtocol PropsNode PropsHandler.
From Coq Require Import ZifyBool ZifyNat.
Local Open Scope Z_scope.

(** ** Messages with a given content *)

Definition adds (ps : list pprop) : list msg_op := map (fun p => OAddProperty (pp_code p) (pp_data p)) ps.

Lemma fold_adds ps : forall m, fold_left AddProperty ps m = fold_left apply_op (adds ps) m.
Proof.
  induction ps as [|[c d] ps IH]; intros m; [reflexivity|]. cbn [fold_left adds map apply_op pp_code pp_data].
  apply IH.
Qed.

Lemma content_adds ps : forall c,
  fold_left content_step (adds ps) c =
  mkContent (c_tid c) (c_seoj c) (c_deoj c) (c_esv c) (c_props c ++ map to_pair ps).
Proof.
  induction ps as [|[k d] ps IH]; intros c; cbn [fold_left adds map].
  - rewrite app_nil_r. destruct c; reflexivity.
  - fold (adds ps). rewrite IH. cbn [content_step c_tid c_seoj c_deoj c_esv c_props to_pair pp_code pp_data].
    rewrite <- app_assoc. reflexivity.
Qed.

Lemma built_app l l' : built (l ++ l') = fold_left apply_op l' (built l).
Proof. unfold built. apply fold_left_app. Qed.

Lemma content_app l l' : content_of (l ++ l') = fold_left content_step l' (content_of l).
Proof. unfold content_of. apply fold_left_app. Qed.

Lemma request_represents obj esv ps tid seoj :
  represents (SetSEOJ (SetTID (new_request obj esv ps) tid) seoj) (mkContent tid seoj obj esv (map to_pair ps)).
Proof.
  unfold new_request, AddProperties.
  rewrite fold_adds.
  change (fold_left apply_op (adds ps) (SetESV (SetDEOJ NewMessage obj) esv))
    with (fold_left apply_op (adds ps) (built [OSetDEOJ obj; OSetESV esv])).
  rewrite <- built_app.
  change (SetSEOJ (SetTID (built ([OSetDEOJ obj; OSetESV esv] ++ adds ps)) tid) seoj)
    with (fold_left apply_op [OSetTID tid; OSetSEOJ seoj] (built ([OSetDEOJ obj; OSetESV esv] ++ adds ps))).
  rewrite <- built_app. pose proof (built_represents (([OSetDEOJ obj; OSetESV esv] ++ adds ps) ++ [OSetTID tid; OSetSEOJ seoj])) as H.
  rewrite !content_app, content_adds in H. exact H.
Qed.

Lemma response_represents o req :
  represents (response_for o req)
    (mkContent (TID req) (DEOJ req) (SEOJ req) (response_esv (m_esv req)) (map to_pair (flat_map (found o) (visited req)))).
Proof.
  unfold response_for. rewrite fold_adds.
  set (ops := [OSetTID (TID req); OSetSEOJ (DEOJ req); OSetDEOJ (SEOJ req); OSetESV (response_esv (m_esv req))]).
  change (NewResponseMessageWithMessage req) with (built ops). rewrite <- built_app.
  pose proof (built_represents (ops ++ adds (flat_map (found o) (visited req)))) as H.
  rewrite content_app, content_adds in H. exact H.
Qed.

(** ** Datagrams *)

Lemma wire_bytes c : in_limits c -> is_bytes (wire c).
Proof. intros H. apply wire_frame_bytes. exact H. Qed.

(** A message within the limits arrives as it was sent. *)
Lemma wire_arrives c self : in_limits c -> (length (wire c) <= 1024)%nat ->
  exists r, ReadMessage (mkDatagram (wire c) self) = Ok r /\ m_from r = self /\
    represents r c /\ (forall pt, received (SetPacketType r pt)).
Proof.
  intros HL Hlen.
  destruct (parse_wire _ _ _ _ _ [] HL) as (x & Ex & H1 & H2 & H3 & H4 & H5 & H6 & F1 & F2 & F3 & F4 & F5 & _); [constructor|].
  rewrite app_nil_r in Ex. fold (wire c) in Ex.
  exists (SetFrom x self). split.
  - unfold ReadMessage. rewrite max_packet. cbn [d_bytes d_from]. rewrite firstn_all2 by exact Hlen.
    rewrite Ex. reflexivity.
  - split; [reflexivity|]. split.
    { destruct HL as (Lt & Ls & Ld & Le & Ll & Lp).
      repeat split; cbn [SetFrom m_ehd1 m_ehd2 m_seoj m_deoj m_esv m_ep m_opc]; try assumption.
      - rewrite SetTID_TID by lia. symmetry. exact F3.
      - rewrite IntegerToByte_3 by assumption. exact F4.
      - rewrite IntegerToByte_3 by assumption. exact F5.
      - unfold OPC in H5. rewrite H5. unfold len. rewrite Z.mod_small by lia. reflexivity. }
    intros pt. exists (wire c), x, self, pt. split; [apply wire_bytes, HL|]. split; [exact Ex|reflexivity].
Qed.

Lemma UDP_sent m c self : represents m c -> in_limits c -> UDP_SendMessage self m = Ok (mkDatagram (wire c) self).
Proof. intros HR HL. unfold UDP_SendMessage. rewrite (represents_Bytes m c HR HL). reflexivity. Qed.

Lemma represents_from m c a : represents m c -> represents (SetFrom m a) c.
Proof. intros H. exact H. Qed.

Lemma represents_type m c t : represents m c -> represents (SetPacketType m t) c.
Proof. intros H. exact H. Qed.

(** ** Streams *)

Lemma stream_concat tid seoj deoj esv props :
  concat (PropsProtocol.stream_pieces tid seoj deoj esv props) = wire_frame tid seoj deoj esv props.
Proof.
  unfold PropsProtocol.stream_pieces, wire_frame. cbn [app concat]. rewrite <- !app_assoc. cbn [app].
  assert (E : concat (flat_map (fun p : Z * list Z => [[fst p; Z.of_nat (length (snd p))]; snd p]) props)
              = flat_map wire_prop props).
  { induction props as [|p props IH]; [reflexivity|]. cbn [flat_map app concat]. rewrite IH. reflexivity. }
  rewrite E. unfold be2, be3. reflexivity.
Qed.

(** ** Sending *)

Lemma header_run nd msg : core_inv (core_of nd) -> tid_ok nd ->
  let t := (n_lastTID nd + 1) mod 65536 in
  updateMessageDestinationHeader nd msg = (with_lastTID nd t, Ok (SetSEOJ (SetTID msg t) 0x0EF001)).
Proof.
  intros (_ & _ & (np & rest & Ep & Hc & _)) HT t. cbn [core_of k_profs] in Ep.
  unfold updateMessageDestinationHeader. rewrite NextTID_spec by assumption.
  rewrite (NodeProfile_first (with_lastTID nd ((n_lastTID nd + 1) mod 65536)) np rest Ep Hc). cbn [obj_at].
  change (n_profiles (with_lastTID nd ((n_lastTID nd + 1) mod 65536))) with (n_profiles nd).
  rewrite Ep. cbn [nth_error]. rewrite (np_Code np Hc). reflexivity.
Qed.

Lemma SendMessage_run nd dst msg : core_inv (core_of nd) -> tid_ok nd -> n_running nd = true ->
  let t := (n_lastTID nd + 1) mod 65536 in
  SendMessage nd dst msg =
    (hand_over (with_lastTID nd t) (Unicast dst (SetSEOJ (SetTID msg t) 0x0EF001)), None).
Proof.
  intros HI HT HR t. unfold SendMessage, send_with. rewrite HR. cbn [negb].
  rewrite header_run by assumption. reflexivity.
Qed.

Lemma node_after_ok ops nd : Forall node_op_ok ops -> node_after ops = Ok nd -> core_inv (core_of nd) /\ tid_ok nd.
Proof.
  intros H E. destruct (node_after_spec ops H) as (nd' & E' & HI & _ & HT & _).
  assert (nd' = nd) by congruence. subst nd'. split; [assumption|]. unfold tid_ok. rewrite HT. apply mod_tid.
Qed.

(** Frames that are cut behind their header, further theorems of C05 and C47: what
    arrives, exactly. *)

From Verif Require Import Go Spec Encoding Protocol Parser ParserFacts ProtocolFacts PropsProtocol.
From Coq Require Import ZifyBool ZifyNat.
From Verif Require Import GoFacts MessageFacts Transport TransportFacts TransportStart PropsTransport.
Local Open Scope Z_scope.

Definition seen (m : message) : list (Z * list Z) := map (fun p => (pp_code p, pp_data p)) (m_ep m).

Lemma split_prefix pre : forall k area, split_props (length pre + k) (flat_map wire_prop pre ++ area) = pre ++ split_props k area.
Proof.
  induction pre as [|(c, d) pre IH]; intros k area; [reflexivity|].
  cbn [length Nat.add flat_map wire_prop fst snd app split_props]. rewrite <- app_assoc.
  rewrite app_length, app_length. destruct (Z.leb_spec (Z.of_nat (length d)) (Z.of_nat (length d + (length (flat_map wire_prop pre) + length area)))) as [_|H]; [|lia].
  rewrite Nat2Z.id, firstn_app, skipn_app, Nat.sub_diag, firstn_all, skipn_all. cbn [firstn skipn app].
  rewrite app_nil_r, IH. reflexivity.
Qed.

(** A frame cut anywhere behind its header: header and number of properties arrive, the
    properties in front of the cut arrive unchanged and in place; of the property that
    is cut at most the code arrives, and what arrived of its data is read as the
    properties behind it. *)
Theorem C05_arrives : forall c pre q post k,
  in_limits c -> c_props c = pre ++ q :: post ->
  (12 + length (flat_map wire_prop pre) <= k < 12 + length (flat_map wire_prop (pre ++ [q])))%nat ->
  exists m, NewMessageWithBytes (firstn k (wire c)) = Ok m /\
    TID m = c_tid c /\ SEOJ m = c_seoj c /\ DEOJ m = c_deoj c /\ m_esv m = c_esv c /\
    OPC m = Z.of_nat (length (c_props c)) /\
    seen m = pre ++ (if Nat.eqb k (12 + length (flat_map wire_prop pre)) then 0 else fst q, []) ::
             split_props (length post) (firstn (k - (12 + length (flat_map wire_prop pre)) - 2) (snd q)).
Proof.
  intros c pre q post k HL EP Hk.
  assert (L5 : (length (c_props c) <= 255)%nat) by apply HL.
  pose proof (wire_frame_bytes _ _ _ _ _ HL) as HB. fold (wire c) in HB.
  set (a := length (flat_map wire_prop pre)) in *.
  assert (EW : wire c = 0x10 :: 0x81 :: c_tid c / 256 :: c_tid c mod 256 ::
     c_seoj c / 65536 :: (c_seoj c / 256) mod 256 :: c_seoj c mod 256 ::
     c_deoj c / 65536 :: (c_deoj c / 256) mod 256 :: c_deoj c mod 256 ::
     c_esv c :: Z.of_nat (length (c_props c)) :: flat_map wire_prop (c_props c)) by reflexivity.
  assert (EF : firstn k (wire c) = 0x10 :: 0x81 :: c_tid c / 256 :: c_tid c mod 256 ::
     c_seoj c / 65536 :: (c_seoj c / 256) mod 256 :: c_seoj c mod 256 ::
     c_deoj c / 65536 :: (c_deoj c / 256) mod 256 :: c_deoj c mod 256 ::
     c_esv c :: Z.of_nat (length (c_props c)) :: firstn (k - 12) (flat_map wire_prop (c_props c))).
  { rewrite EW. replace k with (12 + (k - 12))%nat at 1 by lia. reflexivity. }
  assert (HB' : Forall (fun b => 0 <= b < 256) (firstn k (wire c))) by (apply Forall_firstn; exact HB).
  rewrite EF in HB'. apply Forall_inv_tail in HB'. apply Forall_inv_tail in HB'.
  destruct (C03_decoder_exact (c_tid c / 256) (c_tid c mod 256)
     (c_seoj c / 65536) ((c_seoj c / 256) mod 256) (c_seoj c mod 256)
     (c_deoj c / 65536) ((c_deoj c / 256) mod 256) (c_deoj c mod 256)
     (c_esv c) (Z.of_nat (length (c_props c))) (firstn (k - 12) (flat_map wire_prop (c_props c))) HB')
    as (m & EM & H1 & H2 & H3 & H4 & H5 & H6).
  exists m. rewrite EF. split; [exact EM|].
  split; [rewrite H1; pose proof (Z.div_mod (c_tid c) 256); lia|].
  split; [rewrite H2; apply be3_sum|]. split; [rewrite H3; apply be3_sum|].
  split; [exact H4|]. split; [exact H5|]. unfold seen. rewrite H6, Nat2Z.id.
  rewrite EP, flat_map_app, app_length. cbn [flat_map length].
  rewrite firstn_app. fold a. rewrite firstn_all2 by (fold a; lia). rewrite split_prefix. f_equal.
  rewrite flat_map_app, app_length in Hk. fold a in Hk. cbn [flat_map] in Hk. rewrite app_nil_r in Hk.
  replace (k - 12 - a)%nat with (k - (12 + a))%nat by lia. set (j := (k - (12 + a))%nat) in *.
  rewrite firstn_app. replace (j - length (wire_prop q))%nat with 0%nat by lia. cbn [firstn]. rewrite app_nil_r.
  destruct q as (qc, qd). unfold wire_prop in *. cbn [fst snd length] in *.
  assert (Ej : (k = 12 + a + j)%nat) by lia. clearbody j. destruct j as [|[|j]].
  - rewrite (proj2 (Nat.eqb_eq k (12 + a)%nat)) by lia. reflexivity.
  - rewrite (proj2 (Nat.eqb_neq k (12 + a)%nat)) by lia. reflexivity.
  - rewrite (proj2 (Nat.eqb_neq k (12 + a)%nat)) by lia. cbn [firstn split_props Nat.sub].
    rewrite firstn_length_le by lia. destruct (Z.leb_spec (Z.of_nat (length qd)) (Z.of_nat j)) as [H|_]; [lia|]. rewrite Nat.sub_0_r. reflexivity.
Qed.

(** Every cut behind the header is in one of these places. *)
Lemma cut_place ps : forall k, (k < length (flat_map wire_prop ps))%nat ->
  exists pre q post, ps = pre ++ q :: post /\
    (length (flat_map wire_prop pre) <= k < length (flat_map wire_prop (pre ++ [q])))%nat.
Proof.
  induction ps as [|p ps IH]; intros k H; [cbn in H; lia|]. cbn [flat_map] in H. rewrite app_length in H.
  destruct (Nat.lt_ge_cases k (length (wire_prop p))) as [L|L].
  - exists [], p, ps. split; [reflexivity|]. cbn [app flat_map length]. rewrite app_nil_r. lia.
  - destruct (IH (k - length (wire_prop p))%nat) as (pre & q & post & -> & B); [lia|].
    exists (p :: pre), q, post. split; [reflexivity|]. cbn [app flat_map]. rewrite !app_length. lia.
Qed.

(** A message longer than the receive buffer, wherever the buffer ends: the same for
    the datagram. *)
Theorem C47_arrives : forall c from,
  in_limits c -> (1024 < length (wire c))%nat ->
  exists pre q post m, c_props c = pre ++ q :: post /\
    (12 + length (flat_map wire_prop pre) <= 1024 < 12 + length (flat_map wire_prop (pre ++ [q])))%nat /\
    ReadMessage (mkDatagram (wire c) from) = Ok m /\
    TID m = c_tid c /\ SEOJ m = c_seoj c /\ DEOJ m = c_deoj c /\ m_esv m = c_esv c /\
    OPC m = Z.of_nat (length (c_props c)) /\ m_from m = from /\
    seen m = pre ++ (if Nat.eqb 1024 (12 + length (flat_map wire_prop pre)) then 0 else fst q, []) ::
             split_props (length post) (firstn (1024 - (12 + length (flat_map wire_prop pre)) - 2) (snd q)).
Proof.
  intros c from HL H. pose proof (wire_length c) as WL.
  destruct (cut_place (c_props c) 1012) as (pre & q & post & E & B); [lia|].
  destruct (C05_arrives c pre q post 1024 HL E) as (m & EM & H1 & H2 & H3 & H4 & H5 & H6); [lia|].
  exists pre, q, post, (SetFrom m from). split; [exact E|]. split; [lia|]. split.
  - unfold ReadMessage. rewrite max_packet. cbn [d_bytes d_from]. rewrite EM. reflexivity.
  - repeat (split; [first [assumption|reflexivity]|]). exact H6.
Qed.

(** The second property is cut behind its length: its first two bytes are the code and
    the length of the third, which takes what follows as its data. *)
Example C05_arrives_example :
  let c := mkContent 1 0x05FF01 0x029001 0x61 [(0x80, [0x30]); (0xB0, [0x81; 1; 0x42; 9]); (0xB1, [7])] in
  option_map seen (match NewMessageWithBytes (firstn 20 (wire c)) with Ok m => Some m | _ => None end) =
  Some [(0x80, [0x30]); (0xB0, []); (0x81, [0x42])].
Proof. vm_compute. reflexivity. Qed.

Print Assumptions C05_arrives.
Print Assumptions C47_arrives.

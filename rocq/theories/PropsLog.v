(** C104: what a line of the transport log tells. *)

From Coq Require Import String Ascii ZifyBool ZifyNat.
From Verif Require Import Go GoFacts Encoding EncodingFacts Protocol Parser Reader Spec MessageFacts ParserFacts ProtocolFacts ExchangeFacts Cmd Transport TransportFacts AddressText Bound Packet LogText.
From Verif Require Import PropsAddress PropsDetails PropsConnection.
Local Open Scope Z_scope.
Local Open Scope list_scope.

(** ** Words *)

Fixpoint skip (s : list Z) : list Z := match s with c :: t => if c =? 32 then skip t else s | [] => [] end.
Fixpoint word (s : list Z) : list Z * list Z :=
  match s with
  | [] => ([], [])
  | c :: t => if c =? 32 then ([], t) else let '(w, r) := word t in (c :: w, r)
  end.

Lemma skip_blanks n s : skip (repeat 32 n ++ s) = skip s.
Proof. induction n as [|n IH]; [reflexivity|exact IH]. Qed.
Lemma skip_word w s : ~ In 32 w -> w <> [] -> skip (w ++ s) = w ++ s.
Proof. destruct w as [|c w]; [congruence|]. intros H _. cbn [app skip]. destruct (c =? 32) eqn:E; [|reflexivity]. exfalso. apply H. left. lia. Qed.
Lemma word_app w s : ~ In 32 w -> word (w ++ 32 :: s) = (w, s).
Proof.
  induction w as [|c w IH]; intros H; [reflexivity|]. cbn [app word]. destruct (c =? 32) eqn:E; [exfalso; apply H; left; lia|].
  rewrite IH; [reflexivity|]. intros I. apply H. right. exact I.
Qed.

(** A text that can stand for an address: empty, or with a colon and no blank. *)
Definition plain (a : list Z) : Prop := ~ In 32 a /\ (a = [] \/ In 58 a).
(** A word of the format itself. *)
Definition mark (w : list Z) : Prop := ~ In 32 w /\ w <> [] /\ ~ In 58 w.

Lemma next_word a w r : plain a -> mark w -> word (skip (pad21 a ++ 32 :: w ++ 32 :: r)) = match a with [] => (w, r) | _ => (a, w ++ 32 :: r) end.
Proof.
  intros (A1 & A2) (W1 & W2 & W3). unfold pad21. rewrite <- app_assoc, skip_blanks. destruct a as [|c a].
  - cbn [app]. cbn [skip]. rewrite skip_word by assumption. apply word_app, W1.
  - rewrite skip_word; [|exact A1|congruence]. apply (word_app (c :: a)), A1.
Qed.

Lemma padded a b w w' r r' : plain a -> plain b -> mark w -> mark w' ->
  pad21 a ++ 32 :: w ++ 32 :: r = pad21 b ++ 32 :: w' ++ 32 :: r' -> a = b /\ w = w' /\ r = r'.
Proof.
  intros A B M N E. pose proof (f_equal (fun s => word (skip s)) E) as X. cbv beta in X. rewrite (next_word a w r A M), (next_word b w' r' B N) in X.
  destruct a as [|c a], b as [|c' b].
  - injection X as -> ->. auto.
  - injection X as X _. exfalso. destruct B as (_ & [B|B]); [discriminate B|]. apply (proj2 (proj2 M)). rewrite X. exact B.
  - injection X as X _. exfalso. destruct A as (_ & [A|A]); [discriminate A|]. apply (proj2 (proj2 N)). rewrite <- X. exact A.
  - injection X as X1 X2 X3. pose proof (f_equal word X3) as Y. rewrite !word_app in Y by (apply M || apply N). injection Y as -> ->. subst. auto.
Qed.

(** ** The line *)

Lemma app_len {A} (a b c d : list A) : length a = length b -> a ++ c = b ++ d -> a = b /\ c = d.
Proof.
  revert b. induction a as [|x a IH]; intros [|y b] L E; try discriminate L; [auto|].
  cbn [app] in E. injection E as -> E. destruct (IH b) as (-> & ->); [injection L; auto|exact E|]. auto.
Qed.

Definition head_of (t : log_type) (d : direction) : list Z := codes (match d with Write => "S (" | Read => "R (" end) ++ type_text t ++ codes ") :".
Definition arrow (d : direction) : list Z := match d with Write => [45; 62] | Read => [60; 45] end.
Definition own (d : direction) (from to : list Z) : list Z := match d with Write => from | Read => to end.
Definition other (d : direction) (from to : list Z) : list Z := match d with Write => to | Read => from end.

Lemma line_shape t d from to msg n : outputSocketLog t d from to msg n =
  head_of t d ++ 32 :: (pad21 (own d from to) ++ 32 :: arrow d ++ 32 :: (pad21 (other d from to) ++ 32 :: (40 :: Itoa n ++ [41]) ++ 32 :: (58 :: 32 :: msg))).
Proof.
  destruct d; unfold outputSocketLog, head_of, own, other, arrow;
  (change (codes ") : ") with (codes ") :" ++ [32]); change (codes " -> ") with (32 :: [45; 62] ++ [32]); change (codes " <- ") with (32 :: [60; 45] ++ [32]);
   change (codes " (") with [32; 40]); repeat rewrite <- app_assoc; cbn [app]; repeat rewrite <- app_assoc; reflexivity.
Qed.

Lemma Itoa_mark n : an_int n -> mark (40 :: Itoa n ++ [41]).
Proof.
  intros H. pose proof (Itoa_digits n H) as F. rewrite Forall_forall in F. unfold is_digit in F.
  split; [|split; [discriminate|]]; intros [X|X]; try lia; apply in_app_or in X; destruct X as [X|[X|[]]]; try lia; specialize (F _ X); lia.
Qed.
Lemma arrow_mark d : mark (arrow d).
Proof. destruct d; (split; [|split; [discriminate|]]); cbn; lia. Qed.

Lemma line_fields t d from to msg n t' d' from' to' msg' n' : plain from -> plain to -> plain from' -> plain to' -> an_int n -> an_int n' ->
  outputSocketLog t d from to msg n = outputSocketLog t' d' from' to' msg' n' ->
  t = t' /\ d = d' /\ from = from' /\ to = to' /\ msg = msg' /\ n = n'.
Proof.
  intros F1 T1 F2 T2 N1 N2 E. rewrite !line_shape in E.
  apply app_len in E; [|destruct t, t', d, d'; reflexivity]. destruct E as (H & E).
  assert (TD : t = t' /\ d = d') by (destruct t, t', d, d'; try (split; reflexivity); vm_compute in H; discriminate H). destruct TD as (<- & <-). clear H.
  injection E as E. apply padded in E; try apply arrow_mark; try (destruct d; assumption). destruct E as (O & _ & E).
  destruct (padded (other d from to) (other d from' to') (40 :: Itoa n ++ [41]) (40 :: Itoa n' ++ [41]) (58 :: 32 :: msg) (58 :: 32 :: msg'))
    as (O2 & W & E2); try (apply Itoa_mark; assumption); try (destruct d; assumption); try exact E. clear E. rename E2 into E.
  injection E as ->. injection W as W. apply app_len in W.
  2:{ apply (f_equal (@length Z)) in W. rewrite !app_length in W. cbn [length] in W. lia. }
  destruct W as (W & _). apply (f_equal Atoi) in W. rewrite !Atoi_Itoa in W by assumption. injection W as ->.
  split; [reflexivity|]. split; [reflexivity|]. destruct d; cbn [own other] in *; auto.
Qed.

(** ** Addresses *)

Lemma ip_chars ip : an_ip ip -> ~ In 32 (IP_String ip).
Proof.
  intros (HB & HL). destruct HL as [->|HL]; [cbn; lia|].
  assert (G : Forall (fun c => is_digit c \/ c = 46) (IP_String ip) \/ Forall v6_char (IP_String ip)).
  { rewrite IP_text by (intros ->; destruct HL; discriminate). destruct HL as [L|L].
    - unfold To4. rewrite L. left. apply text4_chars; assumption.
    - destruct (To4 ip) as [v4|] eqn:E.
      + left. destruct (To4_back ip v4 L E) as (-> & L4). apply text4_chars; [|exact L4].
        unfold mapped in HB. apply Forall_app in HB. destruct HB as (_ & HB). apply Forall_app in HB. apply HB.
      + right. rewrite L. cbn [Nat.eqb]. apply text6_chars; assumption. }
  intros I. destruct G as [F|F]; rewrite Forall_forall in F; specialize (F _ I); unfold v6_char, is_hex, is_digit in F; lia.
Qed.

Lemma joined_plain host port : ~ In 32 host -> ~ In 32 port -> plain (JoinHostPort host port).
Proof.
  intros H P. unfold JoinHostPort. destruct (has 58 host); split.
  - intros [X|X]; [discriminate X|]. apply in_app_or in X. destruct X as [X|[X|[X|X]]]; try discriminate X; [apply H, X|apply P, X].
  - right. right. apply in_or_app. right. right. left. reflexivity.
  - intros X. apply in_app_or in X. destruct X as [X|[X|X]]; [apply H, X|discriminate X|apply P, X].
  - right. apply in_or_app. right. left. reflexivity.
Qed.
Lemma port_no_blank n : an_int n -> ~ In 32 (Itoa n).
Proof. intros H I. pose proof (Itoa_digits n H) as F. rewrite Forall_forall in F. specialize (F _ I). unfold is_digit in F. lia. Qed.

Definition good (a : address_text) : Prop := an_ip (at_ip a) /\ an_int (at_port a).
Definition same_address (a b : address_text) : Prop := as16 (at_ip a) = as16 (at_ip b) /\ at_port a = at_port b.
Lemma address_plain a : good a -> plain (Address_String a).
Proof. intros (I & P). apply joined_plain; [apply ip_chars, I|apply port_no_blank, P]. Qed.

(** A line shows its type, its direction, both addresses, the size and the text. *)
Theorem C104_line : forall t d from to msg n t' d' from' to' msg' n', good from -> good to -> good from' -> good to' -> an_int n -> an_int n' ->
  outputSocketLog t d (Address_String from) (Address_String to) msg n = outputSocketLog t' d' (Address_String from') (Address_String to') msg' n' ->
  t = t' /\ d = d' /\ same_address from from' /\ same_address to to' /\ msg = msg' /\ n = n'.
Proof.
  intros t d from to msg n t' d' from' to' msg' n' F1 T1 F2 T2 N1 N2 E.
  apply line_fields in E; try assumption; try (apply address_plain; assumption). destruct E as (A & B & C & D & M & N).
  split; [exact A|]. split; [exact B|]. split; [apply C92_injective; try apply F1; try apply F2; exact C|]. split; [apply C92_injective; try apply T1; try apply T2; exact D|]. auto.
Qed.

(** The own address is missing in the line of a socket that is not bound: such a line
    is never that of a bound socket. *)
Lemma own_bound s ip : good ip -> codes (sk_address s) = IP_String (at_ip ip) -> sk_port s = at_port ip -> sk_port s <> 0 -> own_text s = Address_String ip.
Proof.
  intros G A P NZ. unfold own_text, IPAddr, Socket_Port, Socket_Address, IsBound. destruct (sk_port s =? 0) eqn:E; [lia|]. cbn [negb bind].
  unfold Address_String. rewrite A, P. reflexivity.
Qed.
Lemma own_unbound s : sk_port s = 0 -> own_text s = [].
Proof. intros H. unfold own_text, IPAddr, Socket_Port, IsBound. rewrite H. reflexivity. Qed.
Theorem C104_unbound : forall t d msg n t' d' msg' n' s s' ip a a', good a -> good a' -> good ip -> an_int n -> an_int n' ->
  sk_port s = 0 -> sk_port s' <> 0 -> codes (sk_address s') = IP_String (at_ip ip) -> sk_port s' = at_port ip ->
  (match d with Write => outputSocketLog t d (own_text s) (Address_String a) msg n | Read => outputSocketLog t d (Address_String a) (own_text s) msg n end) <>
  (match d' with Write => outputSocketLog t' d' (own_text s') (Address_String a') msg' n' | Read => outputSocketLog t' d' (Address_String a') (own_text s') msg' n' end).
Proof.
  intros t d msg n t' d' msg' n' s s' ip a a' G G' GI N N' P P' A B. rewrite (own_unbound s P), (own_bound s' ip GI A B P').
  assert (PE : plain []) by (split; [intros []|left; reflexivity]). pose proof (address_plain _ G) as PA. pose proof (address_plain _ G') as PA'. pose proof (address_plain _ GI) as PI.
  assert (NE : [] <> Address_String ip).
  { destruct PI as (_ & _). unfold Address_String, JoinHostPort. destruct (has 58 _); [discriminate|]. destruct (IP_String (at_ip ip)); discriminate. }
  intros E. destruct d, d'; apply line_fields in E; try assumption; destruct E as (_ & D & F & T & _); congruence.
Qed.

(** ** Frames *)

Lemma codes_inj a : forall b, codes a = codes b -> a = b.
Proof.
  induction a as [|x a IH]; intros [|y b] E; try discriminate E; [reflexivity|]. unfold codes in E. cbn [list_ascii_of_string map] in E. injection E as E1 E2.
  rewrite (IH b E2). f_equal. rewrite <- (ascii_nat_embedding x), <- (ascii_nat_embedding y). f_equal. lia.
Qed.
Lemma frame_text_inj a b : Forall is_byte a -> Forall is_byte b -> codes (hex_text a) = codes (hex_text b) -> a = b.
Proof.
  intros A B E. apply codes_inj in E. apply (f_equal hexStringToByte) in E. rewrite !C71_readback in E by assumption. congruence.
Qed.

Lemma flat_wire_small ps : Forall prop_in_limits ps -> Z.of_nat (length (flat_map wire_prop ps)) <= 257 * Z.of_nat (length ps).
Proof.
  induction 1 as [|[c v] ps H _ IH]; [cbn; lia|]. cbn [flat_map]. rewrite app_length. cbn [wire_prop length fst snd] in *. destruct H as (_ & H & _). cbn [fst snd] in *. lia.
Qed.
Lemma wire_small c : in_limits c -> an_int (len (wire c)).
Proof.
  intros (_ & _ & _ & _ & N & P). apply flat_wire_small in P. unfold an_int, len, wire, wire_frame, be2, be3. cbn [app length]. lia.
Qed.

Lemma shown_frame m c : represents m c -> in_limits c -> message_shown m = Ok (codes (hex_text (wire c)), len (wire c)).
Proof.
  intros R L. unfold message_shown, MsgString. rewrite (represents_Bytes m c R L). cbn [bind].
  rewrite (Bytes_length m (wire c) (represents_shape m c R) (represents_Bytes m c R L)). cbn [bind]. rewrite hex_encode by (apply wire_bytes, L). reflexivity.
Qed.

(** The lines of both ends show the frame itself and its length. *)
Theorem C104_frame : forall c, in_limits c ->
  let f := codes (hex_text (wire c)) in
  (forall s to, SendBytes_line s to (wire c) (len (wire c)) = outputSocketLog UDPUnicast Write (own_text s) to f (len (wire c))) /\
  (forall l r, tcp_write_line l r (wire c) false = outputSocketLog TCPUnicast Write l r f (len (wire c))) /\
  (forall d, d_bytes d = wire c -> len (wire c) <= MaxPacketSize -> exists m, ReadMessage d = Ok m /\ forall pt s from,
     unicast_line s from (SetPacketType m pt) = Ok (outputSocketLog UDPUnicast Read from (own_text s) f (len (wire c))) /\
     multicast_line s from (SetPacketType m pt) = Ok (outputSocketLog UDPMulticast Read from (own_text s) f (len (wire c)))) /\
  (forall x s from, represents x c -> tcp_read_line s from (Some x) = Ok (outputSocketLog TCPUnicast Read from (own_text s) f (len (wire c)))).
Proof.
  intros c L f. pose proof (wire_bytes c L) as B. split; [|split; [|split]].
  - intros s to. unfold SendBytes_line, udp_outputWriteLog. rewrite hex_encode by exact B. reflexivity.
  - intros l r. unfold tcp_write_line. rewrite hex_encode by exact B. reflexivity.
  - intros d D M. destruct (wire_parses c L) as (x & E & R & _). exists (SetFrom x (d_from d)). unfold ReadMessage. rewrite D, firstn_all2 by (unfold len in M; lia). rewrite E. split; [reflexivity|].
    intros pt s from. assert (S : message_shown (SetPacketType (SetFrom x (d_from d)) pt) = Ok (f, len (wire c))) by (apply shown_frame; [apply represents_type, represents_from, R|exact L]).
    unfold unicast_line, multicast_line, request_line. rewrite S. split; reflexivity.
  - intros x s from R. unfold tcp_read_line. rewrite (shown_frame x c R L). reflexivity.
Qed.

(** Two such lines are equal only for the same frame. *)
Theorem C104_frame_unique : forall t d from to c t' d' from' to' c', good from -> good to -> good from' -> good to' -> in_limits c -> in_limits c' ->
  outputSocketLog t d (Address_String from) (Address_String to) (codes (hex_text (wire c))) (len (wire c)) =
  outputSocketLog t' d' (Address_String from') (Address_String to') (codes (hex_text (wire c'))) (len (wire c')) ->
  t = t' /\ d = d' /\ same_address from from' /\ same_address to to' /\ wire c = wire c'.
Proof.
  intros t d from to c t' d' from' to' c' F T F' T' L L' E. apply C104_line in E; try assumption; try (apply wire_small; assumption).
  destruct E as (A & B & C & D & M & _). repeat (split; [assumption|]). apply frame_text_inj; [apply wire_bytes, L|apply wire_bytes, L'|exact M].
Qed.

(** An unreadable datagram is shown as it came, at most the 1024 bytes of the buffer. *)
Theorem C104_unreadable : forall s from b, Forall is_byte b ->
  unreadable_line s from b = outputSocketLog UDPUnicast Read from (own_text s) (codes (hex_text b)) (len b).
Proof. intros s from b B. unfold unreadable_line, udp_outputReadLog. rewrite hex_encode by exact B. reflexivity. Qed.

(** ** What the lines do not tell *)

(** The full claim on the kind: the line of an announcement, and that of a datagram
    read by a multicast server, carry the type UM. *)
Definition C104_kind_claim : Prop :=
  (forall s b n line, AnnounceMessage_line s b n = Ok line -> exists from to msg k, plain from /\ plain to /\ an_int k /\ line = outputSocketLog UDPMulticast Write from to msg k) /\
  (forall s from b, plain from -> exists from' to msg k, plain from' /\ plain to /\ an_int k /\ unreadable_line s from b = outputSocketLog UDPMulticast Read from' to msg k).

(** Every announcement of a bound socket is shown as a unicast. *)
Theorem C104_announced : forall s b n, sk_port s <> 0 -> exists group,
  (group = codes "224.0.23.0:3610" \/ group = codes "[ff02::1]:3610") /\
  AnnounceMessage_line s b n = Ok (outputSocketLog UDPUnicast Write (own_text s) group (codes (EncodeToString b)) n).
Proof.
  intros s b n P. unfold AnnounceMessage_line, Socket_Address, IsBound. destruct (sk_port s =? 0) eqn:E; [lia|]. cbn [negb bind]. destruct (IsIPv6Address _).
  - exists (codes "[ff02::1]:3610"). split; [right; reflexivity|]. reflexivity.
  - exists (codes "224.0.23.0:3610"). split; [left; reflexivity|]. reflexivity.
Qed.

Theorem C104_kind_refuted : ~ C104_kind_claim.
Proof.
  intros (_ & H). assert (P : plain []) by (split; [intros []|left; reflexivity]). destruct (H NewSocket [] [] P) as (f & t & m & k & A & B & N & E).
  unfold unreadable_line, udp_outputReadLog in E. apply line_fields in E; try assumption; [destruct E as (X & _); discriminate X|]. unfold an_int, len. cbn. lia.
Qed.

(** The full claim on the bytes: the line of a message shows the datagram. *)
Definition C104_bytes_claim : Prop := forall d m s from line, Forall is_byte (d_bytes d) -> ReadMessage d = Ok m -> unicast_line s from m = Ok line ->
  line = outputSocketLog UDPUnicast Read from (own_text s) (codes (hex_text (d_bytes d))) (len (d_bytes d)).

(** A frame followed by a byte is shown without it. *)
Theorem C104_bytes_refuted : ~ C104_bytes_claim.
Proof.
  intros H. specialize (H (mkDatagram [0x10; 0x81; 0; 1; 0x05; 0xFF; 1; 0x0E; 0xF0; 1; 0x62; 1; 0x80; 0; 7] (mkAddress 1 3610))). cbn [d_bytes] in H.
  destruct (ReadMessage _) as [m| |] eqn:E; [|vm_compute in E; discriminate E..].
  destruct (unicast_line NewSocket [] m) as [line| |] eqn:L; [|vm_compute in E; injection E as <-; vm_compute in L; discriminate L..].
  assert (B : Forall is_byte [0x10; 0x81; 0; 1; 0x05; 0xFF; 1; 0x0E; 0xF0; 1; 0x62; 1; 0x80; 0; 7]) by (repeat constructor; unfold is_byte; lia).
  specialize (H m NewSocket [] line B eq_refl L). vm_compute in E. injection E as <-. rewrite H in L. vm_compute in L. discriminate L.
Qed.

(** ** Cases *)

(** A read request of a controller at .10 to a node at .20, in the logs of both. *)
Definition sample_socket (a : string) : socket := mkSocket None 3610 a.
Definition sample_frame : list Z := [0x10; 0x81; 0; 1; 0x05; 0xFF; 1; 0x0E; 0xF0; 1; 0x62; 1; 0x80; 0].
Example C104_example :
  SendBytes_line (sample_socket "192.168.1.10") (codes "192.168.1.20:3610") sample_frame 14 =
    codes "S (UU) :     192.168.1.10:3610 ->     192.168.1.20:3610 (14) : 1081000105ff010ef00162018000" /\
  (m <- NewMessageWithBytes sample_frame ;; unicast_line (sample_socket "192.168.1.20") (codes "192.168.1.10:3610") m) =
    Ok (codes "R (UU) :     192.168.1.20:3610 <-     192.168.1.10:3610 (14) : 1081000105ff010ef00162018000") /\
  AnnounceMessage_line (sample_socket "192.168.1.10") sample_frame 14 =
    Ok (codes "S (UU) :     192.168.1.10:3610 ->       224.0.23.0:3610 (14) : 1081000105ff010ef00162018000") /\
  unreadable_line (sample_socket "192.168.1.10") (codes "192.168.1.20:3610") [0x10] =
    codes "R (UU) :     192.168.1.10:3610 <-     192.168.1.20:3610 (1) : 10" /\
  own_text NewSocket = [].
Proof. vm_compute. repeat split. Qed.

Print Assumptions C104_line.
Print Assumptions C104_unbound.
Print Assumptions C104_frame.
Print Assumptions C104_frame_unique.
Print Assumptions C104_unreadable.
Print Assumptions C104_announced.
Print Assumptions C104_kind_refuted.
Print Assumptions C104_bytes_refuted.

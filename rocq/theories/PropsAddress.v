(** C92: the text of an address and back. *)

From Coq Require Import String ZifyBool ZifyNat.
From Verif Require Import Go GoFacts Spec AddressText.
Local Open Scope Z_scope.
Local Open Scope list_scope.

(** ** Vocabulary *)

(** An IP of the Go library: nil, four bytes or sixteen. *)
Definition an_ip (ip : list Z) : Prop := is_bytes ip /\ (ip = [] \/ length ip = 4%nat \/ length ip = 16%nat).
(** The same address in sixteen bytes; nil stays nil. *)
Definition as16 (ip : list Z) : list Z :=
  if Nat.eqb (length ip) 4 then repeat 0 10 ++ 255 :: 255 :: ip else ip.
Definition an_int (n : Z) : Prop := - 2 ^ 63 <= n < 2 ^ 63.

(** ** Numbers *)

Definition is_digit (c : Z) : Prop := 48 <= c <= 57.

Lemma digits_value fuel : forall n acc, 0 <= n -> n < 10 ^ Z.of_nat fuel ->
  exists ds, decimal_digits fuel n acc = ds ++ acc /\ Forall is_digit ds /\ (0 < n \/ (0 < fuel)%nat -> ds <> []) /\
  forall rest a, decimal_value (ds ++ rest) a = decimal_value rest (a * 10 ^ Z.of_nat (length ds) + n).
Proof.
  induction fuel as [|f IH]; intros n acc H0 H1.
  { cbn in H1. assert (n = 0) by lia. subst n. exists []. split; [reflexivity|]. split; [constructor|]. split; [lia|].
    intros rest a. cbn [app length]. f_equal. cbn. lia. }
  cbn [decimal_digits]. destruct (n <? 10) eqn:E.
  - exists [48 + n]. split; [reflexivity|]. split; [constructor; [unfold is_digit; lia|constructor]|]. split; [discriminate|].
    intros rest a. cbn [app decimal_value length].
    replace ((48 <=? 48 + n) && (48 + n <=? 57)) with true by lia. f_equal. change (10 ^ Z.of_nat 1) with 10. lia.
  - destruct (IH (n / 10) (48 + n mod 10 :: acc)) as (ds & D1 & D2 & D3 & D4).
    + apply Z.div_pos; lia.
    + apply Z.div_lt_upper_bound; [lia|]. rewrite Nat2Z.inj_succ, Z.pow_succ_r in H1 by lia. lia.
    + pose proof (Z.mod_pos_bound n 10 ltac:(lia)) as HM. exists (ds ++ [48 + n mod 10]). split; [rewrite <- app_assoc; exact D1|].
      split; [apply Forall_app; split; [exact D2|constructor; [unfold is_digit; lia|constructor]]|].
      split; [intros _ X; apply app_eq_nil in X; destruct X; discriminate|].
      intros rest a. rewrite <- app_assoc, D4. cbn [app decimal_value].
      replace ((48 <=? 48 + n mod 10) && (48 + n mod 10 <=? 57)) with true by lia. f_equal.
      rewrite app_length. cbn [length]. rewrite Nat.add_1_r, Nat2Z.inj_succ, Z.pow_succ_r by lia.
      pose proof (Z.div_mod n 10 ltac:(lia)). lia.
Qed.

Lemma int_bound n : n <= 2 ^ 63 -> n < 10 ^ Z.of_nat 20.
Proof.
  intros H. apply Z.le_lt_trans with (2 ^ 63); [exact H|]. apply Z.ltb_lt. vm_compute. reflexivity.
Qed.

Lemma Itoa_digits n : an_int n -> Forall (fun c => is_digit c \/ c = 45) (Itoa n).
Proof.
  intros H. unfold Itoa, an_int in *. destruct (n <? 0) eqn:E.
  - destruct (digits_value 20 (- n) []) as (ds & -> & D2 & _); [lia|apply int_bound; lia|]. rewrite app_nil_r. constructor; [right; reflexivity|].
    eapply Forall_impl; [|exact D2]. auto.
  - destruct (digits_value 20 n []) as (ds & -> & D2 & _); [lia|apply int_bound; lia|]. rewrite app_nil_r.
    eapply Forall_impl; [|exact D2]. auto.
Qed.

Lemma Atoi_Itoa n : an_int n -> Atoi (Itoa n) = Some n.
Proof.
  intros H. unfold Itoa, an_int in *. destruct (n <? 0) eqn:E.
  - destruct (digits_value 20 (- n) []) as (ds & -> & D2 & D3 & D4); [lia|apply int_bound; lia|]. rewrite app_nil_r. unfold Atoi.
    change (45 =? 45) with true. cbv iota.
    assert (NE : ds <> []) by (apply D3; right; lia). destruct ds as [|d ds]; [congruence|].
    specialize (D4 [] 0). rewrite app_nil_r in D4. rewrite D4. cbn [decimal_value].
    replace (0 * _ + - n) with (- n) by lia. rewrite Z.opp_involutive. replace ((- 2 ^ 63 <=? n) && (n <? 2 ^ 63)) with true by lia. reflexivity.
  - destruct (digits_value 20 n []) as (ds & -> & D2 & D3 & D4); [lia|apply int_bound; lia|]. rewrite app_nil_r. unfold Atoi.
    assert (NE : ds <> []) by (apply D3; right; lia). destruct ds as [|d ds]; [congruence|].
    inversion_clear D2. unfold is_digit in *. replace (d =? 45) with false by lia. replace (d =? 43) with false by lia. cbv iota.
    specialize (D4 [] 0). rewrite app_nil_r in D4. rewrite D4. cbn [decimal_value].
    replace (0 * _ + n) with n by lia. replace ((- 2 ^ 63 <=? n) && (n <? 2 ^ 63)) with true by lia. reflexivity.
Qed.

(** ** Searching for a byte *)

Lemma Index_none c s : ~ In c s -> IndexByte c s = None.
Proof.
  induction s as [|x s IH]; intros H; [reflexivity|]. cbn [IndexByte]. destruct (x =? c) eqn:E; [exfalso; apply H; left; lia|].
  rewrite IH; [reflexivity|]. intros X. apply H. right. exact X.
Qed.
Lemma Index_some c s : In c s -> IndexByte c s <> None.
Proof.
  induction s as [|x s IH]; intros H; [destruct H|]. cbn [IndexByte]. destruct (x =? c) eqn:E; [discriminate|].
  destruct H as [->|H]; [rewrite Z.eqb_refl in E; discriminate E|]. specialize (IH H). destruct (IndexByte c s); [discriminate|congruence].
Qed.
Lemma has_false c s : ~ In c s -> has c s = false.
Proof. intros H. unfold has. rewrite Index_none by exact H. reflexivity. Qed.
Lemma has_true c s : In c s -> has c s = true.
Proof. intros H. unfold has. apply Index_some in H. destruct (IndexByte c s); congruence. Qed.
Lemma Index_app c s t : ~ In c s -> IndexByte c (s ++ c :: t) = Some (length s).
Proof.
  induction s as [|x s IH]; intros H; cbn [app IndexByte length]; [rewrite Z.eqb_refl; reflexivity|].
  destruct (x =? c) eqn:E; [exfalso; apply H; left; lia|]. rewrite IH; [reflexivity|]. intros X. apply H. right. exact X.
Qed.
Lemma Last_none c s : ~ In c s -> LastIndexByte c s = None.
Proof.
  induction s as [|x s IH]; intros H; [reflexivity|]. cbn [LastIndexByte]. rewrite IH by (intros X; apply H; right; exact X).
  destruct (x =? c) eqn:E; [exfalso; apply H; left; lia|reflexivity].
Qed.
Lemma Last_app c s t : ~ In c t -> LastIndexByte c (s ++ c :: t) = Some (length s).
Proof.
  intros H. induction s as [|x s IH]; cbn [app LastIndexByte length].
  - rewrite Last_none by exact H. rewrite Z.eqb_refl. reflexivity.
  - rewrite IH. reflexivity.
Qed.

Lemma firstn_exact {A} (a b : list A) : firstn (length a) (a ++ b) = a.
Proof. induction a; cbn; [reflexivity|congruence]. Qed.
Lemma skipn_exact {A} (a b : list A) : skipn (length a) (a ++ b) = b.
Proof. induction a; cbn; auto. Qed.

Lemma split_join host port : ~ In 91 host -> ~ In 93 host -> ~ In 58 port -> ~ In 91 port -> ~ In 93 port ->
  SplitHostPort (JoinHostPort host port) = Some (host, port).
Proof.
  intros H1 H2 P0 P1 P2. unfold JoinHostPort, SplitHostPort. destruct (has 58 host) eqn:EC.
  - replace (91 :: host ++ 93 :: 58 :: port) with ((91 :: host ++ [93]) ++ 58 :: port) by (cbn [app]; rewrite <- app_assoc; reflexivity).
    rewrite Last_app by exact P0. cbn [app]. change (91 =? 91) with true. cbv iota.
    rewrite <- app_assoc. cbn [app].
    replace (91 :: host ++ 93 :: 58 :: port) with ((91 :: host) ++ 93 :: 58 :: port) by reflexivity.
    rewrite Index_app.
    2:{ intros [X|X]; [discriminate X|exact (H2 X)]. }
    cbn [length]. rewrite app_length. cbn [length]. rewrite Nat.add_1_r, Nat.eqb_refl.
    assert (X1 : skipn 1 ((91 :: host) ++ 93 :: 58 :: port) = host ++ 93 :: 58 :: port) by reflexivity.
    assert (X2 : skipn (S (S (length host))) ((91 :: host) ++ 93 :: 58 :: port) = 58 :: port).
    { pose proof (skipn_exact (91 :: host ++ [93]) (58 :: port)) as X. cbn [length app] in X. rewrite app_length, <- app_assoc in X.
      cbn [length app] in X. rewrite Nat.add_1_r in X. exact X. }
    assert (X3 : skipn (S (S (S (length host)))) ((91 :: host) ++ 93 :: 58 :: port) = port).
    { pose proof (skipn_exact (91 :: host ++ [93; 58]) port) as X. cbn [length app] in X. rewrite app_length, <- app_assoc in X.
      cbn [length app] in X. replace (length host + 2)%nat with (S (S (length host))) in X by lia. exact X. }
    rewrite X1, X2, X3. rewrite has_false.
    2:{ intros X. apply in_app_or in X. destruct X as [X|[X|[X|X]]]; [exact (H1 X)|discriminate X|discriminate X|exact (P1 X)]. }
    rewrite has_false.
    2:{ intros [X|X]; [discriminate X|exact (P2 X)]. }
    replace (S (length host) - 1)%nat with (length host) by lia. rewrite firstn_exact. reflexivity.
  - rewrite Last_app by exact P0.
    assert (HC : ~ In 58 host). { intros X. apply has_true in X. congruence. }
    destruct (host ++ 58 :: port) as [|c0 s] eqn:ES; [destruct host; discriminate ES|].
    assert (c0 <> 91). { destruct host as [|h host]; injection ES as <- _; [lia|]. intros ->. apply H1. left. reflexivity. }
    replace (c0 =? 91) with false by lia. rewrite <- ES. clear ES H c0 s.
    rewrite firstn_exact, has_false by exact HC.
    rewrite has_false.
    2:{ intros X. apply in_app_or in X. destruct X as [X|[X|X]]; [exact (H1 X)|discriminate X|exact (P1 X)]. }
    rewrite has_false.
    2:{ intros X. apply in_app_or in X. destruct X as [X|[X|X]]; [exact (H2 X)|discriminate X|exact (P2 X)]. }
    f_equal. f_equal. pose proof (skipn_exact (host ++ [58]) port) as X. rewrite app_length, <- app_assoc in X. cbn [length app] in X.
    rewrite Nat.add_1_r in X. exact X.
Qed.

(** ** IPv4 *)

Lemma octet x r first dot pos fields : is_byte x ->
  exists k, parseIPv4Fields (appendDecimal x ++ r) first dot 0 pos 0 fields = parseIPv4Fields r false false x pos k fields.
Proof.
  intros H. unfold is_byte in H. unfold appendDecimal.
  pose proof (Z.div_mod x 10 ltac:(lia)) as E1. pose proof (Z.div_mod (x / 10) 10 ltac:(lia)) as E2.
  pose proof (Z.mod_pos_bound x 10 ltac:(lia)) as B1. pose proof (Z.mod_pos_bound (x / 10) 10 ltac:(lia)) as B2.
  assert (E3 : x / 100 = x / 10 / 10) by (rewrite Z.div_div by lia; reflexivity). rewrite E3.
  remember (x mod 10) as d0. remember (x / 10 mod 10) as d1. remember (x / 10 / 10) as d2. remember (x / 10) as q. clear Heqd0 Heqd1 Heqd2 Heqq E3.
  destruct (100 <=? x) eqn:C1.
  - replace (10 <=? x) with true by lia. exists 3. cbn [app].
    cbn [parseIPv4Fields]. replace ((48 <=? 48 + d2) && (48 + d2 <=? 57)) with true by lia.
    replace ((0 =? 1) && (0 =? 0)) with false by reflexivity. cbv iota zeta.
    replace (255 <? 0 * 10 + (48 + d2 - 48)) with false by lia.
    replace ((48 <=? 48 + d1) && (48 + d1 <=? 57)) with true by lia.
    replace ((0 + 1 =? 1) && (0 * 10 + (48 + d2 - 48) =? 0)) with false by lia.
    replace (255 <? (0 * 10 + (48 + d2 - 48)) * 10 + (48 + d1 - 48)) with false by lia.
    replace ((48 <=? 48 + d0) && (48 + d0 <=? 57)) with true by lia.
    replace (0 + 1 + 1 =? 1) with false by reflexivity. cbn [andb].
    replace (((0 * 10 + (48 + d2 - 48)) * 10 + (48 + d1 - 48)) * 10 + (48 + d0 - 48)) with x by lia.
    replace (255 <? x) with false by lia. reflexivity.
  - destruct (10 <=? x) eqn:C2.
    + exists 2. cbn [app parseIPv4Fields]. replace ((48 <=? 48 + d1) && (48 + d1 <=? 57)) with true by lia.
      replace ((0 =? 1) && (0 =? 0)) with false by reflexivity. cbv iota zeta.
      replace (255 <? 0 * 10 + (48 + d1 - 48)) with false by lia.
      replace ((48 <=? 48 + d0) && (48 + d0 <=? 57)) with true by lia.
      replace ((0 + 1 =? 1) && (0 * 10 + (48 + d1 - 48) =? 0)) with false by lia.
      replace ((0 * 10 + (48 + d1 - 48)) * 10 + (48 + d0 - 48)) with x by lia.
      replace (255 <? x) with false by lia. reflexivity.
    + exists 1. cbn [app parseIPv4Fields]. replace ((48 <=? 48 + d0) && (48 + d0 <=? 57)) with true by lia.
      replace ((0 =? 1) && (0 =? 0)) with false by reflexivity. cbv iota zeta.
      replace (0 * 10 + (48 + d0 - 48)) with x by lia. replace (255 <? x) with false by lia. reflexivity.
Qed.

Lemma decimal_chars x : is_byte x -> Forall is_digit (appendDecimal x).
Proof.
  intros H. unfold is_byte in H. unfold appendDecimal.
  pose proof (Z.mod_pos_bound x 10 ltac:(lia)). pose proof (Z.mod_pos_bound (x / 10) 10 ltac:(lia)).
  assert (0 <= x / 100 <= 2) by (split; [apply Z.div_pos; lia|apply Z.lt_succ_r, Z.div_lt_upper_bound; lia]).
  unfold is_digit. repeat (apply Forall_app; split); repeat (destruct (_ <=? x); constructor; auto); repeat constructor; lia.
Qed.
Lemma decimal_ne x : appendDecimal x <> [].
Proof. unfold appendDecimal. destruct (100 <=? x), (10 <=? x); discriminate. Qed.

Lemma dot_step r val pos k fields : r <> [] -> pos <> 3 ->
  parseIPv4Fields (46 :: r) false false val pos k fields = parseIPv4Fields r false true 0 (pos + 1) 0 (fields ++ [val]).
Proof.
  intros H1 H2. cbn [parseIPv4Fields]. change ((48 <=? 46) && (46 <=? 57)) with false. change (46 =? 46) with true. cbn [orb].
  destruct r; [congruence|]. replace (pos =? 3) with false by lia. reflexivity.
Qed.

Lemma parse_text4 ip : is_bytes ip -> length ip = 4%nat -> parseIPv4 (text4 ip) = Some ip.
Proof.
  intros HB L. destruct ip as [|a [|b [|c [|d [|]]]]]; try discriminate L. clear L. unfold is_bytes in HB.
  inversion_clear HB as [|? ? Ha HB1]. inversion_clear HB1 as [|? ? Hb HB2]. inversion_clear HB2 as [|? ? Hc HB3]. inversion_clear HB3 as [|? ? Hd _].
  unfold parseIPv4, text4.
  assert (NE : forall x r, appendDecimal x ++ r <> []).
  { intros x r X. apply app_eq_nil in X. destruct X as (X & _). exact (decimal_ne x X). }
  destruct (octet a (46 :: appendDecimal b ++ 46 :: appendDecimal c ++ 46 :: appendDecimal d) true false 0 [] Ha) as (k1 & ->).
  rewrite dot_step; [|apply NE|lia]. cbn [app].
  destruct (octet b (46 :: appendDecimal c ++ 46 :: appendDecimal d) false true (0 + 1) [a] Hb) as (k2 & ->).
  rewrite dot_step; [|apply NE|lia]. cbn [app].
  destruct (octet c (46 :: appendDecimal d) false true (0 + 1 + 1) [a; b] Hc) as (k3 & ->).
  rewrite dot_step; [|apply decimal_ne|lia]. cbn [app].
  destruct (octet d [] false true (0 + 1 + 1 + 1) [a; b; c] Hd) as (k4 & E4). rewrite app_nil_r in E4. rewrite E4. reflexivity.
Qed.

(** ** IPv6 *)

Definition is_hex (c : Z) : Prop := 48 <= c <= 57 \/ 97 <= c <= 102.
Definition is_group (g : Z) : Prop := 0 <= g < 65536.

Lemma hex_digit_value d : 0 <= d < 16 -> hex_value (hex_digit d) = Some d /\ is_hex (hex_digit d).
Proof.
  intros H. unfold hex_digit, hex_value, is_hex. destruct (d <? 10) eqn:E.
  - replace ((48 <=? 48 + d) && (48 + d <=? 57)) with true by lia. split; [f_equal|]; lia.
  - replace ((48 <=? 87 + d) && (87 + d <=? 57)) with false by lia.
    replace ((97 <=? 87 + d) && (87 + d <=? 102)) with true by lia. split; [f_equal|]; lia.
Qed.

Definition no_hex (s : list Z) : Prop := match s with [] => True | c :: _ => hex_value c = None end.

Lemma hex_group_stop s off acc : no_hex s -> hex_group s off acc = Some (off, acc, s).
Proof. destruct s as [|c s]; cbn; [reflexivity|]. intros ->. reflexivity. Qed.

Lemma hex_step d s off acc : 0 <= d < 16 -> off <= 3 -> 0 <= acc * 16 + d <= 65535 ->
  hex_group (hex_digit d :: s) off acc = hex_group s (off + 1) (acc * 16 + d).
Proof.
  intros H1 H2 H3. cbn [hex_group]. rewrite (proj1 (hex_digit_value d H1)).
  replace (3 <? off) with false by lia. replace (65535 <? acc * 16 + d) with false by lia. reflexivity.
Qed.

Lemma group_scan g r : is_group g -> no_hex r -> exists k, 0 < k /\ hex_group (appendHex g ++ r) 0 0 = Some (k, g, r).
Proof.
  intros H HR. unfold is_group in H. unfold appendHex.
  pose proof (Z.div_mod g 16 ltac:(lia)) as E1. pose proof (Z.div_mod (g / 16) 16 ltac:(lia)) as E2.
  pose proof (Z.div_mod (g / 16 / 16) 16 ltac:(lia)) as E3.
  pose proof (Z.mod_pos_bound g 16 ltac:(lia)) as B1. pose proof (Z.mod_pos_bound (g / 16) 16 ltac:(lia)) as B2.
  pose proof (Z.mod_pos_bound (g / 16 / 16) 16 ltac:(lia)) as B3.
  assert (F1 : g / 256 = g / 16 / 16) by (rewrite Z.div_div by lia; reflexivity).
  assert (F2 : g / 4096 = g / 16 / 16 / 16) by (rewrite !Z.div_div by lia; reflexivity). rewrite F1, F2.
  remember (g mod 16) as d0. remember (g / 16 mod 16) as d1. remember (g / 16 / 16 mod 16) as d2. remember (g / 16 / 16 / 16) as d3.
  remember (g / 16) as q1. remember (q1 / 16) as q2. clear Heqd0 Heqd1 Heqd2 Heqd3 Heqq1 Heqq2 F1 F2.
  destruct (0x1000 <=? g) eqn:C1.
  - replace (0x100 <=? g) with true by lia. replace (0x10 <=? g) with true by lia. exists 4. split; [lia|]. cbn [app].
    rewrite !hex_step by lia. rewrite hex_group_stop by exact HR. f_equal. f_equal. f_equal. lia.
  - destruct (0x100 <=? g) eqn:C2.
    + replace (0x10 <=? g) with true by lia. exists 3. split; [lia|]. cbn [app].
      rewrite !hex_step by lia. rewrite hex_group_stop by exact HR. f_equal. f_equal. f_equal. lia.
    + destruct (0x10 <=? g) eqn:C3.
      * exists 2. split; [lia|]. cbn [app]. rewrite !hex_step by lia. rewrite hex_group_stop by exact HR. f_equal. f_equal. f_equal. lia.
      * exists 1. split; [lia|]. cbn [app]. rewrite !hex_step by lia. rewrite hex_group_stop by exact HR. f_equal. f_equal. f_equal. lia.
Qed.

Lemma hex_chars g : is_group g -> Forall is_hex (appendHex g).
Proof.
  intros H. unfold is_group in H. unfold appendHex.
  assert (0 <= g / 4096 < 16) by (split; [apply Z.div_pos; lia|apply Z.div_lt_upper_bound; lia]).
  pose proof (Z.mod_pos_bound g 16 ltac:(lia)). pose proof (Z.mod_pos_bound (g / 16) 16 ltac:(lia)).
  pose proof (Z.mod_pos_bound (g / 256) 16 ltac:(lia)).
  assert (X : forall d, 0 <= d < 16 -> Forall is_hex [hex_digit d]) by (intros d Hd; constructor; [apply hex_digit_value, Hd|constructor]).
  apply Forall_app. split; [destruct (4096 <=? g); [auto|constructor]|].
  apply Forall_app. split; [destruct (256 <=? g); [auto|constructor]|].
  apply Forall_app. split; [destruct (16 <=? g); [auto|constructor]|]. auto.
Qed.
Lemma hex_ne g : appendHex g <> [].
Proof. unfold appendHex. destruct (4096 <=? g), (256 <=? g), (16 <=? g); discriminate. Qed.

Fixpoint join (gs : list Z) : list Z :=
  match gs with [] => [] | [g] => appendHex g | g :: t => appendHex g ++ 58 :: join t end.
Definition group_bytes (gs : list Z) : list Z := flat_map (fun g => [g / 256; g mod 256]) gs.

Lemma join_head g t r : is_group g -> exists c s, join (g :: t) ++ r = c :: s /\ is_hex c.
Proof.
  intros H. pose proof (hex_chars g H) as HC. pose proof (hex_ne g) as NE.
  destruct (appendHex g) as [|c s] eqn:E; [congruence|]. inversion_clear HC.
  destruct t; cbn [join]; rewrite E; cbn [app]; eauto.
Qed.

Lemma begins_hex x c s : is_hex c -> x = 46 \/ x = 58 -> begins x (c :: s) = false.
Proof. unfold is_hex, begins. lia. Qed.

Lemma loop_one f g r ip el : is_group g -> begins 46 r = false -> no_hex r ->
  v6_loop (S f) (appendHex g ++ r) ip el =
  match r with
  | [] => Some ([], ip ++ [g / 256; g mod 256], el)
  | _ :: more =>
      if negb (begins 58 r) then None
      else
        match more with
        | [] => None
        | _ :: more' =>
            if begins 58 more then
              match el with
              | Some _ => None
              | None =>
                  match more' with
                  | [] => Some ([], ip ++ [g / 256; g mod 256], Some (length (ip ++ [g / 256; g mod 256])))
                  | _ => v6_loop f more' (ip ++ [g / 256; g mod 256]) (Some (length (ip ++ [g / 256; g mod 256])))
                  end
              end
            else v6_loop f more (ip ++ [g / 256; g mod 256]) el
        end
  end.
Proof.
  intros H1 H2 H3. cbn [v6_loop]. destruct (group_scan g r H1 H3) as (k & K & ->). replace (k =? 0) with false by lia.
  rewrite H2. reflexivity.
Qed.

Lemma loop_more f g h t r ip el : is_group g -> is_group h ->
  v6_loop (S f) (join (g :: h :: t) ++ r) ip el = v6_loop f (join (h :: t) ++ r) (ip ++ [g / 256; g mod 256]) el.
Proof.
  intros Hg Hh. change (join (g :: h :: t)) with (appendHex g ++ 58 :: join (h :: t)). rewrite <- app_assoc. cbn [app].
  rewrite loop_one; [|exact Hg|reflexivity|reflexivity]. cbn [begins negb]. change (58 =? 58) with true. cbn [negb].
  destruct (join_head h t r Hh) as (c & s & -> & HC). rewrite begins_hex by auto. reflexivity.
Qed.

Lemma loop_join gs : forall f ip el, gs <> [] -> Forall is_group gs -> (length gs <= f)%nat ->
  v6_loop f (join gs) ip el = Some ([], ip ++ group_bytes gs, el).
Proof.
  induction gs as [|g t IH]; intros f ip el NE HG HL; [congruence|]. destruct f as [|f]; [cbn in HL; lia|].
  inversion_clear HG as [|? ? Hg Ht]. destruct t as [|h t].
  - cbn [join]. rewrite <- (app_nil_r (appendHex g)). rewrite loop_one; [|exact Hg|reflexivity|exact I]. reflexivity.
  - inversion Ht; subst. rewrite <- (app_nil_r (join (g :: h :: t))), loop_more by assumption. rewrite app_nil_r.
    rewrite IH; [|discriminate|exact Ht|cbn [length] in *; lia]. rewrite <- app_assoc. reflexivity.
Qed.

Lemma loop_ellipsis gs : forall f ip r, gs <> [] -> Forall is_group gs -> (length gs <= f)%nat ->
  v6_loop f (join gs ++ 58 :: 58 :: r) ip None =
  match r with
  | [] => Some ([], ip ++ group_bytes gs, Some (length (ip ++ group_bytes gs)))
  | _ => v6_loop (f - length gs) r (ip ++ group_bytes gs) (Some (length (ip ++ group_bytes gs)))
  end.
Proof.
  induction gs as [|g t IH]; intros f ip r NE HG HL; [congruence|]. destruct f as [|f]; [cbn in HL; lia|].
  inversion_clear HG as [|? ? Hg Ht]. destruct t as [|h t].
  - cbn [join]. rewrite loop_one; [|exact Hg|reflexivity|reflexivity]. cbn [begins negb]. change (58 =? 58) with true. cbn [negb length].
    replace (S f - 1)%nat with f by lia. reflexivity.
  - inversion Ht; subst. rewrite loop_more by assumption. rewrite IH; [|discriminate|exact Ht|cbn [length] in *; lia].
    cbn [length Nat.sub]. change (group_bytes (g :: h :: t)) with ([g / 256; g mod 256] ++ group_bytes (h :: t)). rewrite !app_assoc. reflexivity.
Qed.

Lemma zeros_spec gs : forall l, (l <= zeros gs)%nat -> firstn l gs = repeat 0 l /\ (l <= length gs)%nat.
Proof.
  induction gs as [|g t IH]; intros l H; cbn [zeros] in H.
  - assert (l = O) by lia. subst l. split; [reflexivity|lia].
  - destruct (g =? 0) eqn:E; [|assert (l = O) by lia; subst l; split; [reflexivity|lia]].
    destruct l as [|l]; [split; [reflexivity|cbn; lia]|]. destruct (IH l ltac:(lia)) as (A & B). cbn [firstn repeat length].
    rewrite A. split; [f_equal; lia|lia].
Qed.

Definition run_ok (gs : list Z) (best : nat * nat) : Prop :=
  best = (255%nat, 255%nat) \/
  exists l, snd best = (fst best + l)%nat /\ (2 <= l)%nat /\ (snd best <= length gs)%nat /\ firstn l (skipn (fst best) gs) = repeat 0 l.

Lemma zero_run_ok gs : forall t pre best, gs = pre ++ t -> run_ok gs best -> run_ok gs (zero_run t (length pre) best).
Proof.
  induction t as [|g t IH]; intros pre best E H; [exact H|]. cbn [zero_run].
  replace (S (length pre)) with (length (pre ++ [g])) by (rewrite app_length; cbn; lia).
  apply IH; [rewrite <- app_assoc; exact E|].
  destruct (Nat.leb 2 (zeros (g :: t)) && _) eqn:C; [|exact H]. right. exists (zeros (g :: t)). cbn [fst snd].
  destruct (zeros_spec (g :: t) (zeros (g :: t)) ltac:(lia)) as (A & B).
  split; [reflexivity|]. split; [lia|]. split; [rewrite E, app_length; lia|]. rewrite E, skipn_exact. exact A.
Qed.

Lemma loop_shape gs start stop : length gs = 8%nat -> (start < stop)%nat -> (stop <= 8)%nat ->
  text6_loop 8 gs start stop 0 = join (firstn start gs) ++ 58 :: 58 :: join (skipn stop gs).
Proof.
  intros L H1 H2. destruct gs as [|g0 [|g1 [|g2 [|g3 [|g4 [|g5 [|g6 [|g7 [|]]]]]]]]]; try discriminate L. clear L.
  destruct start as [|[|[|[|[|[|[|[|start]]]]]]]]; destruct stop as [|[|[|[|[|[|[|[|[|stop]]]]]]]]]; try (exfalso; clear -H1 H2; lia).
  all: cbn [text6_loop nth Nat.ltb Nat.leb Nat.eqb join firstn skipn app]; repeat (rewrite <- ?app_assoc; cbn [app]); rewrite ?app_nil_r; reflexivity.
Qed.
Lemma loop_plain gs : length gs = 8%nat -> text6_loop 8 gs 255 255 0 = join gs.
Proof.
  intros L. destruct gs as [|g0 [|g1 [|g2 [|g3 [|g4 [|g5 [|g6 [|g7 [|]]]]]]]]]; try discriminate L. clear L.
  cbn [text6_loop nth Nat.ltb Nat.leb Nat.eqb join app]. rewrite <- ?app_assoc, ?app_nil_r. reflexivity.
Qed.

Lemma text6_shape ip : length (groups ip) = 8%nat ->
  text6 ip = join (groups ip) \/
  exists before n after, groups ip = before ++ repeat 0 n ++ after /\ (2 <= n)%nat /\ text6 ip = join before ++ 58 :: 58 :: join after.
Proof.
  intros L. unfold text6. pose proof (zero_run_ok (groups ip) (groups ip) [] (255%nat, 255%nat) eq_refl (or_introl eq_refl)) as H.
  cbn [length] in H. destruct (zero_run (groups ip) 0 (255%nat, 255%nat)) as [start stop].
  destruct H as [H|(l & H1 & H2 & H3 & H4)].
  - injection H as -> ->. left. apply loop_plain, L.
  - cbn [fst snd] in *. right. exists (firstn start (groups ip)), l, (skipn stop (groups ip)). split; [|split; [exact H2|apply loop_shape; lia]].
    rewrite <- (firstn_skipn start (groups ip)) at 1. f_equal. rewrite <- (firstn_skipn l (skipn start (groups ip))) at 1. rewrite H4. f_equal.
    subst stop. clear. generalize (groups ip). induction start as [|s IH]; intros gs; [reflexivity|]. destruct gs; [cbn; destruct l; reflexivity|]. apply IH.
Qed.

Lemma groups_length ip : length ip = 16%nat -> length (groups ip) = 8%nat.
Proof. intros L. do 16 (destruct ip as [|? ip]; [discriminate L|]). destruct ip; [reflexivity|discriminate L]. Qed.
Lemma groups_ok ip : forall n, (length ip <= n)%nat -> is_bytes ip -> Forall is_group (groups ip).
Proof.
  intros n. revert ip. induction n as [|n IH]; intros ip L HB; [destruct ip; [constructor|cbn in L; lia]|].
  destruct ip as [|a [|b t]]; [constructor|constructor|]. cbn [groups]. inversion_clear HB as [|? ? Ha HB1]. inversion_clear HB1 as [|? ? Hb Ht].
  constructor; [unfold is_group, is_byte in *; lia|]. apply IH; [cbn in L; lia|exact Ht].
Qed.
Lemma groups_back ip : length ip = 16%nat -> is_bytes ip -> group_bytes (groups ip) = ip.
Proof.
  intros L HB. assert (G : forall n ip, length ip = (2 * n)%nat -> is_bytes ip -> group_bytes (groups ip) = ip).
  { clear. induction n as [|n IH]; intros ip L HB; [destruct ip; [reflexivity|discriminate L]|].
    destruct ip as [|a [|b t]]; [discriminate L|cbn in L; lia|]. inversion_clear HB as [|? ? Ha HB1]. inversion_clear HB1 as [|? ? Hb Ht].
    cbn [groups group_bytes flat_map app]. unfold is_byte in *.
    rewrite Z.div_add_l by lia. replace ((a * 256 + b) mod 256) with b.
    2:{ rewrite Z.add_comm, Z.mod_add, Z.mod_small by lia. reflexivity. }
    rewrite (Z.div_small b) by lia. rewrite Z.add_0_r. f_equal. f_equal. apply IH; [cbn in L; lia|exact Ht]. }
  apply (G 8%nat); assumption.
Qed.

Lemma group_bytes_length gs : length (group_bytes gs) = (2 * length gs)%nat.
Proof. induction gs as [|g t IH]; [reflexivity|]. cbn [group_bytes flat_map app length]. fold (group_bytes t). rewrite IH. lia. Qed.
Lemma group_bytes_app a b : group_bytes (a ++ b) = group_bytes a ++ group_bytes b.
Proof. apply flat_map_app. Qed.
Lemma group_bytes_zeros n : group_bytes (repeat 0 n) = repeat 0 (2 * n).
Proof. induction n as [|n IH]; [reflexivity|]. replace (2 * S n)%nat with (S (S (2 * n))) by lia. cbn [repeat group_bytes flat_map app]. fold (group_bytes (repeat 0 n)). rewrite IH. reflexivity. Qed.

Definition v6_char (c : Z) : Prop := is_hex c \/ c = 58.
Lemma join_chars gs : Forall is_group gs -> Forall v6_char (join gs).
Proof.
  intros H. assert (X : forall g, is_group g -> Forall v6_char (appendHex g)).
  { intros g Hg. eapply Forall_impl; [|apply hex_chars, Hg]. unfold v6_char. auto. }
  induction H as [|g t Hg Ht IH]; [constructor|]. destruct t; cbn [join]; [apply X, Hg|].
  apply Forall_app. split; [apply X, Hg|]. constructor; [right; reflexivity|exact IH].
Qed.
Lemma text6_chars ip : length ip = 16%nat -> is_bytes ip -> Forall v6_char (text6 ip) /\ In 58 (text6 ip).
Proof.
  intros L HB. pose proof (groups_length ip L) as GL. pose proof (groups_ok ip _ (le_n _) HB) as GO.
  destruct (text6_shape ip GL) as [->|(b & n & a & E & Hn & ->)].
  - split; [apply join_chars, GO|]. destruct (groups ip) as [|g [|h t]]; try discriminate GL.
    change (join (g :: h :: t)) with (appendHex g ++ 58 :: join (h :: t)). apply in_or_app. right. left. reflexivity.
  - rewrite E in GO. apply Forall_app in GO. destruct GO as (G1 & G2). apply Forall_app in G2. destruct G2 as (_ & G2). split.
    + apply Forall_app. split; [apply join_chars, G1|]. constructor; [right; reflexivity|]. constructor; [right; reflexivity|]. apply join_chars, G2.
    + apply in_or_app. right. left. reflexivity.
Qed.

Lemma parse_text6 ip : length ip = 16%nat -> is_bytes ip -> parseIPv6 (text6 ip) = Some (ip, []).
Proof.
  intros L HB. pose proof (groups_length ip L) as GL. pose proof (groups_ok ip _ (le_n _) HB) as GO.
  pose proof (groups_back ip L HB) as GB.
  unfold parseIPv6. rewrite Index_none.
  2:{ intros X. destruct (text6_chars ip L HB) as (C & _). rewrite Forall_forall in C. specialize (C _ X). unfold v6_char, is_hex in C. lia. }
  cbv iota. destruct (text6_shape ip GL) as [->|(b & n & a & E & Hn & ->)].
  - destruct (groups ip) as [|g t] eqn:EG; [discriminate GL|]. assert (Hg : is_group g) by (inversion GO; assumption).
    destruct (join_head g t [] Hg) as (c & s & J & HC). rewrite app_nil_r in J. rewrite J at 1. rewrite begins_hex by auto. cbn [andb].
    rewrite <- EG in *. rewrite loop_join; [|rewrite EG; discriminate|exact GO|lia]. rewrite GB. cbn [app]. rewrite L. reflexivity.
  - rewrite E in GO. apply Forall_app in GO. destruct GO as (G1 & G2). apply Forall_app in G2. destruct G2 as (_ & G2).
    rewrite E in GB. rewrite !group_bytes_app, group_bytes_zeros in GB.
    assert (LE : (length b + (n + length a) = 8)%nat) by (rewrite <- GL, E, !app_length, repeat_length; reflexivity).
    destruct b as [|g t].
    + cbn [join app begins skipn]. change (58 =? 58) with true. cbn [andb]. destruct a as [|h a].
      * cbn [join]. cbn [length] in LE. assert (n = 8%nat) by lia. subst n. cbn [group_bytes flat_map app] in GB. rewrite app_nil_r in GB. rewrite <- GB. reflexivity.
      * assert (Hh : is_group h) by (inversion G2; assumption). destruct (join_head h a [] Hh) as (c & s & J & _). rewrite app_nil_r in J.
        rewrite J. rewrite <- J. rewrite loop_join; [|discriminate|exact G2|lia]. cbn [app].
        pose proof (group_bytes_length (h :: a)) as LB. replace (Nat.ltb (length (group_bytes (h :: a))) 16) with true by (symmetry; apply Nat.ltb_lt; cbn [length] in *; lia).
        cbn [firstn skipn app]. f_equal. f_equal. cbn [group_bytes flat_map app] in GB. fold (group_bytes (h :: a)) in GB. rewrite <- GB at 1. f_equal.
        f_equal. cbn [length] in *. lia.
    + assert (Hg : is_group g) by (inversion G1; assumption). destruct (join_head g t (58 :: 58 :: join a) Hg) as (c & s & J & HC).
      rewrite J at 1. rewrite begins_hex by auto. cbn [andb]. rewrite loop_ellipsis; [|discriminate|exact G1|lia]. cbn [app].
      pose proof (group_bytes_length (g :: t)) as LB. destruct a as [|h a].
      * cbn [join]. replace (Nat.ltb (length (group_bytes (g :: t))) 16) with true by (symmetry; apply Nat.ltb_lt; cbn [length] in *; lia).
        f_equal. f_equal. rewrite firstn_all, skipn_all, app_nil_r. change (group_bytes []) with (@nil Z) in GB. rewrite app_nil_r in GB. rewrite <- GB.
        f_equal. f_equal. cbn [length] in *. lia.
      * assert (Hh : is_group h) by (inversion G2; assumption). destruct (join_head h a [] Hh) as (c' & s' & J' & _). rewrite app_nil_r in J'.
        rewrite J'. rewrite <- J'. rewrite loop_join; [|discriminate|exact G2|lia].
        pose proof (group_bytes_length (h :: a)) as LB'. rewrite app_length.
        replace (Nat.ltb _ 16) with true by (symmetry; apply Nat.ltb_lt; cbn [length] in *; lia).
        f_equal. f_equal. rewrite firstn_exact, skipn_exact. rewrite <- GB at 1. f_equal. f_equal. f_equal. cbn [length] in *. lia.
Qed.

(** ** Both *)

Lemma text4_chars ip : is_bytes ip -> length ip = 4%nat -> Forall (fun c => is_digit c \/ c = 46) (text4 ip) /\ In 46 (text4 ip).
Proof.
  intros HB L. destruct ip as [|a [|b [|c [|d [|]]]]]; try discriminate L. clear L. unfold is_bytes in HB.
  inversion_clear HB as [|? ? Ha HB1]. inversion_clear HB1 as [|? ? Hb HB2]. inversion_clear HB2 as [|? ? Hc HB3]. inversion_clear HB3 as [|? ? Hd _].
  assert (X : forall x, is_byte x -> Forall (fun c => is_digit c \/ c = 46) (appendDecimal x)).
  { intros x Hx. eapply Forall_impl; [|apply decimal_chars, Hx]. auto. }
  cbn [text4]. split; [|apply in_or_app; right; left; reflexivity].
  apply Forall_app; split; [auto|]. constructor; [auto|]. apply Forall_app; split; [auto|]. constructor; [auto|].
  apply Forall_app; split; [auto|]. constructor; [auto|]. auto.
Qed.

Lemma first_mark_is s c : In c s -> c = 46 \/ c = 58 \/ c = 37 -> (forall x, In x s -> x = 46 \/ x = 58 \/ x = 37 -> x = c) -> first_mark s = Some c.
Proof.
  induction s as [|x s IH]; intros I HC H; [destruct I|]. cbn [first_mark].
  destruct ((x =? 46) || (x =? 58) || (x =? 37)) eqn:E.
  - f_equal. apply H; [left; reflexivity|lia].
  - apply IH; [destruct I as [->|I]; [exfalso; lia|exact I]|exact HC|]. intros y Hy. apply H. right. exact Hy.
Qed.

Lemma ParseIP_text4 ip : is_bytes ip -> length ip = 4%nat -> ParseIP (text4 ip) = mapped ip.
Proof.
  intros HB L. destruct (text4_chars ip HB L) as (C & I). unfold ParseIP. rewrite (first_mark_is _ 46 I (or_introl eq_refl)).
  - change (46 =? 46) with true. cbv iota. rewrite parse_text4 by assumption. reflexivity.
  - intros x Hx HM. rewrite Forall_forall in C. specialize (C x Hx). unfold is_digit in C. lia.
Qed.
Lemma ParseIP_text6 ip : is_bytes ip -> length ip = 16%nat -> ParseIP (text6 ip) = ip.
Proof.
  intros HB L. destruct (text6_chars ip L HB) as (C & I). unfold ParseIP. rewrite (first_mark_is _ 58 I (or_intror (or_introl eq_refl))).
  - change (58 =? 46) with false. change (58 =? 58) with true. cbv iota. rewrite parse_text6 by assumption. reflexivity.
  - intros x Hx HM. rewrite Forall_forall in C. specialize (C x Hx). unfold v6_char, is_hex in C. lia.
Qed.

Lemma To4_back ip v4 : length ip = 16%nat -> To4 ip = Some v4 -> ip = mapped v4 /\ length v4 = 4%nat.
Proof.
  intros L. unfold To4. rewrite L. change (Nat.eqb 16 4) with false. cbv iota. change (Nat.eqb 16 16) with true. cbn [andb].
  destruct (forallb (Z.eqb 0) (firstn 10 ip) && (nth 10 ip 0 =? 255) && (nth 11 ip 0 =? 255)) eqn:E; [|discriminate].
  intros [= <-]. apply andb_prop in E. destruct E as (E & E3). apply andb_prop in E. destruct E as (E1 & E2).
  do 16 (destruct ip as [|? ip]; [discriminate L|]). destruct ip; [|discriminate L]. cbn [firstn forallb nth skipn] in *.
  split; [|reflexivity]. unfold mapped. cbn [repeat app].
  repeat match goal with H : (_ && _)%bool = true |- _ => apply andb_prop in H; destruct H end.
  repeat match goal with H : (0 =? ?x) = true |- _ => apply Z.eqb_eq in H; subst x end.
  apply Z.eqb_eq in E2, E3. subst. reflexivity.
Qed.

Lemma parse_text ip : an_ip ip -> ParseIP (IP_String ip) = as16 ip.
Proof.
  intros (HB & HL). destruct HL as [->|[L|L]]; [reflexivity| |].
  - unfold IP_String, as16. destruct ip as [|a t] eqn:E; [discriminate L|]. rewrite <- E in *. unfold To4. rewrite L. cbn [Nat.eqb].
    rewrite ParseIP_text4 by assumption. reflexivity.
  - unfold IP_String, as16. rewrite L. cbn [Nat.eqb]. destruct ip as [|a t] eqn:E; [discriminate L|]. rewrite <- E in *. clear E a t.
    destruct (To4 ip) as [v4|] eqn:ET.
    + destruct (To4_back ip v4 L ET) as (-> & L4). apply ParseIP_text4; [|exact L4].
      unfold is_bytes, mapped in *. apply Forall_app in HB. destruct HB as (_ & HB). apply Forall_app in HB. apply HB.
    + apply ParseIP_text6; assumption.
Qed.

Lemma IP_text ip : ip <> [] ->
  IP_String ip = match To4 ip with Some v4 => text4 v4 | None => if Nat.eqb (length ip) 16 then text6 ip else 63 :: hex_pairs ip end.
Proof. destruct ip; [congruence|reflexivity]. Qed.

Lemma text_no_brackets ip : an_ip ip -> ~ In 91 (IP_String ip) /\ ~ In 93 (IP_String ip).
Proof.
  intros (HB & HL). destruct HL as [->|HL]; [cbn; lia|].
  assert (G : Forall (fun c => is_digit c \/ c = 46) (IP_String ip) \/ Forall v6_char (IP_String ip)).
  { rewrite IP_text by (intros ->; destruct HL as [L|L]; discriminate L). destruct HL as [L|L].
    - unfold To4. rewrite L. cbn [Nat.eqb]. left. apply text4_chars; assumption.
    - destruct (To4 ip) as [v4|] eqn:ET.
      + left. destruct (To4_back ip v4 L ET) as (-> & L4). apply text4_chars; [|exact L4].
        unfold is_bytes, mapped in *. apply Forall_app in HB. destruct HB as (_ & HB). apply Forall_app in HB. apply HB.
      + rewrite L. cbn [Nat.eqb]. right. apply text6_chars; assumption. }
  destruct G as [G|G]; rewrite Forall_forall in G; split; intros X; specialize (G _ X); unfold v6_char, is_digit, is_hex in G; lia.
Qed.

(** ** The claims *)

Lemma port_chars n : an_int n -> ~ In 58 (Itoa n) /\ ~ In 91 (Itoa n) /\ ~ In 93 (Itoa n).
Proof.
  intros H. pose proof (Itoa_digits n H) as D. rewrite Forall_forall in D.
  split; [|split]; intros X; specialize (D _ X); unfold is_digit in D; lia.
Qed.

(** The text of an address gives the address back: nil stays nil, an IPv4 address
    comes back in sixteen bytes; every port of an int does. *)
Theorem C92_round_trip : forall a, an_ip (at_ip a) -> an_int (at_port a) ->
  NewAddressWithString (Address_String a) = Some (mkText (as16 (at_ip a)) (at_port a)).
Proof.
  intros [ip port] HI HP. cbn [at_ip at_port] in *. unfold NewAddressWithString, ParseString, Address_String. cbn [at_ip at_port].
  destruct (text_no_brackets ip HI) as (B1 & B2). destruct (port_chars port HP) as (P1 & P2 & P3).
  rewrite split_join by assumption. rewrite Atoi_Itoa by exact HP. cbn [at_ip]. rewrite parse_text by exact HI. reflexivity.
Qed.

(** So two addresses with the same text are the same address. *)
Theorem C92_injective : forall a b, an_ip (at_ip a) -> an_int (at_port a) -> an_ip (at_ip b) -> an_int (at_port b) ->
  Address_String a = Address_String b -> as16 (at_ip a) = as16 (at_ip b) /\ at_port a = at_port b.
Proof.
  intros a b A1 A2 B1 B2 E. pose proof (C92_round_trip a A1 A2) as RA. pose proof (C92_round_trip b B1 B2) as RB.
  rewrite E, RB in RA. injection RA as -> ->. split; reflexivity.
Qed.
Theorem C92_ip_injective : forall a b, an_ip a -> an_ip b -> IP_String a = IP_String b -> as16 a = as16 b.
Proof. intros a b A B E. rewrite <- (parse_text a A), <- (parse_text b B), E. reflexivity. Qed.

(** The source of a message read from a TCP peer is the peer: for peers without a zone. *)
Definition C92_tcp_claim : Prop := forall ip zone port, an_ip ip -> ip <> [] -> ~ In 91 zone -> ~ In 93 zone -> an_int port ->
  tcp_source ip zone port = Some (mkText (as16 ip) port).
Theorem C92_tcp_partial : forall ip port, an_ip ip -> ip <> [] -> an_int port -> tcp_source ip [] port = Some (mkText (as16 ip) port).
Proof.
  intros ip port HI NE HP. unfold tcp_source, TCPAddr_String. destruct ip as [|b t] eqn:E; [congruence|]. rewrite <- E in *.
  exact (C92_round_trip (mkText ip port) HI HP).
Qed.

Lemma v4_bad c s : ~ (is_digit c \/ c = 46) -> In c s -> forall first dot val pos k fields, parseIPv4Fields s first dot val pos k fields = None.
Proof.
  intros HC. induction s as [|x s IH]; intros HI first dot val pos k fields; [destruct HI|]. cbn [parseIPv4Fields].
  destruct HI as [->|HI].
  - unfold is_digit in HC. replace ((48 <=? c) && (c <=? 57)) with false by lia. replace (c =? 46) with false by lia. reflexivity.
  - specialize (IH HI). destruct ((48 <=? x) && (x <=? 57)).
    + destruct ((k =? 1) && (val =? 0)); [reflexivity|]. cbv zeta. destruct (255 <? _); [reflexivity|]. apply IH.
    + destruct (x =? 46); [|reflexivity]. destruct (first || dot || _); [reflexivity|]. destruct (pos =? 3); [reflexivity|]. apply IH.
Qed.

Lemma first_mark_app s t c : first_mark s = Some c -> first_mark (s ++ t) = Some c.
Proof. induction s as [|x s IH]; cbn [first_mark app]; [discriminate|]. destruct (_ || _ || _); auto. Qed.

Lemma host_kind ip : an_ip ip -> ip <> [] ->
  (Forall (fun c => is_digit c \/ c = 46) (IP_String ip) /\ In 46 (IP_String ip)) \/ (Forall v6_char (IP_String ip) /\ In 58 (IP_String ip)).
Proof.
  intros (HB & HL) NE. rewrite IP_text by exact NE. destruct HL as [L|[L|L]]; [congruence| |].
  - unfold To4. rewrite L. cbn [Nat.eqb]. left. apply text4_chars; assumption.
  - destruct (To4 ip) as [v4|] eqn:ET.
    + left. destruct (To4_back ip v4 L ET) as (-> & L4). apply text4_chars; [|exact L4].
      unfold is_bytes, mapped in *. apply Forall_app in HB. destruct HB as (_ & HB). apply Forall_app in HB. apply HB.
    + rewrite L. cbn [Nat.eqb]. right. apply text6_chars; assumption.
Qed.

Lemma zoned ip zone : an_ip ip -> ip <> [] -> zone <> [] -> ParseIP (IP_String ip ++ 37 :: zone) = [].
Proof.
  intros HI NE HZ. unfold ParseIP. destruct (host_kind ip HI NE) as [(C & I)|(C & I)]; rewrite Forall_forall in C.
  - erewrite first_mark_app.
    2:{ apply (first_mark_is _ 46 I (or_introl eq_refl)). intros x Hx HM. specialize (C x Hx). unfold is_digit in C. lia. }
    change (46 =? 46) with true. cbv iota. unfold parseIPv4. rewrite (v4_bad 37); [reflexivity| |apply in_or_app; right; left; reflexivity].
    unfold is_digit. lia.
  - erewrite first_mark_app.
    2:{ apply (first_mark_is _ 58 I (or_intror (or_introl eq_refl))). intros x Hx HM. specialize (C x Hx). unfold v6_char, is_hex in C. lia. }
    change (58 =? 46) with false. change (58 =? 58) with true. cbv iota. unfold parseIPv6. rewrite Index_app.
    2:{ intros X. specialize (C _ X). unfold v6_char, is_hex in C. lia. }
    rewrite firstn_exact. replace (skipn (S (length (IP_String ip))) (IP_String ip ++ 37 :: zone)) with zone.
    2:{ pose proof (skipn_exact (IP_String ip ++ [37]) zone) as X. rewrite app_length, <- app_assoc in X. cbn [length app] in X.
        rewrite Nat.add_1_r in X. symmetry. exact X. }
    destruct zone as [|z zone]; [congruence|]. cbv iota.
    destruct (begins 58 (IP_String ip) && _).
    + destruct (skipn 2 (IP_String ip)) as [|c r]; [reflexivity|].
      destruct (v6_loop 8 (c :: r) [] (Some 0%nat)) as [[[rest ip'] el]|]; [|reflexivity]. destruct rest; [|reflexivity].
      destruct (Nat.ltb _ _); destruct el; reflexivity.
    + destruct (v6_loop 8 (IP_String ip) [] None) as [[[rest ip'] el]|]; [|reflexivity]. destruct rest; [|reflexivity].
      destruct (Nat.ltb _ _); destruct el; reflexivity.
Qed.

(** A peer with a zone, as every link-local IPv6 peer has: the message has no source. *)
Theorem C92_zone : forall ip zone port, an_ip ip -> ip <> [] -> zone <> [] -> ~ In 91 zone -> ~ In 93 zone -> an_int port ->
  tcp_source ip zone port = Some (mkText [] port).
Proof.
  intros ip zone port HI NE HZ Z1 Z2 HP. unfold tcp_source, TCPAddr_String.
  destruct zone as [|z zone'] eqn:EZ; [congruence|]. rewrite <- EZ in *. destruct ip as [|b t] eqn:EI; [congruence|]. rewrite <- EI in *. clear EI EZ.
  unfold NewAddressWithString, ParseString. destruct (text_no_brackets ip HI) as (B1 & B2). destruct (port_chars port HP) as (P1 & P2 & P3).
  rewrite split_join; try assumption.
  - rewrite Atoi_Itoa by exact HP. cbn [at_ip]. rewrite zoned by assumption. reflexivity.
  - intros X. apply in_app_or in X. destruct X as [X|[X|X]]; [exact (B1 X)|discriminate X|exact (Z1 X)].
  - intros X. apply in_app_or in X. destruct X as [X|[X|X]]; [exact (B2 X)|discriminate X|exact (Z2 X)].
Qed.

Definition fe80 : list Z := [254; 128; 0; 0; 0; 0; 0; 0; 0; 0; 0; 0; 0; 0; 0; 1].
Definition bytes_of (s : string) : list Z := map (fun c => Z.of_nat (Ascii.nat_of_ascii c)) (list_ascii_of_string s).

Theorem C92_tcp_refuted : ~ C92_tcp_claim.
Proof.
  intros H. specialize (H fe80 (bytes_of "eth0") 3610). rewrite C92_zone in H.
  - assert (X : Some (mkText [] 3610) = Some (mkText (as16 fe80) 3610)).
    { apply H; [|discriminate| | |unfold an_int; lia].
      + split; [unfold is_bytes, fe80, is_byte; repeat (apply Forall_cons; [lia|]); apply Forall_nil|auto].
      + vm_compute. intros [X|[X|[X|[X|[]]]]]; discriminate X.
      + vm_compute. intros [X|[X|[X|[X|[]]]]]; discriminate X. }
    discriminate X.
  - split; [unfold is_bytes, fe80, is_byte; repeat (apply Forall_cons; [lia|]); apply Forall_nil|auto].
  - discriminate.
  - discriminate.
  - vm_compute. intros [X|[X|[X|[X|[]]]]]; discriminate X.
  - vm_compute. intros [X|[X|[X|[X|[]]]]]; discriminate X.
  - unfold an_int. lia.
Qed.

(** *** What is accepted *)

Lemma v4_ok s : forall first dot val pos k fields ip, is_bytes fields -> is_byte val -> pos = Z.of_nat (length fields) -> pos <= 3 ->
  parseIPv4Fields s first dot val pos k fields = Some ip -> is_bytes ip /\ length ip = 4%nat.
Proof.
  induction s as [|c s IH]; intros first dot val pos k fields ip HF HV HP HL; cbn [parseIPv4Fields].
  - destruct (pos <? 3) eqn:E; [discriminate|]. intros [= <-]. split; [apply Forall_app; split; [exact HF|constructor; [exact HV|constructor]]|].
    rewrite app_length. cbn [length]. lia.
  - destruct ((48 <=? c) && (c <=? 57)) eqn:ED.
    + destruct ((k =? 1) && (val =? 0)); [discriminate|]. cbv zeta. destruct (255 <? _) eqn:EV; [discriminate|].
      apply IH; try assumption. unfold is_byte in *. lia.
    + destruct (c =? 46); [|discriminate]. destruct (first || dot || _); [discriminate|]. destruct (pos =? 3) eqn:E3; [discriminate|].
      apply IH; [apply Forall_app; split; [exact HF|constructor; [exact HV|constructor]]|unfold is_byte; lia|rewrite app_length; cbn [length]; lia|lia].
Qed.

Lemma hex_value_range c d : hex_value c = Some d -> 0 <= d < 16.
Proof. unfold hex_value. destruct (_ && _) eqn:A; [intros [= <-]; lia|]. destruct (_ && _) eqn:B in |- *; [intros [= <-]; lia|]. destruct (_ && _) eqn:C in |- *; [intros [= <-]; lia|discriminate]. Qed.
Lemma hex_group_range s : forall off acc k g r, 0 <= acc <= 65535 -> hex_group s off acc = Some (k, g, r) -> 0 <= g <= 65535.
Proof.
  induction s as [|c s IH]; intros off acc k g r HA; cbn [hex_group]; [intros [= <- <- <-]; exact HA|].
  destruct (hex_value c) as [d|] eqn:E; [|intros [= <- <- <-]; exact HA]. cbv zeta. apply hex_value_range in E.
  destruct (3 <? off); [discriminate|]. destruct (65535 <? acc * 16 + d) eqn:E2; [discriminate|]. apply IH. lia.
Qed.

Lemma v6_loop_ok f : forall s ip el r ip' el', is_bytes ip -> (length ip + 2 * f = 16)%nat -> (forall e, el = Some e -> (e <= length ip)%nat) ->
  v6_loop f s ip el = Some (r, ip', el') -> is_bytes ip' /\ (length ip' <= 16)%nat /\ forall e, el' = Some e -> (e <= length ip')%nat.
Proof.
  induction f as [|f IH]; intros s ip el r ip' el' HB HL HE; cbn [v6_loop].
  { intros [= <- <- <-]. split; [exact HB|]. split; [lia|exact HE]. }
  destruct (hex_group s 0 0) as [[[k g] rest]|] eqn:EG; [|discriminate]. apply hex_group_range in EG; [|lia].
  destruct (k =? 0); [discriminate|]. destruct (begins 46 rest).
  - destruct (match el with None => _ | Some _ => _ end); [discriminate|]. destruct (Nat.ltb 16 (length ip + 4)) eqn:E4; [discriminate|].
    destruct (parseIPv4 s) as [v4|] eqn:E; [|discriminate]. intros [= <- <- <-].
    apply v4_ok in E; [|constructor|unfold is_byte; lia|reflexivity|cbn; lia]. destruct E as (V1 & V2).
    split; [apply Forall_app; split; assumption|]. apply Nat.ltb_ge in E4. rewrite app_length. split; [lia|]. intros e He. specialize (HE e He). lia.
  - cbv zeta. assert (HB' : is_bytes (ip ++ [g / 256; g mod 256])).
    { apply Forall_app. split; [exact HB|]. pose proof (Z.mod_pos_bound g 256 ltac:(lia)).
      assert (0 <= g / 256 < 256) by (split; [apply Z.div_pos; lia|apply Z.div_lt_upper_bound; lia]).
      repeat (apply Forall_cons; [unfold is_byte; lia|]). constructor. }
    assert (LE : length (ip ++ [g / 256; g mod 256]) = (length ip + 2)%nat) by (rewrite app_length; reflexivity).
    destruct rest as [|c more].
    { intros [= <- <- <-]. split; [exact HB'|]. split; [lia|]. intros e He. specialize (HE e He). lia. }
    destruct (negb (begins 58 (c :: more))); [discriminate|]. destruct more as [|c' more']; [discriminate|].
    destruct (begins 58 (c' :: more')).
    + destruct el as [e0|]; [discriminate|]. destruct more' as [|x y].
      * intros [= <- <- <-]. split; [exact HB'|]. split; [lia|]. intros e [= <-]. lia.
      * apply IH; [exact HB'|lia|]. intros e [= <-]. lia.
    + apply IH; [exact HB'|lia|]. intros e He. specialize (HE e He). lia.
Qed.

Lemma repeat_bytes n : is_bytes (repeat 0 n).
Proof. induction n; cbn [repeat]; constructor; [unfold is_byte; lia|assumption]. Qed.

Lemma ParseIP_ok s : ParseIP s = [] \/ is_bytes (ParseIP s) /\ length (ParseIP s) = 16%nat.
Proof.
  unfold ParseIP. destruct (first_mark s) as [c|]; [|left; reflexivity]. destruct (c =? 46).
  - destruct (parseIPv4 s) as [v4|] eqn:E; [|left; reflexivity]. right.
    apply v4_ok in E; [|constructor|unfold is_byte; lia|reflexivity|cbn; lia]. destruct E as (V1 & V2). unfold mapped.
    split; [|rewrite !app_length, repeat_length, V2; reflexivity].
    apply Forall_app. split; [apply repeat_bytes|]. apply Forall_app. split; [|exact V1]. repeat (apply Forall_cons; [unfold is_byte; lia|]). constructor.
  - destruct (c =? 58); [|left; reflexivity]. destruct (parseIPv6 s) as [[ip zone]|] eqn:E; [|left; reflexivity].
    destruct zone; [|left; reflexivity]. right. revert E. unfold parseIPv6.
    destruct (match IndexByte 37 s with None => _ | Some _ => _ end) as [[s1 zone] bad]. destruct bad; [discriminate|].
    destruct (if begins 58 s1 && _ then _ else _) as [s2 el] eqn:E2.
    assert (HE : forall e, el = Some e -> (e <= length (@nil Z))%nat).
    { destruct (_ && _) in E2; injection E2 as _ <-; intros e; [intros [= <-]; cbn; lia|discriminate]. }
    assert (G : match v6_loop 8 s2 [] el with
        | None => None
        | Some (rest, ip, ellipsis) =>
            match rest with
            | _ :: _ => None
            | [] =>
                if Nat.ltb (length ip) 16 then
                  match ellipsis with
                  | None => None
                  | Some e => Some (firstn e ip ++ repeat 0 (16 - length ip) ++ skipn e ip, zone)
                  end
                else match ellipsis with Some _ => None | None => Some (ip, zone) end
            end
        end = Some (ip, []) -> is_bytes ip /\ length ip = 16%nat).
    { destruct (v6_loop 8 s2 [] el) as [[[rest ip'] el']|] eqn:EL; [|discriminate].
      apply v6_loop_ok in EL; [|constructor|reflexivity|exact HE]. destruct EL as (L1 & L2 & L3).
      destruct rest; [|discriminate]. destruct (Nat.ltb (length ip') 16) eqn:E16.
      - destruct el' as [e|]; [|discriminate]. remember (16 - length ip')%nat as k eqn:EK. intros [= <- _]. specialize (L3 e eq_refl). apply Nat.ltb_lt in E16.
        rewrite <- (firstn_skipn e ip') in L1. apply Forall_app in L1. destruct L1 as (F1 & F2). split.
        + apply Forall_app. split; [exact F1|]. apply Forall_app. split; [apply repeat_bytes|exact F2].
        + rewrite !app_length, repeat_length, firstn_length, skipn_length. lia.
      - apply Nat.ltb_ge in E16. destruct el'; [discriminate|]. intros [= <- _]. split; [exact L1|lia]. }
    destruct el as [e|]; [|exact G]. destruct s2 as [|c2 s2]; [|exact G]. intros [= <- _]. split; [exact (repeat_bytes 16)|reflexivity].
Qed.

Lemma Atoi_range s n : Atoi s = Some n -> an_int n.
Proof.
  unfold Atoi. destruct (match s with [] => _ | _ :: _ => _ end) as [neg ds]. destruct ds; [discriminate|].
  destruct (decimal_value _ 0); [|discriminate]. cbv zeta. destruct (_ && _) eqn:E in |- *; [|discriminate]. intros [= <-]. unfold an_int. lia.
Qed.

(** Every text that is accepted stands for the address of its own text: nil or sixteen bytes,
    and reading the text written gives the same address again. *)
Theorem C92_accepted : forall s a, NewAddressWithString s = Some a ->
  (at_ip a = [] \/ is_bytes (at_ip a) /\ length (at_ip a) = 16%nat) /\ an_int (at_port a) /\
  NewAddressWithString (Address_String a) = Some a.
Proof.
  intros s a. unfold NewAddressWithString at 1, ParseString. destruct (SplitHostPort s) as [[host port]|]; [|discriminate].
  destruct (Atoi port) as [n|] eqn:EA; [|discriminate]. cbn [at_ip]. intros [= <-]. cbn [at_ip at_port].
  pose proof (ParseIP_ok host) as HI. pose proof (Atoi_range _ _ EA) as HN. split; [exact HI|]. split; [exact HN|].
  rewrite C92_round_trip; [|cbn [at_ip]|exact HN].
  - cbn [at_ip at_port]. f_equal. f_equal. unfold as16. destruct HI as [->|(_ & ->)]; reflexivity.
  - destruct HI as [->|(B & L)]; [split; [constructor|auto]|split; [exact B|auto]].
Qed.

(** A host that is no address is not refused, it is nil. *)
Definition C92_refuses_claim : Prop := forall s a, NewAddressWithString s = Some a -> at_ip a <> [].
Theorem C92_refuses_refuted : ~ C92_refuses_claim.
Proof. intros H. apply (H (bytes_of "localhost:3610") (mkText [] 3610)); vm_compute; reflexivity. Qed.

(** ** The form of the text *)

(** A number written with digits in a base, without leading zeros and in lower case. *)
Definition digit_of (c : Z) : Z := if c <? 58 then c - 48 else c - 87.
Definition written (base : Z) (w : list Z) (n : Z) : Prop :=
  w <> [] /\ Forall (fun c => (48 <= c <= 57 \/ 97 <= c <= 102) /\ digit_of c < base) w /\
  fold_left (fun acc c => acc * base + digit_of c) w 0 = n /\ (hd 0 w = 48 -> w = [48]).
Fixpoint with_mark (m : Z) (ws : list (list Z)) : list Z :=
  match ws with [] => [] | [w] => w | w :: t => w ++ m :: with_mark m t end.
(** Groups [i], …, [i + n - 1] of the eight are zero. *)
Definition zero_groups (ip : list Z) (i n : nat) : Prop :=
  (i + n <= 8)%nat /\ forall k, (i <= k < i + n)%nat -> nth (2 * k) ip 1 = 0 /\ nth (2 * k + 1) ip 1 = 0.
Fixpoint pairs (ip : list Z) : list (Z * Z) := match ip with a :: b :: t => (a, b) :: pairs t | _ => [] end.

Lemma hex_written g : 0 <= g <= 65535 -> written 16 (appendHex g) g.
Proof.
  intros H. unfold appendHex.
  assert (D : forall d, 0 <= d < 16 -> ((48 <= hex_digit d <= 57 \/ 97 <= hex_digit d <= 102) /\ digit_of (hex_digit d) < 16) /\ digit_of (hex_digit d) = d /\
              (hex_digit d = 48 -> d = 0)).
  { intros d Hd. unfold hex_digit, digit_of. destruct (d <? 10) eqn:E.
    - assert (F : (48 + d <? 58) = true) by lia. rewrite F. lia.
    - assert (F : (87 + d <? 58) = false) by lia. rewrite F. lia. }
  pose proof (Z.div_mod g 16 ltac:(lia)) as E1. pose proof (Z.mod_pos_bound g 16 ltac:(lia)) as B1.
  assert (Q : g / 16 / 16 = g / 256) by (rewrite Z.div_div by lia; reflexivity).
  assert (Q' : g / 256 / 16 = g / 4096) by (rewrite Z.div_div by lia; reflexivity).
  pose proof (Z.div_mod (g / 16) 16 ltac:(lia)) as E2. pose proof (Z.mod_pos_bound (g / 16) 16 ltac:(lia)) as B2. rewrite Q in E2.
  pose proof (Z.div_mod (g / 256) 16 ltac:(lia)) as E3. pose proof (Z.mod_pos_bound (g / 256) 16 ltac:(lia)) as B3. rewrite Q' in E3.
  remember (g / 4096) as d3 eqn:H3. clear H3. remember (g / 256) as q2 eqn:H2. clear H2. remember (g / 16) as q1 eqn:H1. clear H1.
  remember (g mod 16) as d0. remember (q1 mod 16) as d1. remember (q2 mod 16) as d2. clear Heqd0 Heqd1 Heqd2 Q Q'.
  destruct (0x1000 <=? g) eqn:C3; destruct (0x100 <=? g) eqn:C2; destruct (0x10 <=? g) eqn:C1; try lia; cbn [app];
    try (destruct (D d3 ltac:(lia)) as (X3 & Y3 & Z3)); try (destruct (D d2 ltac:(lia)) as (X2 & Y2 & Z2));
    try (destruct (D d1 ltac:(lia)) as (X1 & Y1 & Z1)); destruct (D d0 ltac:(lia)) as (X0 & Y0 & Z0);
    (split; [discriminate|split; [repeat (apply Forall_cons; [assumption|]); apply Forall_nil|split; cbn [fold_left hd]; [lia|]]]).
  - intros X. specialize (Z3 X). lia.
  - intros X. specialize (Z2 X). lia.
  - intros X. specialize (Z1 X). lia.
  - intros X. rewrite X. reflexivity.
Qed.
Lemma decimal_written x : is_byte x -> written 10 (appendDecimal x) x.
Proof.
  unfold is_byte. intros H. unfold appendDecimal.
  pose proof (Z.div_mod x 10 ltac:(lia)) as E1. pose proof (Z.mod_pos_bound x 10 ltac:(lia)) as B1.
  assert (Q : x / 10 / 10 = x / 100) by (rewrite Z.div_div by lia; reflexivity).
  pose proof (Z.div_mod (x / 10) 10 ltac:(lia)) as E2. pose proof (Z.mod_pos_bound (x / 10) 10 ltac:(lia)) as B2. rewrite Q in E2. clear Q.
  remember (x / 100) as d2 eqn:H2. clear H2. remember (x / 10) as q1 eqn:H1. clear H1.
  remember (x mod 10) as d0. remember (q1 mod 10) as d1. clear Heqd0 Heqd1.
  assert (D : forall d, 0 <= d < 10 -> digit_of (48 + d) = d) by (intros d Hd; unfold digit_of; assert (F : (48 + d <? 58) = true) by lia; rewrite F; lia).
  destruct (100 <=? x) eqn:C2; destruct (10 <=? x) eqn:C1; try lia; cbn [app];
    (split; [discriminate|split; [|split; cbn [fold_left hd]; [rewrite ?D by lia; lia|]]]).
  all: try (repeat (apply Forall_cons; [rewrite ?D by lia; lia|]); apply Forall_nil).
  all: try (intros X; assert (d0 = 0) by lia; subst d0; reflexivity).
  all: intros X; exfalso; lia.
Qed.

(** The run that is shortened. *)
Lemma zeros_le gs : (zeros gs <= length gs)%nat.
Proof. induction gs as [|g t IH]; [cbn; lia|]. cbn [zeros length]. destruct (g =? 0); lia. Qed.
Lemma zeros_nth gs : forall k, (k < zeros gs)%nat -> nth k gs 1 = 0.
Proof.
  induction gs as [|g t IH]; intros k H; [cbn in H; lia|]. cbn [zeros] in H. destruct (g =? 0) eqn:E; [|lia].
  destruct k as [|k]; [cbn; lia|]. cbn [nth]. apply IH. lia.
Qed.
Lemma zeros_most gs : forall m, (forall k, (k < m)%nat -> nth k gs 1 = 0) -> (m <= zeros gs)%nat.
Proof.
  induction gs as [|g t IH]; intros m H.
  - destruct m as [|m]; [lia|]. specialize (H O ltac:(lia)). cbn in H. lia.
  - cbn [zeros]. destruct m as [|m]; [lia|]. pose proof (H O ltac:(lia)) as H0. cbn in H0. subst g. cbn [Z.eqb].
    assert (m <= zeros t)%nat; [|lia]. apply IH. intros k Hk. exact (H (S k) ltac:(lia)).
Qed.

(** The run found among those that start before [i]. *)
Definition longest (gs : list Z) (i : nat) (best : nat * nat) : Prop :=
  best = (255%nat, 255%nat) /\ (forall j, (j < i)%nat -> (zeros (skipn j gs) <= 1)%nat) \/
  (fst best < i)%nat /\ (2 <= snd best - fst best)%nat /\ zeros (skipn (fst best) gs) = (snd best - fst best)%nat /\
  forall j, (j < i)%nat -> (zeros (skipn j gs) < snd best - fst best \/ zeros (skipn j gs) = snd best - fst best /\ fst best <= j)%nat.
Lemma zero_run_longest gs : forall t pre best, gs = pre ++ t -> longest gs (length pre) best -> longest gs (length gs) (zero_run t (length pre) best).
Proof.
  induction t as [|g t IH]; intros pre best E H; [cbn [zero_run]; rewrite E, app_nil_r in *; exact H|]. cbn [zero_run].
  replace (S (length pre)) with (length (pre ++ [g])) by (rewrite app_length; cbn; lia).
  assert (K : zeros (skipn (length pre) gs) = zeros (g :: t)) by (rewrite E, skipn_exact; reflexivity).
  apply IH; [rewrite <- app_assoc; exact E|]. unfold longest in *. rewrite app_length. cbn [length]. remember (zeros (g :: t)) as l eqn:El. clear El IH.
  destruct (Nat.leb 2 l && Nat.ltb (snd best - fst best) l) eqn:C.
  - apply andb_prop in C. destruct C as (C1 & C2). apply Nat.leb_le in C1. apply Nat.ltb_lt in C2. right. cbn [fst snd].
    replace (length pre + l - length pre)%nat with l by lia. split; [lia|]. split; [exact C1|]. split; [exact K|].
    intros j Hj. destruct (Nat.eq_dec j (length pre)) as [->|N]; [right; split; [exact K|lia]|]. left.
    destruct H as [(H & HA)|(H1 & H2 & H3 & H4)]; [specialize (HA j ltac:(lia)); lia|]. destruct (H4 j ltac:(lia)) as [X|(X & _)]; lia.
  - destruct H as [(H & HA)|(H1 & H2 & H3 & H4)].
    + left. split; [exact H|]. intros j Hj. destruct (Nat.eq_dec j (length pre)) as [->|N]; [|apply HA; lia]. rewrite K.
      rewrite H in C. cbn [fst snd] in C. apply andb_false_iff in C. destruct C as [C|C]; [apply Nat.leb_gt in C; lia|apply Nat.ltb_ge in C; lia].
    + right. split; [lia|]. split; [exact H2|]. split; [exact H3|]. intros j Hj. destruct (Nat.eq_dec j (length pre)) as [->|N]; [|apply H4; lia]. rewrite K.
      apply andb_false_iff in C. destruct C as [C|C]; [apply Nat.leb_gt in C; lia|apply Nat.ltb_ge in C; lia].
Qed.

Lemma group_nth ip : forall k, is_bytes ip -> length ip = (2 * length (groups ip))%nat -> (k < length (groups ip))%nat ->
  nth k (groups ip) 1 = nth (2 * k) ip 1 * 256 + nth (2 * k + 1) ip 1 /\ is_byte (nth (2 * k) ip 1) /\ is_byte (nth (2 * k + 1) ip 1).
Proof.
  intros k HB _. assert (G : forall n ip, (length ip <= n)%nat -> is_bytes ip -> forall k, (k < length (groups ip))%nat ->
    nth k (groups ip) 1 = nth (2 * k) ip 1 * 256 + nth (2 * k + 1) ip 1 /\ is_byte (nth (2 * k) ip 1) /\ is_byte (nth (2 * k + 1) ip 1)).
  { clear. induction n as [|n IH]; intros ip L HB k Hk; [destruct ip; cbn in L, Hk; lia|].
    destruct ip as [|a [|b t]]; try (cbn in Hk; lia). inversion HB as [|? ? Ha HB']; subst. inversion HB' as [|? ? Hb Ht]; subst.
    destruct k as [|k]; [cbn; repeat split; assumption || (unfold is_byte in *; lia)|]. cbn [groups] in Hk |- *.
    replace (2 * S k)%nat with (S (S (2 * k))) by lia. replace (S (S (2 * k)) + 1)%nat with (S (S (2 * k + 1))) by lia. cbn [nth].
    apply IH; [cbn [length] in L; lia|exact Ht|cbn [length] in Hk; lia]. }
  exact (G (length ip) ip ltac:(lia) HB k).
Qed.
Lemma nth_skip {A} (l : list A) d : forall i k, nth k (skipn i l) d = nth (i + k) l d.
Proof. induction l as [|x l IH]; intros i k; [rewrite skipn_nil; destruct k, (i + _)%nat; reflexivity|]. destruct i as [|i]; [reflexivity|]. cbn [skipn Nat.add nth]. apply IH. Qed.

Lemma zero_groups_run ip i n : is_bytes ip -> length ip = 16%nat ->
  (zero_groups ip i n <-> (i + n <= 8)%nat /\ (n <= zeros (skipn i (groups ip)))%nat).
Proof.
  intros HB L. pose proof (groups_length ip L) as G. unfold zero_groups. split; intros (H & K); split; try exact H.
  - apply zeros_most. intros k Hk. rewrite nth_skip. destruct (group_nth ip (i + k) HB ltac:(lia) ltac:(lia)) as (E & _). rewrite E.
    destruct (K (i + k)%nat ltac:(lia)) as (-> & ->). reflexivity.
  - intros k Hk. destruct (group_nth ip k HB ltac:(lia) ltac:(lia)) as (E & B1 & B2). pose proof (zeros_nth (skipn i (groups ip)) (k - i) ltac:(lia)) as Z0.
    rewrite nth_skip in Z0. replace (i + (k - i))%nat with k in Z0 by lia. unfold is_byte in *. lia.
Qed.

Lemma join_words gs : join gs = with_mark 58 (map appendHex gs).
Proof. induction gs as [|g [|h t] IH]; [reflexivity|reflexivity|]. cbn [join map with_mark] in *. rewrite IH. reflexivity. Qed.

(** An address of sixteen bytes that is no IPv4 address is written in the form of RFC 5952: groups in lower case without leading
    zeros, and the first of the longest runs of zero groups, of two groups or more, left out. *)
Theorem C92_text6 : forall ip, is_bytes ip -> length ip = 16%nat -> (forall v4, ip <> mapped v4) ->
  exists words, Forall2 (fun w p => written 16 w (fst p * 256 + snd p)) words (pairs ip) /\
    ((forall i n, zero_groups ip i n -> (n <= 1)%nat) /\ IP_String ip = with_mark 58 words \/
     exists i n, zero_groups ip i n /\ (2 <= n)%nat /\ (forall j m, zero_groups ip j m -> (m < n \/ m = n /\ i <= j)%nat) /\
       IP_String ip = with_mark 58 (firstn i words) ++ 58 :: 58 :: with_mark 58 (skipn (i + n) words)).
Proof.
  intros ip HB L NM. pose proof (groups_length ip L) as G.
  assert (T : IP_String ip = text6 ip).
  { rewrite IP_text by (intros ->; discriminate L). destruct (To4 ip) as [v4|] eqn:E; [destruct (To4_back ip v4 L E) as (X & _); elim (NM v4 X)|].
    rewrite L. reflexivity. }
  exists (map appendHex (groups ip)). split.
  - assert (GG : forall n ip, (length ip <= n)%nat -> is_bytes ip -> Forall2 (fun w p => written 16 w (fst p * 256 + snd p)) (map appendHex (groups ip)) (pairs ip)).
    { clear. induction n as [|n IH]; intros ip L HB; [destruct ip; [constructor|cbn in L; lia]|].
      destruct ip as [|a [|b t]]; try constructor. all: inversion HB as [|? ? Ha HB']; subst; inversion HB' as [|? ? Hb Ht]; subst.
      - cbn [fst snd]. apply hex_written. unfold is_byte in *. lia.
      - apply IH; [cbn [length] in L; lia|exact Ht]. }
    exact (GG (length ip) ip ltac:(lia) HB).
  - rewrite T. unfold text6. assert (HL : longest (groups ip) 0 (255%nat, 255%nat)) by (left; split; [reflexivity|intros; lia]).
    pose proof (zero_run_longest (groups ip) (groups ip) [] _ eq_refl HL) as H. cbn [length] in H. rewrite G in H.
    destruct (zero_run (groups ip) 0 (255%nat, 255%nat)) as [start stop]. unfold longest in H. cbn [fst snd] in H.
    destruct H as [(E & H)|(H1 & H2 & H3 & H4)].
    + injection E as -> ->. left. split; [|rewrite loop_plain by exact G; apply join_words].
      intros i n Z0. apply zero_groups_run in Z0; [|assumption..]. destruct Z0 as (Z1 & Z2). destruct (Nat.eq_dec i 8) as [->|]; [lia|]. specialize (H i ltac:(lia)). lia.
    + right. exists start, (stop - start)%nat. pose proof (zeros_le (skipn start (groups ip))) as LE. rewrite skipn_length, G in LE.
      split; [apply zero_groups_run; [assumption..|]; lia|]. split; [exact H2|]. split.
      * intros j m Z0. apply zero_groups_run in Z0; [|assumption..]. destruct Z0 as (Z1 & Z2). destruct (Nat.eq_dec j 8) as [->|]; [lia|].
        destruct (H4 j ltac:(lia)) as [X|(X & Y)]; lia.
      * replace (start + (stop - start))%nat with stop by lia. rewrite loop_shape by lia. rewrite firstn_map, skipn_map, !join_words. reflexivity.
Qed.

(** IPv4 addresses, of four bytes or in the mapped form, are written in decimal; no address is written <nil>. *)
Theorem C92_text4 : forall v4, is_bytes v4 -> length v4 = 4%nat ->
  exists words, Forall2 (written 10) words v4 /\ IP_String v4 = with_mark 46 words /\ IP_String (mapped v4) = with_mark 46 words.
Proof.
  intros v4 HB L. destruct v4 as [|a [|b [|c [|d [|]]]]]; try discriminate L.
  exists (map appendDecimal [a; b; c; d]). split; [|split; reflexivity].
  unfold is_bytes in HB. repeat match goal with H : Forall is_byte (_ :: _) |- _ => inversion H; subst; clear H end.
  repeat (apply Forall2_cons; [apply decimal_written; assumption|]). apply Forall2_nil.
Qed.
Theorem C92_nil : forall ip, an_ip ip -> (IP_String ip = bytes_of "<nil>" <-> ip = []).
Proof.
  intros ip H. split; [|intros ->; reflexivity]. intros E. pose proof (parse_text ip H) as P. rewrite E in P.
  assert (X : ParseIP (bytes_of "<nil>") = []) by reflexivity. rewrite X in P. unfold as16 in P. destruct H as (_ & H). destruct ip as [|x ip]; [reflexivity|].
  exfalso. destruct (Nat.eqb (length (x :: ip)) 4); discriminate P.
Qed.

(** Bytes that are no address are written as a question mark and two digits for each. *)
Theorem C92_other : forall ip, is_bytes ip -> ip <> [] -> length ip <> 4%nat -> length ip <> 16%nat ->
  exists words, IP_String ip = 63 :: concat words /\
    Forall2 (fun w b => length w = 2%nat /\ Forall (fun c => 48 <= c <= 57 \/ 97 <= c <= 102) w /\
               fold_left (fun acc c => acc * 16 + digit_of c) w 0 = b) words ip.
Proof.
  intros ip HB NE L4 L16. exists (map (fun b => [hex_digit (b / 16); hex_digit (b mod 16)]) ip). split.
  - rewrite IP_text by exact NE. unfold To4. rewrite (proj2 (Nat.eqb_neq _ _) L4), (proj2 (Nat.eqb_neq _ _) L16). cbn [andb].
    unfold hex_pairs. rewrite flat_map_concat_map. reflexivity.
  - clear NE L4 L16. induction HB as [|b ip Hb HB IH]; cbn [map]; [constructor|]. constructor; [|exact IH]. split; [reflexivity|].
    unfold is_byte in Hb. pose proof (Z.div_mod b 16 ltac:(lia)) as E. pose proof (Z.mod_pos_bound b 16 ltac:(lia)) as B.
    remember (b / 16) as q eqn:Hq. clear Hq. remember (b mod 16) as d eqn:Hd. clear Hd.
    assert (D : forall d, 0 <= d < 16 -> (48 <= hex_digit d <= 57 \/ 97 <= hex_digit d <= 102) /\ digit_of (hex_digit d) = d).
    { intros x Hx. unfold hex_digit, digit_of. destruct (x <? 10) eqn:E1.
      - assert (F : (48 + x <? 58) = true) by lia. rewrite F. lia.
      - assert (F : (87 + x <? 58) = false) by lia. rewrite F. lia. }
    destruct (D q ltac:(lia)) as (Q1 & Q2), (D d ltac:(lia)) as (D1 & D2). split; [constructor; [exact Q1|constructor; [exact D1|constructor]]|].
    cbn [fold_left]. rewrite Q2, D2. lia.
Qed.

Lemma digits_scan ds : forall off acc r, Forall is_digit ds -> 0 <= off -> off + Z.of_nat (length ds) <= 4 -> 0 <= acc < 16 ^ off -> no_hex r ->
  exists g, hex_group (ds ++ r) off acc = Some (off + Z.of_nat (length ds), g, r).
Proof.
  induction ds as [|c ds IH]; intros off acc r HD H0 HL HA HR.
  - exists acc. cbn [app length]. rewrite hex_group_stop by exact HR. replace (off + Z.of_nat 0) with off by lia. reflexivity.
  - inversion_clear HD as [|? ? Hc HD']. cbn [length] in HL. cbn [app hex_group]. unfold is_digit in Hc. unfold hex_value at 1.
    replace ((48 <=? c) && (c <=? 57)) with true by lia.
    assert (P : 16 ^ (off + 1) = 16 * 16 ^ off) by (rewrite Z.pow_add_r by lia; lia).
    assert (M : 16 ^ (off + 1) <= 16 ^ 4) by (apply Z.pow_le_mono_r; lia). change (16 ^ 4) with 65536 in M.
    replace (3 <? off) with false by lia. replace (65535 <? acc * 16 + (c - 48)) with false by lia.
    destruct (IH (off + 1) (acc * 16 + (c - 48)) r HD' ltac:(lia) ltac:(lia) ltac:(lia) HR) as (g & ->).
    exists g. cbn [length]. f_equal. f_equal. f_equal. lia.
Qed.

Lemma loop_v4 f v4 ip : is_bytes v4 -> length v4 = 4%nat -> length ip = 12%nat ->
  v6_loop (S f) (text4 v4) ip None = Some ([], ip ++ v4, None).
Proof.
  intros HB L LI. pose proof (parse_text4 v4 HB L) as P. destruct v4 as [|a [|b [|c [|d [|]]]]]; try discriminate L.
  cbn [v6_loop]. assert (Ha : is_byte a) by (inversion HB; assumption).
  assert (LA : (1 <= length (appendDecimal a) <= 3)%nat) by (unfold appendDecimal; destruct (100 <=? a), (10 <=? a); cbn; lia).
  destruct (digits_scan (appendDecimal a) 0 0 (46 :: appendDecimal b ++ 46 :: appendDecimal c ++ 46 :: appendDecimal d)
              (decimal_chars a Ha) ltac:(lia) ltac:(lia) ltac:(lia) eq_refl) as (g & E).
  change (text4 [a; b; c; d]) with (appendDecimal a ++ 46 :: appendDecimal b ++ 46 :: appendDecimal c ++ 46 :: appendDecimal d) in *.
  rewrite E. replace (0 + Z.of_nat (length (appendDecimal a)) =? 0) with false by lia. cbn [begins]. change (46 =? 46) with true. cbn iota.
  rewrite LI. cbn [Nat.eqb negb Nat.ltb Nat.leb Nat.add]. rewrite P. reflexivity.
Qed.

(** An address of which the last four bytes are written in decimal is read as that address. *)
Theorem C92_embedded : forall ip, is_bytes ip -> length ip = 16%nat ->
  exists words, Forall2 (fun w p => written 16 w (fst p * 256 + snd p)) words (pairs (firstn 12 ip)) /\
    ParseIP (with_mark 58 words ++ 58 :: IP_String (skipn 12 ip)) = ip.
Proof.
  intros ip HB L. rewrite <- (firstn_skipn 12 ip) in HB. apply Forall_app in HB. destruct HB as (H1 & H2).
  assert (L1 : length (firstn 12 ip) = 12%nat) by (rewrite firstn_length; lia).
  assert (L2 : length (skipn 12 ip) = 4%nat) by (rewrite skipn_length; lia).
  enough (X : forall hi v4, Forall is_byte hi -> length hi = 12%nat -> Forall is_byte v4 -> length v4 = 4%nat ->
    exists words, Forall2 (fun w p => written 16 w (fst p * 256 + snd p)) words (pairs hi) /\
      ParseIP (with_mark 58 words ++ 58 :: IP_String v4) = hi ++ v4).
  { destruct (X _ _ H1 L1 H2 L2) as (words & A & B). exists words. rewrite firstn_skipn in B. auto. }
  clear. intros hi v4 H1 L1 H2 L2. destruct hi as [|a0 [|a1 [|b0 [|b1 [|c0 [|c1 [|d0 [|d1 [|e0 [|e1 [|f0 [|f1 [|]]]]]]]]]]]]]; try discriminate L1.
  pose (gs := [a0 * 256 + a1; b0 * 256 + b1; c0 * 256 + c1; d0 * 256 + d1; e0 * 256 + e1; f0 * 256 + f1]).
  repeat match goal with H : Forall is_byte (_ :: _) |- _ => inversion H; subst; clear H end. unfold is_byte in *.
  assert (HG : Forall is_group gs) by (unfold gs, is_group; repeat constructor; lia).
  assert (HW : group_bytes gs = [a0; a1; b0; b1; c0; c1; d0; d1; e0; e1; f0; f1]).
  { assert (D : forall x y, 0 <= y < 256 -> (x * 256 + y) / 256 = x /\ (x * 256 + y) mod 256 = y).
    { intros x y Hy. rewrite Z.add_comm, Z.div_add, Z.mod_add by lia. rewrite Z.div_small, Z.mod_small by lia. lia. }
    unfold group_bytes, gs. cbn [flat_map app].
    repeat match goal with |- context [(?x * 256 + ?y) / 256] => destruct (D x y ltac:(lia)) as (-> & ->) end. reflexivity. }
  exists (map appendHex gs). split.
  { unfold gs. cbn [map pairs]. repeat constructor; cbn [fst snd]; apply hex_written; lia. }
  rewrite <- join_words, <- HW.
  assert (T : IP_String v4 = text4 v4).
  { rewrite IP_text by (intros ->; discriminate L2). unfold To4. rewrite L2. reflexivity. } rewrite T.
  assert (H2' : is_bytes v4) by exact H2.
  pose proof (text4_chars v4 H2' L2) as (TC & _).
  assert (TE : exists c t, text4 v4 = c :: t /\ is_digit c).
  { destruct v4 as [|a [|b [|c [|d [|]]]]]; try discriminate L2.
    assert (Ha : is_byte a) by (inversion H2'; assumption). pose proof (decimal_chars a Ha) as DC. pose proof (decimal_ne a) as DN.
    cbn [text4]. destruct (appendDecimal a) as [|x t]; [congruence|]. inversion DC; subst. exists x. eexists. split; [reflexivity|assumption]. }
  assert (LP : forall l f ip, l <> [] -> Forall is_group l -> (length l < f)%nat -> (length ip + 2 * length l = 12)%nat ->
             v6_loop f (join l ++ 58 :: text4 v4) ip None = Some ([], ip ++ group_bytes l ++ v4, None)).
  { induction l as [|g t IH]; intros f ip NE HGl HL HI; [congruence|]. destruct f as [|f]; [lia|]. inversion_clear HGl as [|? ? Hg Ht].
    destruct t as [|h t].
    - cbn [join]. rewrite loop_one; [|exact Hg|reflexivity|reflexivity]. cbn [begins]. change (58 =? 58) with true. cbn [negb].
      destruct TE as (c & s & E & Hc). rewrite E. unfold is_digit in Hc. replace (begins 58 (c :: s)) with false by (cbn [begins]; lia).
      rewrite <- E. cbn [length] in HL, HI. destruct f as [|f]; [lia|]. rewrite loop_v4; [|exact H2'|exact L2|rewrite app_length; cbn [length]; lia].
      rewrite <- app_assoc. reflexivity.
    - inversion Ht; subst. rewrite loop_more by assumption. rewrite IH; [|discriminate|exact Ht|cbn [length] in *; lia|rewrite app_length; cbn [length] in *; lia].
      rewrite <- app_assoc. reflexivity. }
  assert (CH : Forall (fun c => v6_char c \/ c = 46) (join gs ++ 58 :: text4 v4)).
  { apply Forall_app. split; [eapply Forall_impl; [|apply join_chars, HG]; intros c Hc; left; exact Hc|].
    constructor; [left; right; reflexivity|]. eapply Forall_impl; [|exact TC]. intros c [Hc|Hc]; [left; left; left; exact Hc|right; exact Hc]. }
  assert (FM : first_mark (join gs ++ 58 :: text4 v4) = Some 58).
  { change (join gs ++ 58 :: text4 v4) with (join gs ++ [58] ++ text4 v4). rewrite app_assoc. apply first_mark_app.
    apply first_mark_is; [apply in_or_app; right; left; reflexivity|auto|].
    intros x Hx HM. apply in_app_or in Hx. destruct Hx as [Hx|[<-|[]]]; [|reflexivity].
    pose proof (join_chars gs HG) as JC. rewrite Forall_forall in JC. specialize (JC x Hx). unfold v6_char, is_hex in JC. lia. }
  unfold ParseIP. rewrite FM. change (58 =? 46) with false. change (58 =? 58) with true. cbv iota.
  assert (P6 : parseIPv6 (join gs ++ 58 :: text4 v4) = Some (group_bytes gs ++ v4, [])).
  { unfold parseIPv6. rewrite Index_none.
    2:{ intros X. rewrite Forall_forall in CH. specialize (CH _ X). unfold v6_char, is_hex in CH. lia. }
    cbv iota. destruct (join_head (a0 * 256 + a1) (tl gs) (58 :: text4 v4) ltac:(inversion HG; assumption)) as (c & s & J & HC).
    change ((a0 * 256 + a1) :: tl gs) with gs in J. rewrite J at 1. rewrite begins_hex by auto. cbn [andb].
    rewrite (LP gs 8%nat []); [|discriminate|exact HG|cbn; lia|reflexivity]. cbn [app].
    rewrite app_length, HW, L2. reflexivity. }
  rewrite P6. reflexivity.
Qed.

(** ** Examples *)

Example C92_example :
  Address_String (mkText [192; 168; 0; 7] 3610) = bytes_of "192.168.0.7:3610" /\
  Address_String (mkText fe80 3610) = bytes_of "[fe80::1]:3610" /\
  Address_String (mkText [32; 1; 13; 184; 0; 0; 0; 0; 0; 1; 0; 0; 0; 0; 0; 0] 80) = bytes_of "[2001:db8:0:0:1::]:80" /\
  NewAddressWithString (bytes_of "[::ffff:10.0.0.1]:80") = Some (mkText (as16 [10; 0; 0; 1]) 80) /\
  NewAddressWithString (bytes_of "10.0.0.01:80") = Some (mkText [] 80) /\
  NewAddressWithString (bytes_of "fe80::1:80") = None /\
  IP_String [32; 1; 0; 0; 0; 0; 0; 1; 0; 0; 0; 0; 0; 0; 0; 2] = bytes_of "2001:0:0:1::2" /\
  IP_String [32; 1; 0; 0; 0; 0; 0; 1; 0; 0; 0; 0; 0; 2; 0; 3] = bytes_of "2001::1:0:0:2:3" /\
  TCPAddr_String fe80 (bytes_of "eth0") 3610 = bytes_of "[fe80::1%eth0]:3610" /\
  tcp_source fe80 (bytes_of "eth0") 3610 = Some (mkText [] 3610).
Proof. vm_compute. repeat split. Qed.

Example C92_embedded_example :
  ParseIP (bytes_of "2001:db8:0:0:0:1:192.0.2.33") = [32; 1; 13; 184; 0; 0; 0; 0; 0; 0; 0; 1; 192; 0; 2; 33] /\
  IP_String [192; 168; 10] = bytes_of "?c0a80a".
Proof. vm_compute. auto. Qed.
Print Assumptions C92_round_trip.
Print Assumptions C92_injective.
Print Assumptions C92_ip_injective.
Print Assumptions C92_tcp_partial.
Print Assumptions C92_tcp_refuted.
Print Assumptions C92_zone.
Print Assumptions C92_accepted.
Print Assumptions C92_refuses_refuted.
Print Assumptions C92_text6.
Print Assumptions C92_text4.
Print Assumptions C92_nil.
Print Assumptions C92_other.
Print Assumptions C92_embedded.

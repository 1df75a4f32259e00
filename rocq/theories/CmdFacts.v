(** Proofs about [Cmd]. *)

From Coq Require Import String Ascii ZifyBool ZifyNat.
From Verif Require Import Go GoFacts Encoding EncodingFacts Protocol StdDB Property Object Node Remote Cmd.
Local Open Scope Z_scope.
Local Open Scope list_scope.

(** ** Hexadecimal digits *)

(** A character with its value as a hexadecimal digit. *)
Definition hex_digit (c : ascii) (v : Z) : Prop :=
  0 <= v < 16 /\ (String.get (Z.to_nat v) "0123456789abcdef" = Some c \/ String.get (Z.to_nat v) "0123456789ABCDEF" = Some c).

(** A text of hexadecimal digits with spaces anywhere. *)
Inductive spells : string -> list Z -> Prop :=
| sp_nil : spells EmptyString []
| sp_space s ds : spells s ds -> spells (String " " s) ds
| sp_digit c v s ds : hex_digit c v -> spells s ds -> spells (String c s) (v :: ds).

Lemma sixteen v : 0 <= v < 16 ->
  v = 0 \/ v = 1 \/ v = 2 \/ v = 3 \/ v = 4 \/ v = 5 \/ v = 6 \/ v = 7 \/
  v = 8 \/ v = 9 \/ v = 10 \/ v = 11 \/ v = 12 \/ v = 13 \/ v = 14 \/ v = 15.
Proof. lia. Qed.

Lemma from_hex_digit c v : hex_digit c v -> from_hex (lower_char c) = Some v.
Proof.
  intros [H [E|E]]; pose proof (sixteen v H) as HH; repeat destruct HH as [HH|HH]; subst v;
    vm_compute in E; injection E as <-; vm_compute; reflexivity.
Qed.

Definition hex_check (c : ascii) : bool :=
  match from_hex (lower_char c) with
  | None => true
  | Some v => (0 <=? v) && (v <? 16) && negb (char_code c =? 32) && negb (char_code (lower_char c) =? 32) &&
      match String.get (Z.to_nat v) "0123456789abcdef", String.get (Z.to_nat v) "0123456789ABCDEF" with
      | Some a, Some b => Ascii.eqb a c || Ascii.eqb b c
      | _, _ => false
      end
  end.
Lemma hex_check_all c : hex_check c = true.
Proof. destruct c as [[] [] [] [] [] [] [] []]; vm_compute; reflexivity. Qed.

Lemma from_hex_inv c v : from_hex (lower_char c) = Some v -> hex_digit c v.
Proof.
  intros E. pose proof (hex_check_all c) as H. unfold hex_check in H. rewrite E in H.
  apply andb_true_iff in H as [H H2]. apply andb_true_iff in H as [H H3]. apply andb_true_iff in H as [H _].
  split; [lia|].
  destruct (String.get (Z.to_nat v) "0123456789abcdef") as [a|], (String.get (Z.to_nat v) "0123456789ABCDEF") as [b|]; try discriminate H2.
  apply orb_true_iff in H2 as [H2|H2]; apply Ascii.eqb_eq in H2; subst; auto.
Qed.

Lemma hex_no_space c v : hex_digit c v -> char_code (lower_char c) =? 32 = false.
Proof.
  intros D. pose proof (hex_check_all c) as H. unfold hex_check in H. rewrite (from_hex_digit c v D) in H.
  apply andb_true_iff in H as [H _]. apply andb_true_iff in H as [_ H]. destruct (char_code (lower_char c) =? 32); [discriminate H|reflexivity].
Qed.

Lemma space_lower c : (char_code (lower_char c) =? 32) = (char_code c =? 32).
Proof. destruct c as [[] [] [] [] [] [] [] []]; vm_compute; reflexivity. Qed.
Lemma space_char c : char_code c =? 32 = true -> c = " "%char.
Proof. destruct c as [[] [] [] [] [] [] [] []]; vm_compute; intros H; try discriminate H; reflexivity. Qed.

(** The digits left after cleaning. *)
Fixpoint all_hex (s : string) : option (list Z) :=
  match s with
  | EmptyString => Some []
  | String c s => match from_hex c, all_hex s with Some v, Some ds => Some (v :: ds) | _, _ => None end
  end.

Lemma spells_clean s ds : spells s ds <-> all_hex (remove_spaces (ToLower s)) = Some ds.
Proof.
  split.
  - induction 1 as [|s ds _ IH|c v s ds D _ IH]; cbn [ToLower remove_spaces].
    + reflexivity.
    + rewrite space_lower. exact IH.
    + rewrite (hex_no_space c v D). cbn [all_hex]. rewrite (from_hex_digit c v D), IH. reflexivity.
  - revert ds. induction s as [|c s IH]; intros ds; cbn [ToLower remove_spaces].
    + intros H. injection H as <-. constructor.
    + destruct (char_code (lower_char c) =? 32) eqn:E.
      * intros H. rewrite space_lower in E. apply space_char in E as ->. constructor. apply IH, H.
      * cbn [all_hex]. destruct (from_hex (lower_char c)) as [v|] eqn:EV; [|discriminate].
        destruct (all_hex (remove_spaces (ToLower s))) as [l|] eqn:EA; [|discriminate].
        intros H. injection H as <-. constructor; [apply from_hex_inv, EV|]. apply IH. reflexivity.
Qed.

Definition nibbles (l : list Z) : list Z := flat_map (fun b => [b / 16; b mod 16]) l.

Lemma pair_ind_string (P : string -> Prop) :
  P EmptyString -> (forall a, P (String a EmptyString)) -> (forall a b s, P s -> P (String a (String b s))) -> forall s, P s.
Proof.
  intros H0 H1 H2. enough (H : forall s, P s /\ forall a, P (String a s)) by (intros s; apply (H s)).
  induction s as [|b s [IH1 IH2]]; split; auto.
Qed.

Lemma from_hex_range c v : from_hex c = Some v -> 0 <= v < 16.
Proof.
  unfold from_hex.
  destruct ((48 <=? char_code c) && (char_code c <=? 57)) eqn:E1; [intros H; injection H as <-; lia|].
  destruct ((97 <=? char_code c) && (char_code c <=? 102)) eqn:E2; [intros H; injection H as <-; lia|].
  destruct ((65 <=? char_code c) && (char_code c <=? 70)) eqn:E3; [intros H; injection H as <-; lia|discriminate].
Qed.

Lemma nibble_split a b : 0 <= a < 16 -> 0 <= b < 16 -> (a * 16 + b) / 16 = a /\ (a * 16 + b) mod 16 = b /\ is_byte (a * 16 + b).
Proof.
  intros Ha Hb. rewrite Z.add_comm, Z.div_add, Z.mod_add by lia. rewrite Z.div_small, Z.mod_small by lia.
  unfold is_byte. lia.
Qed.

Lemma DecodeString_spec : forall s,
  match DecodeString s with
  | Ok bs => all_hex s = Some (nibbles bs) /\ is_bytes bs
  | Err _ => forall bs, all_hex s <> Some (nibbles bs)
  | Panic => False
  end.
Proof.
  apply pair_ind_string.
  - cbn. split; [reflexivity|constructor].
  - intros a. cbn. destruct (from_hex a); intros [|b bs]; discriminate.
  - intros a b s IH. cbn [DecodeString all_hex].
    destruct (from_hex a) as [x|] eqn:Ea; [|intros [|y bs]; discriminate].
    destruct (from_hex b) as [y|] eqn:Eb; [|intros [|z bs]; discriminate].
    apply from_hex_range in Ea, Eb. destruct (nibble_split x y Ea Eb) as (N1 & N2 & N3).
    destruct (DecodeString s) as [bs| |] eqn:Ed; cbn [bind].
    + destruct IH as [IH1 IH2]. rewrite IH1. unfold nibbles. cbn [flat_map app]. rewrite N1, N2.
      split; [reflexivity|constructor; assumption].
    + destruct (all_hex s) as [l|]; [|intros; discriminate].
      intros [|z bs] H; [discriminate H|]. unfold nibbles in H. cbn [flat_map app] in H. injection H as _ _ H. apply (IH bs). unfold nibbles. congruence.
    + destruct IH.
Qed.

Lemma all_hex_length s ds : all_hex s = Some ds -> length ds = String.length s.
Proof.
  revert ds. induction s as [|c s IH]; intros ds; cbn; [intros H; injection H as <-; reflexivity|].
  destruct (from_hex c); [|discriminate]. destruct (all_hex s) as [l|]; [|discriminate].
  intros H. injection H as <-. cbn. rewrite (IH l eq_refl). reflexivity.
Qed.

Lemma nibbles_length bs : length (nibbles bs) = (2 * length bs)%nat.
Proof. induction bs as [|b bs IH]; [reflexivity|]. unfold nibbles in *. cbn [flat_map app length]. rewrite IH. lia. Qed.

Lemma hexStringToByte_spec s :
  match hexStringToByte s with
  | Ok bs => spells s (nibbles bs) /\ is_bytes bs
  | Err _ => forall bs, ~ spells s (nibbles bs)
  | Panic => False
  end.
Proof.
  unfold hexStringToByte.
  destruct (Z.of_nat (String.length (remove_spaces (ToLower s))) mod 2 =? 0) eqn:E; cbn [negb].
  - pose proof (DecodeString_spec (remove_spaces (ToLower s))) as H.
    destruct (DecodeString (remove_spaces (ToLower s))); [|intros bs; rewrite spells_clean; apply H|exact H].
    rewrite spells_clean. exact H.
  - intros bs H. apply spells_clean, all_hex_length in H. rewrite nibbles_length in H.
    rewrite <- H in E. rewrite Nat2Z.inj_mul, Z.mul_comm, Z.mod_mul in E by lia. discriminate E.
Qed.

Lemma spells_fun s ds ds' : spells s ds -> spells s ds' -> ds = ds'.
Proof. rewrite !spells_clean. congruence. Qed.

Lemma spells_range s ds : spells s ds -> Forall (fun d => 0 <= d < 16) ds.
Proof. induction 1 as [|s ds _ IH|c v s ds D _ IH]; auto. constructor; [apply D|exact IH]. Qed.

Lemma nibbles_inj l : forall k, nibbles l = nibbles k -> l = k.
Proof.
  induction l as [|a l IH]; intros [|b k]; unfold nibbles; cbn [flat_map app]; try discriminate; [reflexivity|].
  intros H. injection H as H1 H2 H3. f_equal; [|apply IH, H3].
  rewrite (Z.div_mod a 16), (Z.div_mod b 16) by lia. congruence.
Qed.

Lemma nibbles_even ds : Forall (fun d => 0 <= d < 16) ds -> Nat.even (length ds) = true -> exists bs, ds = nibbles bs /\ is_bytes bs.
Proof.
  intros F. assert (H : forall n ds, (length ds <= n)%nat -> Forall (fun d => 0 <= d < 16) ds -> Nat.even (length ds) = true ->
    exists bs, ds = nibbles bs /\ is_bytes bs).
  { clear. induction n as [|n IH]; intros ds HL F E.
    - destruct ds; [|cbn in HL; lia]. exists []. split; [reflexivity|constructor].
    - destruct ds as [|a [|b ds]]; [exists []; split; [reflexivity|constructor]|discriminate E|].
      inversion F as [|? ? Ha F1]; subst. inversion F1 as [|? ? Hb F2]; subst. destruct (IH ds) as (bs & -> & B); [cbn in HL; lia|assumption|exact E|].
      destruct (nibble_split a b Ha Hb) as (N1 & N2 & N3).
      exists (a * 16 + b :: bs). unfold nibbles. cbn [flat_map app]. rewrite N1, N2. split; [reflexivity|constructor; assumption]. }
  apply (H (length ds)); auto.
Qed.

(** The number that a sequence of digits denotes. *)
Definition number (base : Z) (ds : list Z) : Z := fold_left (fun a d => base * a + d) ds 0.

Lemma number_acc base ds : forall a, fold_left (fun a d => base * a + d) ds a = base ^ Z.of_nat (length ds) * a + number base ds.
Proof.
  unfold number. induction ds as [|d ds IH]; intros a; cbn [fold_left length]; [change (Z.of_nat 0) with 0; rewrite Z.pow_0_r; lia|].
  rewrite IH, (IH (base * 0 + d)). rewrite Nat2Z.inj_succ, Z.pow_succ_r by lia. ring.
Qed.
Lemma number_cons base d ds : number base (d :: ds) = base ^ Z.of_nat (length ds) * d + number base ds.
Proof. unfold number at 1. cbn [fold_left]. rewrite number_acc. ring. Qed.

Lemma number_nibbles bs : number 16 (nibbles bs) = number 256 bs.
Proof.
  induction bs as [|b bs IH]; [reflexivity|].
  unfold nibbles. cbn [flat_map app]. fold (nibbles bs). rewrite !number_cons, IH, nibbles_length. cbn [length]. rewrite nibbles_length.
  rewrite Nat2Z.inj_succ, Z.pow_succ_r by lia. rewrite Nat2Z.inj_mul. change (Z.of_nat 2) with 2.
  rewrite Z.pow_mul_r by lia. change (16 ^ 2) with 256.
  rewrite (Z.div_mod b 16) at 3 by lia. ring.
Qed.

Lemma i64_mod v : i64 v mod 2 ^ 64 = v mod 2 ^ 64.
Proof.
  unfold i64. rewrite Zminus_mod_idemp_l. f_equal. lia.
Qed.
Lemma i64_eq v w : v mod 2 ^ 64 = w mod 2 ^ 64 -> i64 v = i64 w.
Proof. intros H. unfold i64. f_equal. rewrite (Z.add_mod v), (Z.add_mod w), H by lia. reflexivity. Qed.
Lemma i64_small v : - 2 ^ 63 <= v < 2 ^ 63 -> i64 v = v.
Proof. intros H. unfold i64. rewrite Z.mod_small by lia. lia. Qed.
Lemma i64_i64 v : i64 (i64 v) = i64 v.
Proof. apply i64_eq, i64_mod. Qed.

Lemma int_fold bs : forall r,
  fold_left (fun result b => i64 (i64 (Z.shiftl result 8) + b)) bs (i64 r) = i64 (fold_left (fun a d => 256 * a + d) bs r).
Proof.
  induction bs as [|b bs IH]; intros r; cbn [fold_left]; [reflexivity|].
  rewrite <- IH. f_equal. apply i64_eq. rewrite Z.shiftl_mul_pow2 by lia. change (2 ^ 8) with 256.
  rewrite Z.add_mod, i64_mod, <- Z.add_mod by lia.
  rewrite Z.add_mod, Z.mul_mod, i64_mod, <- Z.mul_mod, <- Z.add_mod by lia. f_equal. lia.
Qed.

Lemma hexStringToInt_spec s :
  match hexStringToInt s with
  | Ok v => exists bs, spells s (nibbles bs) /\ is_bytes bs /\ v = i64 (number 256 bs)
  | Err _ => forall bs, ~ spells s (nibbles bs)
  | Panic => False
  end.
Proof.
  unfold hexStringToInt. pose proof (hexStringToByte_spec s) as H. destruct (hexStringToByte s) as [bs| |]; cbn [bind]; [|exact H..].
  destruct H as [H1 H2]. exists bs. split; [exact H1|]. split; [exact H2|].
  change 0 with (i64 0) at 1. apply int_fold.
Qed.

(** ** Texts of numbers *)

Lemma text_app l k : text (l ++ k) = (text l ++ text k)%string.
Proof. induction l as [|c l IH]; cbn; [reflexivity|]. rewrite IH. reflexivity. Qed.
Lemma text_inj l : forall k, text l = text k -> l = k.
Proof. induction l as [|c l IH]; intros [|d k]; cbn; try discriminate; [reflexivity|]. intros H. injection H as -> H. f_equal. auto. Qed.
Lemma text_length l : String.length (text l) = length l.
Proof. induction l as [|c l IH]; cbn; auto. Qed.

Definition digit_check (d : Z) : bool :=
  match from_hex (upper_digit d), from_hex (lower_digit d) with Some v, Some w => (v =? d) && (w =? d) | _, _ => false end.
Lemma digit_value d : 0 <= d < 16 -> from_hex (upper_digit d) = Some d /\ from_hex (lower_digit d) = Some d.
Proof.
  intros H. pose proof (sixteen d H) as HH; repeat destruct HH as [HH|HH]; subst d;
    split; vm_compute; reflexivity.
Qed.

Lemma upper_inj l : Forall (fun d => 0 <= d < 16) l -> forall k, Forall (fun d => 0 <= d < 16) k ->
  map upper_digit l = map upper_digit k -> l = k.
Proof.
  induction 1 as [|a l Ha _ IH]; intros k Hk H; destruct k as [|b k]; try discriminate H; [reflexivity|].
  injection H as H1 H2. inversion Hk as [|? ? Hb Hk']; subst. f_equal; [|apply IH; assumption].
  destruct (digit_value a Ha) as [Ea _]. destruct (digit_value b Hb) as [Eb _]. congruence.
Qed.

Lemma digits_range fuel base v : 1 < base -> 0 <= v -> Forall (fun d => 0 <= d < base) (digits fuel base v).
Proof.
  intros HB. revert v. induction fuel as [|k IH]; intros v Hv; cbn [digits]; [constructor|].
  destruct (Z.ltb_spec v base); [constructor; [lia|constructor]|].
  constructor; [apply Z.mod_pos_bound; lia|]. apply IH. apply Z.div_pos; lia.
Qed.

(** Value of digits, least significant first. *)
Fixpoint undigits (base : Z) (l : list Z) : Z := match l with [] => 0 | d :: l => d + base * undigits base l end.
Lemma digits_value base : 1 < base -> forall fuel v, 0 <= v < base ^ Z.of_nat fuel -> undigits base (digits fuel base v) = v.
Proof.
  intros HB. induction fuel as [|k IH]; intros v Hv; cbn [digits]; [cbn in *; lia|].
  destruct (Z.ltb_spec v base); cbn [undigits]; [lia|]. rewrite IH.
  - rewrite (Z.div_mod v base) at 3 by lia. lia.
  - rewrite Nat2Z.inj_succ, Z.pow_succ_r in Hv by lia. split; [apply Z.div_pos; lia|]. apply Z.div_lt_upper_bound; lia.
Qed.
Lemma undigits_zeros base l n : undigits base (l ++ repeat 0 n) = undigits base l.
Proof. induction l as [|d l IH]; cbn [app undigits]; [induction n as [|n IH]; cbn [repeat undigits]; lia|]. rewrite IH. reflexivity. Qed.

Lemma rev_repeat {A} (a : A) n : rev (repeat a n) = repeat a n.
Proof.
  induction n as [|n IH]; [reflexivity|]. cbn. rewrite IH. symmetry. apply (repeat_cons n a).
Qed.

(** 64 digits hold every value that Go can print. *)
Definition printable (v : Z) : Prop := 0 <= v < 2 ^ 64.

Lemma printable_pow base v : 2 <= base -> printable v -> 0 <= v < base ^ Z.of_nat 64.
Proof.
  intros HB [H1 H2]. split; [exact H1|]. eapply Z.lt_le_trans; [exact H2|].
  change (Z.of_nat 64) with 64. apply Z.pow_le_mono_l. lia.
Qed.

Lemma digits_inj base v w k n : 2 <= base -> printable v -> printable w ->
  repeat 0 k ++ rev (digits 64 base v) = repeat 0 n ++ rev (digits 64 base w) -> v = w.
Proof.
  intros HB Hv Hw E. apply (f_equal (@rev Z)) in E. rewrite !rev_app_distr, !rev_involutive, !rev_repeat in E.
  apply (f_equal (undigits base)) in E. rewrite !undigits_zeros in E.
  rewrite !digits_value in E by (try lia; apply printable_pow; assumption). exact E.
Qed.

Lemma digits_ok base v k : 2 <= base <= 16 -> printable v -> Forall (fun d => 0 <= d < 16) (repeat 0 k ++ rev (digits 64 base v)).
Proof.
  intros HB Hv. apply Forall_app. split.
  - apply Forall_forall. intros x Hx. apply repeat_spec in Hx. lia.
  - apply Forall_rev. eapply Forall_impl; [|apply digits_range; [lia|apply Hv]]. cbn. lia.
Qed.

Lemma fmt_X_inj w w' v v' : printable v -> printable v' -> fmt_X w v = fmt_X w' v' -> v = v'.
Proof.
  intros Hv Hv' E. unfold fmt_X in E. apply text_inj in E.
  apply upper_inj in E; [|apply digits_ok; [lia|assumption]..]. apply digits_inj in E; [exact E|lia|assumption..].
Qed.
Lemma fmt_d_inj v v' : printable v -> printable v' -> fmt_d v = fmt_d v' -> v = v'.
Proof.
  intros Hv Hv' E. unfold fmt_d in E. apply text_inj in E.
  apply upper_inj in E; [|apply (digits_ok 10 _ 0); [lia|assumption]..].
  apply (digits_inj 10 v v' 0 0) in E; [exact E|lia|assumption..].
Qed.

Lemma fmt_X_2 v : is_byte v -> String.length (fmt_X 2 v) = 2%nat.
Proof.
  intros [H1 H2]. unfold fmt_X. rewrite text_length, map_length, app_length, repeat_length, rev_length.
  change 64%nat with (S (S 62)). cbn [digits]. destruct (Z.ltb_spec v 16); [reflexivity|].
  assert (0 <= v / 16 < 16) by (split; [apply Z.div_pos; lia|apply Z.div_lt_upper_bound; lia]).
  destruct (Z.ltb_spec (v / 16) 16); [reflexivity|lia].
Qed.

Lemma string_app_inj a : forall b c d, String.length a = String.length b -> (a ++ c)%string = (b ++ d)%string -> a = b /\ c = d.
Proof.
  induction a as [|x a IH]; intros [|y b] c d HL E; try discriminate HL; [auto|].
  cbn in *. injection E as -> E. destruct (IH b c d) as [-> ->]; auto.
Qed.

Lemma fmt_bytes_inj l : is_bytes l -> forall k, is_bytes k -> fmt_bytes l = fmt_bytes k -> l = k.
Proof.
  intros Hl k Hk E. unfold fmt_bytes in E. apply text_inj in E.
  assert (HN : forall l, flat_map (fun b => [upper_digit (b / 16); upper_digit (b mod 16)]) l = map upper_digit (nibbles l)).
  { clear. induction l as [|b l IH]; [reflexivity|]. unfold nibbles in *. cbn [flat_map app map]. rewrite IH. reflexivity. }
  assert (HF : forall l, is_bytes l -> Forall (fun d => 0 <= d < 16) (nibbles l)).
  { clear. induction 1 as [|b l [B1 B2] _ IH]; [constructor|]. unfold nibbles in *. cbn [flat_map app].
    constructor; [|constructor; [|exact IH]].
    - split; [apply Z.div_pos; lia|apply Z.div_lt_upper_bound; lia].
    - apply Z.mod_pos_bound. lia. }
  rewrite !HN in E. apply upper_inj in E; [|apply HF; assumption..]. apply nibbles_inj, E.
Qed.

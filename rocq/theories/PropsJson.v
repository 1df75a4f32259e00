(** C98: the JSON output is JSON and says what the table says. *)

From Coq Require Import ZArith List Bool String Ascii Lia Permutation Sorted ZifyBool.
From Verif Require Import Go Encoding Protocol Parser Property Object Node Handler Remote Cmd TabWriter JsonText.
From Verif Require Import Spec EncodingFacts ProtocolFacts ObjectFacts NodeFacts HandlerFacts RemoteFacts CmdFacts.
From Verif Require StdNames ManDB CmdTable PropsCmd PropsScan PropsPrinted.
Import ListNotations.
Local Open Scope Z_scope.

(** ** UTF-8 and JSON, from RFC 3629 and RFC 8259 *)

Definition scalar (u : Z) : Prop := 0 <= u < 0xD800 \/ 0xE000 <= u < 0x110000.
Definition utf8 (u : Z) : list Z :=
  if u <? 0x80 then [u]
  else if u <? 0x800 then [0xC0 + u / 64; 0x80 + u mod 64]
  else if u <? 0x10000 then [0xE0 + u / 4096; 0x80 + u / 64 mod 64; 0x80 + u mod 64]
  else [0xF0 + u / 262144; 0x80 + u / 4096 mod 64; 0x80 + u / 64 mod 64; 0x80 + u mod 64].
(** A text that is the UTF-8 form of some characters. *)
Definition valid (s : list Z) : Prop := exists us, Forall scalar us /\ s = flat_map utf8 us.

(** A reader of JSON texts made of strings, arrays and objects.  Numbers, the three
    literals and pairs of surrogates are left out. *)
Inductive json : Type := JString (s : list Z) | JArray (l : list json) | JObject (l : list (list Z * json)).
Definition hex_value (c : Z) : option Z :=
  if (48 <=? c) && (c <=? 57) then Some (c - 48)
  else if (97 <=? c) && (c <=? 102) then Some (c - 87)
  else if (65 <=? c) && (c <=? 70) then Some (c - 55) else None.
Definition four_hex (a b c d : Z) : option Z :=
  match hex_value a, hex_value b, hex_value c, hex_value d with
  | Some a, Some b, Some c, Some d => let u := ((a * 16 + b) * 16 + c) * 16 + d in if (0xD800 <=? u) && (u <? 0xE000) then None else Some u
  | _, _, _, _ => None
  end.
(** RFC 8259 section 7: the characters that may follow a backslash. *)
Definition short_escape (c : Z) : option Z :=
  if c =? 34 then Some 34 else if c =? 92 then Some 92 else if c =? 47 then Some 47 else if c =? 98 then Some 8
  else if c =? 102 then Some 12 else if c =? 110 then Some 10 else if c =? 114 then Some 13 else if c =? 116 then Some 9 else None.
Definition onto (x : list Z) (r : option (list Z * list Z)) : option (list Z * list Z) :=
  match r with Some (y, t) => Some (x ++ y, t) | None => None end.
Fixpoint read_chars (s : list Z) : option (list Z * list Z) :=
  match s with
  | [] => None
  | c :: t =>
      if c =? 34 then Some ([], t)
      else if c =? 92 then
        match t with
        | e :: t =>
            if e =? 117 then
              match t with
              | h1 :: h2 :: h3 :: h4 :: t => match four_hex h1 h2 h3 h4 with Some u => onto (utf8 u) (read_chars t) | None => None end
              | _ => None
              end
            else match short_escape e with Some x => onto [x] (read_chars t) | None => None end
        | [] => None
        end
      else if c <? 32 then None
      else onto [c] (read_chars t)
  end.
Fixpoint after_blanks (s : list Z) : list Z :=
  match s with
  | [] => []
  | c :: t => if (c =? 32) || (c =? 9) || (c =? 10) || (c =? 13) then after_blanks t else s
  end.
Fixpoint read_value (n : nat) (s : list Z) : option (json * list Z) :=
  match n with
  | O => None
  | S n =>
      match after_blanks s with
      | [] => None
      | c :: t =>
          if c =? 34 then match read_chars t with Some (x, t) => Some (JString x, t) | None => None end
          else if c =? 91 then
            match after_blanks t with
            | d :: t' => if d =? 93 then Some (JArray [], t') else match read_items n t with Some (l, t) => Some (JArray l, t) | None => None end
            | [] => None
            end
          else if c =? 123 then
            match after_blanks t with
            | d :: t' => if d =? 125 then Some (JObject [], t') else match read_members n t with Some (l, t) => Some (JObject l, t) | None => None end
            | [] => None
            end
          else None
      end
  end
with read_items (n : nat) (s : list Z) : option (list json * list Z) :=
  match n with
  | O => None
  | S n =>
      match read_value n s with
      | None => None
      | Some (v, t) =>
          match after_blanks t with
          | [] => None
          | c :: t => if c =? 44 then match read_items n t with Some (l, t) => Some (v :: l, t) | None => None end
                      else if c =? 93 then Some ([v], t) else None
          end
      end
  end
with read_members (n : nat) (s : list Z) : option (list (list Z * json) * list Z) :=
  match n with
  | O => None
  | S n =>
      match after_blanks s with
      | [] => None
      | q :: t =>
          if q =? 34 then
            match read_chars t with
            | None => None
            | Some (k, t) =>
                match after_blanks t with
                | [] => None
                | c :: t =>
                    if c =? 58 then
                      match read_value n t with
                      | None => None
                      | Some (v, t) =>
                          match after_blanks t with
                          | [] => None
                          | c :: t => if c =? 44 then match read_members n t with Some (l, t) => Some ((k, v) :: l, t) | None => None end
                                      else if c =? 125 then Some ([(k, v)], t) else None
                          end
                      end
                    else None
                end
            end
          else None
      end
  end.
(** A whole text: one value and nothing but blanks behind it. *)
Definition read_json (s : list Z) : option json :=
  match read_value (2 * List.length s + 2) s with
  | Some (v, t) => match after_blanks t with [] => Some v | _ => None end
  | None => None
  end.

(** ** Strings *)

Lemma four_hex_two d e : 0 <= d < 16 -> 0 <= e < 16 -> four_hex 48 48 (lower_hex d) (lower_hex e) = Some (d * 16 + e).
Proof.
  intros Hd He. assert (G : forallb (fun d => forallb (fun e => match four_hex 48 48 (lower_hex d) (lower_hex e) with Some u => u =? d * 16 + e | None => false end)
    (map Z.of_nat (seq 0 16))) (map Z.of_nat (seq 0 16)) = true) by (vm_compute; reflexivity).
  assert (I : forall x, 0 <= x < 16 -> In x (map Z.of_nat (seq 0 16))) by (intros x Hx; apply in_map_iff; exists (Z.to_nat x); split; [lia|apply in_seq; lia]).
  rewrite forallb_forall in G. specialize (G d (I d Hd)). rewrite forallb_forall in G. specialize (G e (I e He)).
  destruct (four_hex 48 48 (lower_hex d) (lower_hex e)) as [u|]; [|discriminate G]. f_equal. lia.
Qed.
Lemma escaped_read c t : 0 <= c < 0x80 -> html_safe c = false -> read_chars (escaped c ++ t) = onto [c] (read_chars t).
Proof.
  intros Hc Hs. unfold escaped.
  destruct ((c =? 92) || (c =? 34)) eqn:E1.
  { assert (X : c = 92 \/ c = 34) by lia. destruct X as [-> | ->]; reflexivity. }
  destruct (c =? 8) eqn:E2; [apply Z.eqb_eq in E2; subst; reflexivity|].
  destruct (c =? 12) eqn:E3; [apply Z.eqb_eq in E3; subst; reflexivity|].
  destruct (c =? 10) eqn:E4; [apply Z.eqb_eq in E4; subst; reflexivity|].
  destruct (c =? 13) eqn:E5; [apply Z.eqb_eq in E5; subst; reflexivity|].
  destruct (c =? 9) eqn:E6; [apply Z.eqb_eq in E6; subst; reflexivity|].
  cbn [app read_chars]. change (92 =? 34) with false. change (92 =? 92) with true. change (117 =? 117) with true. cbv iota.
  rewrite four_hex_two by (split; try apply Z.div_pos; try apply Z.div_lt_upper_bound; try apply Z.mod_pos_bound; lia).
  replace (c / 16 * 16 + c mod 16) with c by (rewrite (Z.div_mod c 16) at 1; lia).
  unfold utf8. replace (c <? 128) with true by lia. reflexivity.
Qed.
Lemma plain_read c t : 32 <= c -> c <> 34 -> c <> 92 -> read_chars (c :: t) = onto [c] (read_chars t).
Proof. intros H1 H2 H3. cbn [read_chars]. replace (c =? 34) with false by lia. replace (c =? 92) with false by lia. replace (c <? 32) with false by lia. reflexivity. Qed.
Lemma onto_onto x y r : onto x (onto y r) = onto (x ++ y) r.
Proof. destruct r as [(z & t)|]; [|reflexivity]. cbn [onto]. rewrite app_assoc. reflexivity. Qed.

Lemma escape_utf8 u rest tail : scalar u ->
  read_chars (escape 0 0 (utf8 u ++ rest) ++ tail) = onto (utf8 u) (read_chars (escape 0 0 rest ++ tail)).
Proof.
  intros Hu. unfold utf8.
  destruct (u <? 0x80) eqn:E1.
  { cbn [app escape]. rewrite E1. destruct (html_safe u) eqn:ES; [|rewrite <- app_assoc; apply escaped_read; [unfold scalar in Hu; lia|exact ES]].
    cbn [app]. unfold html_safe in ES. apply plain_read; lia. }
  pose proof (Z.mod_pos_bound u 64 ltac:(lia)) as M0. pose proof (Z.mod_pos_bound (u / 64) 64 ltac:(lia)) as M1. pose proof (Z.mod_pos_bound (u / 4096) 64 ltac:(lia)) as M2.
  pose proof (Z.div_mod u 64 ltac:(lia)) as D0.
  pose proof (Z.div_mod (u / 64) 64 ltac:(lia)) as D1. rewrite Z.div_div in D1 by lia. change (64 * 64) with 4096 in D1.
  pose proof (Z.div_mod (u / 4096) 64 ltac:(lia)) as D2. rewrite Z.div_div in D2 by lia. change (4096 * 64) with 262144 in D2.
  unfold scalar in Hu.
  assert (HU : 0 <= u < 0x110000) by lia.
  destruct (u <? 0x800) eqn:E2.
  { set (a := u / 64) in *. set (b := u mod 64) in *. clearbody a b. cbn [app escape]. replace (0xC0 + a <? 0x80) with false by lia.
    assert (R : rune_size (0xC0 + a) (0x80 + b :: rest) = 2%nat).
    { unfold rune_size, utf8_first. replace (0xC0 + a <? 0xC2) with false by lia. replace (0xC0 + a <? 0xE0) with true by lia.
      replace ((0x80 <=? 0x80 + b) && (0x80 + b <=? 0xBF)) with true by lia. reflexivity. }
    rewrite R. change (Nat.eqb 2 1) with false. cbv iota.
    assert (S : separator (0xC0 + a) (0x80 + b :: rest) = None).
    { unfold separator. destruct rest as [|x rest]; [reflexivity|]. replace (0xC0 + a =? 0xE2) with false by lia. reflexivity. }
    rewrite S. cbn [app Nat.sub escape]. rewrite !plain_read by lia. rewrite onto_onto. reflexivity. }
  destruct (u <? 0x10000) eqn:E3.
  { set (a := u / 4096) in *. set (b := u / 64 mod 64) in *. set (c := u mod 64) in *. set (h := u / 64) in *. clearbody a b c h.
    cbn [app escape]. replace (0xE0 + a <? 0x80) with false by lia.
    assert (R : rune_size (0xE0 + a) (0x80 + b :: 0x80 + c :: rest) = 3%nat).
    { unfold rune_size, utf8_first, continues. replace (0xE0 + a <? 0xC2) with false by lia. replace (0xE0 + a <? 0xE0) with false by lia.
      destruct (0xE0 + a =? 0xE0) eqn:X1; [replace ((0xA0 <=? 0x80 + b) && (0x80 + b <=? 0xBF)) with true by lia; replace ((0x80 <=? 0x80 + c) && (0x80 + c <=? 0xBF)) with true by lia; reflexivity|].
      destruct (0xE0 + a =? 0xED) eqn:X2; [replace ((0x80 <=? 0x80 + b) && (0x80 + b <=? 0x9F)) with true by lia; replace ((0x80 <=? 0x80 + c) && (0x80 + c <=? 0xBF)) with true by lia; reflexivity|].
      replace (0xE0 + a <? 0xF0) with true by lia. replace ((0x80 <=? 0x80 + b) && (0x80 + b <=? 0xBF)) with true by lia. replace ((0x80 <=? 0x80 + c) && (0x80 + c <=? 0xBF)) with true by lia. reflexivity. }
    rewrite R. change (Nat.eqb 3 1) with false. cbv iota. unfold separator.
    destruct ((0xE0 + a =? 0xE2) && (0x80 + b =? 0x80) && ((0x80 + c =? 0xA8) || (0x80 + c =? 0xA9))) eqn:S.
    - assert (A : a = 2) by lia. assert (B : b = 0) by lia. assert (C : c = 0x28 \/ c = 0x29) by lia. rewrite A, B. destruct C as [-> | ->]; reflexivity.
    - cbn [app Nat.sub escape]. rewrite !plain_read by lia. rewrite !onto_onto. reflexivity. }
  set (a := u / 262144) in *. set (b := u / 4096 mod 64) in *. set (c := u / 64 mod 64) in *. set (d := u mod 64) in *. set (h := u / 64) in *. set (k := u / 4096) in *. clearbody a b c d h k.
  cbn [app escape]. replace (0xF0 + a <? 0x80) with false by lia.
  assert (R : rune_size (0xF0 + a) (0x80 + b :: 0x80 + c :: 0x80 + d :: rest) = 4%nat).
  { unfold rune_size, utf8_first, continues. replace (0xF0 + a <? 0xC2) with false by lia. replace (0xF0 + a <? 0xE0) with false by lia. replace (0xF0 + a =? 0xE0) with false by lia.
    replace (0xF0 + a =? 0xED) with false by lia. replace (0xF0 + a <? 0xF0) with false by lia.
    replace ((0x80 <=? 0x80 + c) && (0x80 + c <=? 0xBF)) with true by lia. replace ((0x80 <=? 0x80 + d) && (0x80 + d <=? 0xBF)) with true by lia.
    destruct (0xF0 + a =? 0xF0) eqn:X1; [replace ((0x90 <=? 0x80 + b) && (0x80 + b <=? 0xBF)) with true by lia; reflexivity|].
    destruct (0xF0 + a <? 0xF4) eqn:X2; [replace ((0x80 <=? 0x80 + b) && (0x80 + b <=? 0xBF)) with true by lia; reflexivity|].
    replace (0xF0 + a =? 0xF4) with true by lia. replace ((0x80 <=? 0x80 + b) && (0x80 + b <=? 0x8F)) with true by lia. reflexivity. }
  rewrite R. change (Nat.eqb 4 1) with false. cbv iota. unfold separator. replace (0xF0 + a =? 0xE2) with false by lia. cbn [andb].
  cbn [app Nat.sub escape]. rewrite !plain_read by lia. rewrite !onto_onto. reflexivity.
Qed.
(** The writer of tables counts characters (C97): a text in UTF-8 is as wide as it has
    characters. *)
Lemma rune_utf8 u rest : scalar u -> rune_count 0 (utf8 u ++ rest) = S (rune_count 0 rest).
Proof.
  intros Hu. unfold utf8.
  destruct (u <? 0x80) eqn:E1.
  { assert (R : rune_size u rest = 1%nat).
    { unfold rune_size, utf8_first. replace (u <? 0xC2) with true by lia. reflexivity. }
    cbn [app rune_count]. rewrite R. reflexivity. }
  pose proof (Z.mod_pos_bound u 64 ltac:(lia)) as M0. pose proof (Z.mod_pos_bound (u / 64) 64 ltac:(lia)) as M1. pose proof (Z.mod_pos_bound (u / 4096) 64 ltac:(lia)) as M2.
  pose proof (Z.div_mod u 64 ltac:(lia)) as D0.
  pose proof (Z.div_mod (u / 64) 64 ltac:(lia)) as D1. rewrite Z.div_div in D1 by lia. change (64 * 64) with 4096 in D1.
  pose proof (Z.div_mod (u / 4096) 64 ltac:(lia)) as D2. rewrite Z.div_div in D2 by lia. change (4096 * 64) with 262144 in D2.
  unfold scalar in Hu.
  assert (HU : 0 <= u < 0x110000) by lia.
  destruct (u <? 0x800) eqn:E2.
  { set (a := u / 64) in *. set (b := u mod 64) in *. clearbody a b. cbn [app].
    assert (R : rune_size (0xC0 + a) (0x80 + b :: rest) = 2%nat).
    { unfold rune_size, utf8_first. replace (0xC0 + a <? 0xC2) with false by lia. replace (0xC0 + a <? 0xE0) with true by lia.
      replace ((0x80 <=? 0x80 + b) && (0x80 + b <=? 0xBF)) with true by lia. reflexivity. }
    cbn [rune_count]. rewrite R. reflexivity. }
  destruct (u <? 0x10000) eqn:E3.
  { set (a := u / 4096) in *. set (b := u / 64 mod 64) in *. set (c := u mod 64) in *. set (h := u / 64) in *. clearbody a b c h.
    cbn [app].
    assert (R : rune_size (0xE0 + a) (0x80 + b :: 0x80 + c :: rest) = 3%nat).
    { unfold rune_size, utf8_first, continues. replace (0xE0 + a <? 0xC2) with false by lia. replace (0xE0 + a <? 0xE0) with false by lia.
      destruct (0xE0 + a =? 0xE0) eqn:X1; [replace ((0xA0 <=? 0x80 + b) && (0x80 + b <=? 0xBF)) with true by lia; replace ((0x80 <=? 0x80 + c) && (0x80 + c <=? 0xBF)) with true by lia; reflexivity|].
      destruct (0xE0 + a =? 0xED) eqn:X2; [replace ((0x80 <=? 0x80 + b) && (0x80 + b <=? 0x9F)) with true by lia; replace ((0x80 <=? 0x80 + c) && (0x80 + c <=? 0xBF)) with true by lia; reflexivity|].
      replace (0xE0 + a <? 0xF0) with true by lia. replace ((0x80 <=? 0x80 + b) && (0x80 + b <=? 0xBF)) with true by lia. replace ((0x80 <=? 0x80 + c) && (0x80 + c <=? 0xBF)) with true by lia. reflexivity. }
    cbn [rune_count]. rewrite R. reflexivity. }
  set (a := u / 262144) in *. set (b := u / 4096 mod 64) in *. set (c := u / 64 mod 64) in *. set (d := u mod 64) in *. set (h := u / 64) in *. set (k := u / 4096) in *. clearbody a b c d h k.
  cbn [app].
  assert (R : rune_size (0xF0 + a) (0x80 + b :: 0x80 + c :: 0x80 + d :: rest) = 4%nat).
  { unfold rune_size, utf8_first, continues. replace (0xF0 + a <? 0xC2) with false by lia. replace (0xF0 + a <? 0xE0) with false by lia. replace (0xF0 + a =? 0xE0) with false by lia.
    replace (0xF0 + a =? 0xED) with false by lia. replace (0xF0 + a <? 0xF0) with false by lia.
    replace ((0x80 <=? 0x80 + c) && (0x80 + c <=? 0xBF)) with true by lia. replace ((0x80 <=? 0x80 + d) && (0x80 + d <=? 0xBF)) with true by lia.
    destruct (0xF0 + a =? 0xF0) eqn:X1; [replace ((0x90 <=? 0x80 + b) && (0x80 + b <=? 0xBF)) with true by lia; reflexivity|].
    destruct (0xF0 + a <? 0xF4) eqn:X2; [replace ((0x80 <=? 0x80 + b) && (0x80 + b <=? 0xBF)) with true by lia; reflexivity|].
    replace (0xF0 + a =? 0xF4) with true by lia. replace ((0x80 <=? 0x80 + b) && (0x80 + b <=? 0x8F)) with true by lia. reflexivity. }
  cbn [rune_count]. rewrite R. reflexivity.
Qed.
Theorem C97_characters : forall us, Forall scalar us -> RuneCount (flat_map utf8 us) = length us.
Proof.
  unfold RuneCount. induction us as [|u us IH]; intros H; [reflexivity|]. inversion H as [|? ? Hu Hr]; subst. cbn [flat_map length].
  rewrite rune_utf8, IH by assumption. reflexivity.
Qed.

Lemma escape_read s tail : valid s -> read_chars (escape 0 0 s ++ 34 :: tail) = Some (s, tail).
Proof.
  intros (us & H & ->). induction us as [|u us IH]; [reflexivity|]. inversion H as [|? ? Hu Hr]; subst. cbn [flat_map].
  rewrite escape_utf8 by exact Hu. rewrite IH by exact Hr. reflexivity.
Qed.

(** ** Members, objects, the array *)

Lemma quoted_read n s t : (0 < n)%nat -> valid s -> read_value n (appendString s ++ t) = Some (JString s, t).
Proof.
  intros Hn H. destruct n as [|n]; [lia|]. unfold appendString. cbn [app read_value after_blanks].
  change ((34 =? 32) || (34 =? 9) || (34 =? 10) || (34 =? 13)) with false. cbv iota.
  change (34 =? 34) with true. cbv iota. rewrite <- app_assoc. cbn [app]. rewrite escape_read by exact H. reflexivity.
Qed.
Definition valid_pair (kv : string * string) : Prop := valid (codes (fst kv)) /\ valid (codes (snd kv)).
Definition as_member (kv : string * string) : list Z * json := (codes (fst kv), JString (codes (snd kv))).
Lemma member_read m kv c t : valid_pair kv -> c = 44 \/ c = 125 -> (0 < m)%nat ->
  read_members (S m) (member_text kv ++ c :: t) =
    if c =? 44 then match read_members m t with Some (l, t) => Some (as_member kv :: l, t) | None => None end else Some ([as_member kv], t).
Proof.
  intros (H1 & H2) Hc Hm. unfold member_text. unfold appendString at 1. cbn [app]. rewrite <- !app_assoc. cbn [app].
  cbn [read_members after_blanks]. change ((34 =? 32) || (34 =? 9) || (34 =? 10) || (34 =? 13)) with false. cbv iota.
  change (34 =? 34) with true. cbv iota. rewrite <- ?app_assoc. cbn [app]. rewrite escape_read by exact H1. cbn [after_blanks].
  change ((58 =? 32) || (58 =? 9) || (58 =? 10) || (58 =? 13)) with false. change (58 =? 58) with true. cbv iota.
  rewrite quoted_read by assumption. cbn [after_blanks].
  replace ((c =? 32) || (c =? 9) || (c =? 10) || (c =? 13)) with false by lia.
  destruct Hc as [-> | ->]; reflexivity.
Qed.
Lemma members_read l : forall kv n t, Forall valid_pair (kv :: l) -> (S (List.length l) < n)%nat ->
  read_members n (commas (map member_text (kv :: l)) ++ 125 :: t) = Some (map as_member (kv :: l), t).
Proof.
  induction l as [|kv' l IH]; intros kv n t H Hn; inversion H as [|? ? H1 Hr]; subst; (destruct n as [|n]; [lia|]).
  - cbn [map commas flat_map]. rewrite app_nil_r, member_read by (auto; cbn [List.length] in Hn; lia). reflexivity.
  - cbn [map commas flat_map]. rewrite <- app_assoc. cbn [app]. rewrite member_read by (auto; lia). change (44 =? 44) with true. cbv iota.
    change (member_text kv' ++ flat_map (fun y => 44 :: y) (map member_text l)) with (commas (map member_text (kv' :: l))).
    rewrite IH by (auto; cbn [List.length] in Hn; lia). reflexivity.
Qed.
Lemma sort_perm m : Permutation (sort_keys m) m.
Proof.
  induction m as [|kv m IH]; [constructor|]. cbn [sort_keys fold_right]. change (fold_right insert_key [] m) with (sort_keys m).
  assert (G : forall l, Permutation (insert_key kv l) (kv :: l)).
  { induction l as [|e l IHl]; [apply Permutation_refl|]. cbn [insert_key]. destruct (text_before _ _); [|apply Permutation_refl].
    eapply Permutation_trans; [apply perm_skip, IHl|apply perm_swap]. }
  eapply Permutation_trans; [apply G|apply perm_skip, IH].
Qed.
Lemma object_read n m t : Forall valid_pair m -> (List.length m + 1 < n)%nat ->
  read_value n (object_text m ++ t) = Some (JObject (map as_member (sort_keys m)), t).
Proof.
  intros H Hn. destruct n as [|n]; [lia|]. unfold object_text. pose proof (sort_perm m) as P.
  assert (H' : Forall valid_pair (sort_keys m)) by (apply (Permutation_Forall (Permutation_sym P)), H).
  rewrite <- (Permutation_length P) in Hn. destruct (sort_keys m) as [|kv l]; [reflexivity|].
  cbn [app]. rewrite <- app_assoc. cbn [app]. remember (commas (map member_text (kv :: l)) ++ 125 :: t) as s eqn:ES.
  cbn [read_value after_blanks]. change ((123 =? 32) || (123 =? 9) || (123 =? 10) || (123 =? 13)) with false. cbv iota.
  change (123 =? 34) with false. change (123 =? 91) with false. change (123 =? 123) with true. cbv iota.
  assert (Q : exists s', s = 34 :: s') by (rewrite ES; eexists; reflexivity). destruct Q as (s' & Q).
  replace (after_blanks s) with (34 :: s') by (rewrite Q; reflexivity). change (34 =? 125) with false. cbv iota.
  rewrite ES, members_read; [reflexivity|exact H'|cbn [List.length] in Hn; lia].
Qed.
Lemma items_read l : forall m n t, Forall (Forall valid_pair) (m :: l) -> (fold_right Nat.max O (map (@List.length _) (m :: l)) + List.length l + 3 < n)%nat ->
  read_items n (commas (map object_text (m :: l)) ++ 93 :: t) = Some (map (fun m => JObject (map as_member (sort_keys m))) (m :: l), t).
Proof.
  induction l as [|m' l IH]; intros m n t H Hn; inversion H as [|? ? H1 Hr]; subst; (destruct n as [|n]; [lia|]).
  - cbn [map commas flat_map]. rewrite app_nil_r. cbn [read_items]. rewrite object_read; [reflexivity|exact H1|cbn [map fold_right List.length] in Hn; lia].
  - cbn [map commas flat_map]. rewrite <- app_assoc. cbn [app read_items]. rewrite object_read; [|exact H1|cbn [map fold_right List.length] in Hn; lia].
    cbn [after_blanks]. change ((44 =? 32) || (44 =? 9) || (44 =? 10) || (44 =? 13)) with false. change (44 =? 44) with true. cbv iota.
    change (object_text m' ++ flat_map (fun y => 44 :: y) (map object_text l)) with (commas (map object_text (m' :: l))).
    rewrite IH; [reflexivity|exact Hr|cbn [map fold_right List.length] in *; lia].
Qed.
Lemma object_len m : (List.length m + 2 <= List.length (object_text m))%nat.
Proof.
  unfold object_text. rewrite <- (Permutation_length (sort_perm m)). generalize (sort_keys m). intros l. cbn [List.length]. rewrite app_length. cbn [List.length].
  enough (List.length l <= List.length (commas (map member_text l)))%nat by lia.
  assert (G : forall l : list (string * string), (List.length l <= List.length (flat_map (fun y => 44%Z :: y) (map member_text l)))%nat).
  { induction l0 as [|x l0 IH]; [cbn; lia|]. cbn [map flat_map List.length app]. rewrite app_length. lia. }
  destruct l as [|x l]; [cbn; lia|]. cbn [map commas List.length]. rewrite app_length. specialize (G l). unfold member_text at 1, appendString at 1. cbn [app List.length]. lia.
Qed.
Lemma array_len ms : (fold_right Nat.max O (map (@List.length (string * string)) ms) + List.length ms <= List.length (commas (map object_text ms)))%nat.
Proof.
  assert (G : forall l : list (list (string * string)), (fold_right Nat.max O (map (@List.length _) l) + List.length l <= List.length (flat_map (fun y => 44%Z :: y) (map object_text l)))%nat).
  { induction l as [|x l IH]; [cbn; lia|]. cbn [map flat_map List.length app fold_right]. rewrite app_length. pose proof (object_len x). lia. }
  destruct ms as [|m l]; [cbn; lia|]. cbn [map commas List.length fold_right]. rewrite app_length. specialize (G l). pose proof (object_len m). lia.
Qed.
Lemma Marshal_read ms : Forall (Forall valid_pair) ms ->
  read_json (Marshal ms ++ [10]) = Some (JArray (map (fun m => JObject (map as_member (sort_keys m))) ms)).
Proof.
  intros H. unfold read_json, Marshal. pose proof (array_len ms) as L.
  set (n := (2 * List.length ((91%Z :: commas (map object_text ms) ++ [93%Z]) ++ [10%Z]) + 2)%nat).
  assert (Hn : (fold_right Nat.max O (map (@List.length _) ms) + List.length ms + 5 < n)%nat).
  { unfold n. cbn [app List.length]. rewrite !app_length. cbn [List.length]. lia. }
  clearbody n. destruct n as [|n]; [lia|]. destruct ms as [|m l]; [reflexivity|].
  cbn [app]. rewrite <- app_assoc. cbn [app]. remember (commas (map object_text (m :: l)) ++ [93; 10]) as s eqn:ES.
  cbn [read_value after_blanks]. change ((91 =? 32) || (91 =? 9) || (91 =? 10) || (91 =? 13)) with false. cbv iota.
  change (91 =? 34) with false. change (91 =? 91) with true. cbv iota.
  assert (Q : exists s', s = 123 :: s') by (rewrite ES; eexists; reflexivity). destruct Q as (s' & Q).
  replace (after_blanks s) with (123 :: s') by (rewrite Q; reflexivity). change (123 =? 93) with false. cbv iota.
  rewrite ES, items_read; [reflexivity|exact H|cbn [List.length] in Hn; lia].
Qed.

(** ** Tables *)

(** The order of texts: byte by byte. *)
Definition text_lt (a b : list Z) : Prop :=
  exists p r, (a = p /\ exists y, b = p ++ y :: r) \/ exists x y r', a = p ++ x :: r' /\ b = p ++ y :: r /\ x < y.
Lemma before_lt a : forall b, text_before a b = true -> text_lt a b.
Proof.
  induction a as [|x a IH]; intros [|y b] H; try discriminate H.
  - exists [], b. left. split; [reflexivity|]. exists y. reflexivity.
  - cbn [text_before] in H. destruct (x =? y) eqn:E.
    + apply Z.eqb_eq in E. subst. destruct (IH b H) as (p & r & [(A & z & B)|(u & v & r' & A & B & L)]); subst; exists (y :: p), r; [left; split; [reflexivity|exists z; reflexivity]|].
      right. exists u, v, r'. repeat split. exact L.
    + exists [], b. right. exists x, y, a. repeat split. lia.
Qed.
Lemma before_total a : forall b, text_before a b = false -> a = b \/ text_before b a = true.
Proof.
  induction a as [|x a IH]; intros [|y b] H; try discriminate H; [left; reflexivity|right; reflexivity|]. cbn [text_before] in *.
  destruct (x =? y) eqn:E; [apply Z.eqb_eq in E; subst; rewrite Z.eqb_refl; destruct (IH b H) as [->|H']; [left; reflexivity|right; exact H']|].
  right. replace (y =? x) with false by lia. lia.
Qed.
Lemma before_trans a : forall b c, text_before a b = true -> text_before b c = true -> text_before a c = true.
Proof.
  induction a as [|x a IH]; intros [|y b] [|z c] H H'; try discriminate H; try discriminate H'; [reflexivity|]. cbn [text_before] in *.
  destruct (x =? y) eqn:E1, (y =? z) eqn:E2.
  - replace (x =? z) with true by lia. eapply IH; eassumption.
  - replace (x =? z) with false by lia. lia.
  - replace (x =? z) with false by lia. lia.
  - replace (x =? z) with false by lia. lia.
Qed.
Definition key_before (a b : string * string) : Prop := text_before (codes (fst a)) (codes (fst b)) = true.
Lemma insert_sorted kv l : StronglySorted key_before l -> ~ In (fst kv) (map fst l) -> StronglySorted key_before (insert_key kv l).
Proof.
  intros H. induction H as [|e l HS IH HF]; intros HN; [repeat constructor|]. cbn [insert_key].
  destruct (text_before (codes (fst e)) (codes (fst kv))) eqn:E.
  - constructor; [apply IH; intros X; apply HN; right; exact X|]. apply Forall_forall. intros x Hx.
    assert (G : In x (kv :: l)).
    { clear -Hx. induction l as [|e l IH]; [exact Hx|]. cbn [insert_key] in Hx. destruct (text_before _ _); [|exact Hx].
      destruct Hx as [<-|Hx]; [right; left; reflexivity|]. destruct (IH Hx) as [<-|X]; [left; reflexivity|right; right; exact X]. }
    destruct G as [<-|G]; [exact E|]. rewrite Forall_forall in HF. apply HF, G.
  - destruct (before_total _ _ E) as [X|X].
    + exfalso. apply HN. left. apply PropsPrinted.codes_inj. exact X.
    + constructor; [constructor; assumption|]. constructor; [exact X|]. eapply Forall_impl; [|exact HF]. intros y Hy. unfold key_before in *. eapply before_trans; eassumption.
Qed.
Lemma sort_sorted m : NoDup (map fst m) -> StronglySorted key_before (sort_keys m).
Proof.
  induction m as [|kv m IH]; intros H; [constructor|]. cbn [map] in H. inversion H as [|? ? H1 H2]; subst. cbn [sort_keys fold_right]. apply insert_sorted; [apply IH, H2|].
  intros X. apply H1. eapply Permutation_in; [apply Permutation_map, sort_perm|exact X].
Qed.

Definition valid_table (cols : list string) (rows : list (list string)) : Prop :=
  NoDup cols /\ Forall (fun c => valid (codes c)) cols /\ Forall (fun r => List.length r = List.length cols /\ Forall (fun s => valid (codes s)) r) rows.
Lemma OutputJSON_rows cols rows : NoDup cols -> Forall (fun r : list string => List.length r = List.length cols) rows ->
  OutputJSON (mkTable cols rows) = Ok (map (combine cols) rows).
Proof.
  intros HN. unfold OutputJSON. cbn [t_columns t_rows]. induction rows as [|r rows IH]; intros H; [reflexivity|]. inversion H as [|? ? H1 H2]; subst. cbn [json_rows map].
  change 0 with (Z.of_nat 0). rewrite PropsCmd.json_row_spec; [|exact HN|intros c _ []|lia]. cbn [bind skipn app]. rewrite IH by exact H2. reflexivity.
Qed.
Lemma combine_keys (cols : list string) : forall r : list string, List.length r = List.length cols -> map fst (combine cols r) = cols.
Proof. induction cols as [|c cols IH]; intros [|x r] H; try discriminate H; [reflexivity|]. cbn [combine map fst]. f_equal. apply IH. injection H as H. exact H. Qed.
Lemma table_text cols rows : valid_table cols rows ->
  exists text, OutputJSON_text (mkTable cols rows) = Ok text /\
    read_json text = Some (JArray (map (fun r => JObject (map as_member (sort_keys (combine cols r)))) rows)).
Proof.
  intros (HN & HC & HR). unfold OutputJSON_text. rewrite OutputJSON_rows; [|exact HN|eapply Forall_impl; [|exact HR]; intros r (L & _); exact L].
  cbn [bind]. eexists. split; [reflexivity|]. rewrite Marshal_read; [rewrite map_map; reflexivity|].
  apply Forall_forall. intros m Hm. apply in_map_iff in Hm. destruct Hm as (r & <- & Hr). rewrite Forall_forall in HR. destruct (HR r Hr) as (_ & V).
  apply Forall_forall. intros (k, v) Hkv. rewrite Forall_forall in HC, V. split; [apply HC; eapply in_combine_l; exact Hkv|apply V; eapply in_combine_r; exact Hkv].
Qed.

(** The text is a JSON array with an object for every row in order; the object has
    the names of the columns as keys, each once and in the order of the texts, and
    the cells of the row as values. *)
Theorem C98_read_back : forall cols rows, valid_table cols rows ->
  exists text objs, OutputJSON_text (mkTable cols rows) = Ok text /\ read_json text = Some (JArray (map JObject objs)) /\
    Forall2 (fun r obj => Permutation obj (map (fun kv => (codes (fst kv), JString (codes (snd kv)))) (combine cols r)) /\
                          StronglySorted (fun a b => text_lt (fst a) (fst b)) obj) rows objs.
Proof.
  intros cols rows H. destruct (table_text cols rows H) as (text & E & R). exists text, (map (fun r => map as_member (sort_keys (combine cols r))) rows).
  split; [exact E|]. split; [rewrite R, map_map; reflexivity|]. destruct H as (HN & _ & HR). clear E R.
  induction HR as [|r rows (L & V) _ IH]; [constructor|]. constructor; [|exact IH]. split; [apply Permutation_map, sort_perm|].
  assert (S : StronglySorted key_before (sort_keys (combine cols r))) by (apply sort_sorted; rewrite combine_keys by exact L; exact HN).
  induction S as [|e l _ IHs F]; [constructor|]. cbn [map]. constructor; [exact IHs|]. apply Forall_forall. intros x Hx. apply in_map_iff in Hx. destruct Hx as (y & <- & Hy).
  rewrite Forall_forall in F. apply before_lt, (F y Hy).
Qed.
(** Whoever looks up the name of a column in the object of a row finds the cell and nothing else. *)
Theorem C98_cell : forall cols rows, valid_table cols rows ->
  exists text objs, OutputJSON_text (mkTable cols rows) = Ok text /\ read_json text = Some (JArray (map JObject objs)) /\ List.length objs = List.length rows /\
    forall i row obj, nth_error rows i = Some row -> nth_error objs i = Some obj ->
      forall j name cell, nth_error cols j = Some name -> nth_error row j = Some cell -> forall v, In (codes name, v) obj <-> v = JString (codes cell).
Proof.
  intros cols rows H. destruct (C98_read_back cols rows H) as (text & objs & E & R & F). exists text, objs. split; [exact E|]. split; [exact R|].
  destruct H as (HN & _ & HR). split; [clear -F; induction F; [reflexivity|cbn [List.length]; f_equal; assumption]|].
  intros i row obj Hr Ho j name cell Hj Hc v.
  assert (P : Permutation obj (map as_member (combine cols row))).
  { clear -F Hr Ho. revert i Hr Ho. induction F as [|r o rows objs (P & _) _ IH]; intros [|i] Hr Ho; try discriminate Hr.
    - injection Hr as <-. injection Ho as <-. exact P.
    - exact (IH i Hr Ho). }
  assert (G : forall k w, In (k, w) obj <-> exists kv, In kv (combine cols row) /\ as_member kv = (k, w)).
  { intros k w. split; intros X.
    - apply (Permutation_in _ P) in X. apply in_map_iff in X. destruct X as (kv & A & B). exists kv. split; assumption.
    - apply (Permutation_in _ (Permutation_sym P)). apply in_map_iff. destruct X as (kv & A & B). exists kv. split; assumption. }
  rewrite G. clear -HN Hj Hc. revert row j Hj Hc. induction cols as [|c cols IH]; intros row j Hj Hc; [destruct j; discriminate Hj|].
  destruct row as [|x row]; [destruct j; discriminate Hc|]. inversion HN as [|? ? N1 N2]; subst. cbn [combine]. destruct j as [|j].
  - injection Hj as ->. injection Hc as ->. split; [|intros ->; exists (name, cell); split; [left; reflexivity|reflexivity]].
    intros ((k & w) & [A|A] & B); [injection A as <- <-; injection B as <-; reflexivity|]. injection B as B _. apply PropsPrinted.codes_inj in B. cbn [fst] in B. subst k.
    exfalso. apply N1. eapply in_combine_l. exact A.
  - specialize (IH N2 row j Hj Hc). rewrite <- IH. split; intros (kv & A & B).
    + destruct A as [A|A]; [|exists kv; split; assumption]. subst kv. injection B as B _. apply PropsPrinted.codes_inj in B. cbn [fst] in B. subst c.
      exfalso. apply N1. eapply nth_error_In. exact Hj.
    + exists kv. split; [right; exact A|exact B].
Qed.
Lemma combine_inj (cols : list string) : forall r r' : list string, List.length r = List.length cols -> List.length r' = List.length cols ->
  combine cols r = combine cols r' -> r = r'.
Proof.
  induction cols as [|c cols IH]; intros [|x r] [|x' r'] L L' E; try discriminate L; try discriminate L'; [reflexivity|].
  cbn [combine] in E. injection E as -> E. f_equal. apply IH; [injection L as L; exact L|injection L' as L'; exact L'|exact E].
Qed.
Lemma look_combine (cols : list string) : NoDup cols -> forall r r' : list string, List.length r = List.length cols -> List.length r' = List.length cols ->
  Permutation (combine cols r) (combine cols r') -> r = r'.
Proof.
  intros HN. induction HN as [|c cols N1 N2 IH]; intros [|x r] [|x' r'] L L' P; try discriminate L; try discriminate L'; [reflexivity|].
  cbn [combine] in P. assert (X : In (c, x) ((c, x') :: combine cols r')) by (apply (Permutation_in _ P); left; reflexivity).
  destruct X as [X|X]; [|exfalso; apply N1; eapply in_combine_l; exact X]. injection X as ->. apply Permutation_cons_inv in P. f_equal.
  apply IH; [injection L as L; exact L|injection L' as L'; exact L'|exact P].
Qed.
Lemma member_inj a b : as_member a = as_member b -> a = b.
Proof. destruct a as (k & v), b as (k' & v'). intros E. injection E as E1 E2. apply PropsPrinted.codes_inj in E1, E2. cbn [fst snd] in *. congruence. Qed.
Lemma objects_same cols cols' : forall rows rows', 
  map (fun r => JObject (map as_member (sort_keys (combine cols r)))) rows = map (fun r => JObject (map as_member (sort_keys (combine cols' r)))) rows' ->
  Forall2 (fun r r' => Permutation (combine cols r) (combine cols' r')) rows rows'.
Proof.
  induction rows as [|r rows IH]; intros [|r' rows'] E; try discriminate E; [constructor|]. cbn [map] in E. injection E as E1 E2. constructor; [|apply IH, E2].
  apply (PropsPrinted.map_inj as_member member_inj) in E1. eapply Permutation_trans; [apply Permutation_sym, sort_perm|]. rewrite E1. apply sort_perm.
Qed.
Lemma array_inj l l' : Some (JArray l) = Some (JArray l') -> l = l'.
Proof. congruence. Qed.
(** Two tables with these columns and the same text are the same. *)
Theorem C98_determined : forall cols rows rows' text, valid_table cols rows -> valid_table cols rows' ->
  OutputJSON_text (mkTable cols rows) = Ok text -> OutputJSON_text (mkTable cols rows') = Ok text -> rows = rows'.
Proof.
  intros cols rows rows' text H H' E E'. destruct (table_text cols rows H) as (s & A & B). rewrite E in A. injection A as <-.
  destruct (table_text cols rows' H') as (s & A & B'). rewrite E' in A. injection A as <-. rewrite B in B'. injection B' as B'. apply objects_same in B'.
  destruct H as (HN & _ & HR), H' as (_ & _ & HR'). clear -HN HR HR' B'. induction B' as [|r r' rows rows' P _ IH]; [reflexivity|].
  inversion HR as [|? ? (L & _) R]; subst. inversion HR' as [|? ? (L' & _) R']; subst. f_equal; [|apply IH; assumption]. eapply look_combine; eassumption.
Qed.

(** ** The commands *)

Lemma text_valid s : PropsPrinted.cell_text s -> valid (codes s).
Proof.
  unfold PropsPrinted.cell_text. intros H. exists (codes s). split; [eapply Forall_impl; [|exact H]; intros c Hc; unfold scalar; cbn beta in Hc; lia|].
  induction H as [|c l Hc _ IH]; [reflexivity|]. cbn [flat_map]. unfold utf8 at 1. replace (c <? 0x80) with true by lia. cbn [app]. rewrite <- IH. reflexivity.
Qed.
Lemma message_valid m : received m -> valid_table (Columns [m]) [message_row m].
Proof.
  intros H. destruct (PropsPrinted.message_printed m H) as (A & B & C). destruct (received_header m H) as (_ & _ & _ & A4 & _). split; [apply PropsCmd.Columns_NoDup, A4|]. split.
  - eapply Forall_impl; [|exact A]. intros s Hs. apply text_valid. apply PropsPrinted.name_cell in Hs. apply Hs.
  - constructor; [|constructor]. split; [exact B|]. eapply Forall_impl; [|exact C]. intros s Hs. apply text_valid, Hs.
Qed.
(** get and set: the object of a response, and what it determines. *)
Theorem C98_get : forall m, received m ->
  exists text obj, OutputJSON_text (message_table [m]) = Ok text /\ read_json text = Some (JArray [JObject obj]) /\
    Permutation obj (map (fun kv => (codes (fst kv), JString (codes (snd kv)))) (combine (Columns [m]) (message_row m))).
Proof.
  intros m H. destruct (C98_read_back _ _ (message_valid m H)) as (text & objs & E & R & F). inversion F as [|? obj ? ? (P & _) F']; subst. inversion F'; subst.
  exists text, obj. split; [exact E|]. split; [exact R|exact P].
Qed.
Theorem C98_get_determined : forall m m' text, received m -> received m' -> OutputJSON_text (message_table [m]) = Ok text -> OutputJSON_text (message_table [m']) = Ok text ->
  TID m = TID m' /\ SEOJ m = SEOJ m' /\ DEOJ m = DEOJ m' /\ m_esv m = m_esv m' /\ OPC m = OPC m' /\ m_ep m = m_ep m'.
Proof.
  intros m m' text H H' E E'. destruct (table_text _ _ (message_valid m H)) as (s & A & B). unfold message_table, Rows in E, E'. cbn [map] in E, E'. rewrite E in A. injection A as <-.
  destruct (table_text _ _ (message_valid m' H')) as (s & A & B'). rewrite E' in A. injection A as <-. rewrite B in B'. apply array_inj in B'. apply objects_same in B'.
  assert (P : Permutation (combine (Columns [m]) (message_row m)) (combine (Columns [m']) (message_row m'))) by (inversion B'; assumption).
  destruct (PropsPrinted.message_printed m H) as (_ & L & _). destruct (PropsPrinted.message_printed m' H') as (_ & L' & _).
  destruct (received_header m H) as (_ & _ & _ & A4 & _). destruct (received_header m' H') as (_ & _ & _ & A4' & _).
  assert (EO : OPC m = OPC m').
  { pose proof (Permutation_length P) as X. rewrite !combine_length, L, L', !Nat.min_id, !PropsCmd.columns_length in X by lia. lia. }
  assert (EC : Columns [m] = Columns [m']) by (rewrite !PropsCmd.Columns_one by lia; rewrite EO; reflexivity).
  apply PropsCmd.C57_determined; [assumption..|]. rewrite <- EC in P, L'. eapply look_combine; [apply PropsCmd.Columns_NoDup, A4|exact L|exact L'|exact P].
Qed.

(** scan prints the rows as they are, without leaving cells blank. *)
Lemma scan_valid env ct details address : PropsPrinted.tidy (fun s => valid (codes s)) env -> Forall PropsPrinted.node_shown (ct_found ct) ->
  valid_table (scan_columns details) (t_rows (DiscoveredNodeTable env ct details address)).
Proof.
  intros T HS. assert (HP : forall s, PropsPrinted.inked s -> valid (codes s)) by (intros s X; apply PropsPrinted.inked_cell in X; apply text_valid, X).
  split; [destruct details; vm_compute; repeat constructor; intros X; repeat (destruct X as [X|X]; [discriminate X|]); exact X|]. split.
  - eapply Forall_impl; [|apply PropsPrinted.scan_names]. intros s Hs. apply text_valid. apply PropsPrinted.name_cell in Hs. apply Hs.
  - unfold DiscoveredNodeTable. cbn [t_rows]. apply (PropsPrinted.node_rows_ok _ HP); assumption.
Qed.
Theorem C98_scan : forall env ct details address, PropsPrinted.tidy (fun s => valid (codes s)) env -> Forall PropsPrinted.node_shown (ct_found ct) ->
  exists text objs, OutputJSON_text (DiscoveredNodeTable env ct details address) = Ok text /\ read_json text = Some (JArray (map JObject objs)) /\
    Forall2 (fun r obj => Permutation obj (map (fun kv => (codes (fst kv), JString (codes (snd kv)))) (combine (scan_columns details) r)))
      (t_rows (DiscoveredNodeTable env ct details address)) objs.
Proof.
  intros env ct details address T HS. destruct (C98_read_back _ _ (scan_valid env ct details address T HS)) as (text & objs & E & R & F).
  exists text, objs. split; [exact E|]. split; [exact R|]. clear -F. induction F as [|r o rs os (P & _) _ IH]; [constructor|]. constructor; assumption.
Qed.
Theorem C98_scan_determined : forall env ct env' ct' details address address' text,
  PropsPrinted.tidy (fun s => valid (codes s)) env -> Forall PropsPrinted.node_shown (ct_found ct) ->
  PropsPrinted.tidy (fun s => valid (codes s)) env' -> Forall PropsPrinted.node_shown (ct_found ct') ->
  OutputJSON_text (DiscoveredNodeTable env ct details address) = Ok text -> OutputJSON_text (DiscoveredNodeTable env' ct' details address') = Ok text ->
  t_rows (DiscoveredNodeTable env ct details address) = t_rows (DiscoveredNodeTable env' ct' details address').
Proof.
  intros env ct env' ct' details address address' text T HS T' HS' E E'. eapply C98_determined; [apply scan_valid; assumption..|exact E|exact E'].
Qed.
(** All names of the library are fit for it. *)
Theorem C98_names :
  (forall k, In k StdNames.name_table -> valid (codes (StdNames.nc_name k)) /\ forall c s, In (c, s) (StdNames.nc_props k) -> valid (codes s)) /\
  (forall c s, In (c, s) ManDB.man_table -> valid (codes s)).
Proof.
  destruct PropsPrinted.C97_names as (A & B). split.
  - intros k Hk. destruct (A k Hk) as (A1 & A2). split; [apply text_valid; apply A1|]. intros c s Hs. apply text_valid. destruct (A2 c s Hs) as (X & _). exact X.
  - intros c s Hs. apply text_valid. destruct (B c s Hs) as (X & _). exact X.
Qed.
(** The text is one line and can be put into a page of HTML: it has no control
    characters before the line break at its end, no ampersands and no angle brackets. *)
Definition harmless (c : Z) : Prop := 32 <= c /\ c <> 38 /\ c <> 60 /\ c <> 62.
Lemma rune_rest c t : Forall (fun x => 0x80 <= x) (firstn (rune_size c t - 1) t).
Proof.
  unfold rune_size. destruct (utf8_first c) as (size, (lo, hi)) eqn:E.
  assert (L : size = 1%nat \/ 0x80 <= lo).
  { revert E. unfold utf8_first. repeat match goal with |- context [if ?b then _ else _] => destruct b end; intros [= <- <- <-]; (left; reflexivity) || (right; lia). }
  destruct size as [|[|[|[|[|size]]]]]; try constructor.
  - destruct t as [|c1 t]; [constructor|]. destruct ((lo <=? c1) && (c1 <=? hi)) eqn:B; [|constructor]. cbn [Nat.sub firstn]. repeat constructor. lia.
  - destruct t as [|c1 [|c2 t]]; try constructor. destruct ((lo <=? c1) && (c1 <=? hi) && continues c2) eqn:B; [|constructor].
    unfold continues in B. cbn [Nat.sub firstn]. repeat constructor; lia.
  - destruct t as [|c1 [|c2 [|c3 t]]]; try constructor. destruct ((lo <=? c1) && (c1 <=? hi) && continues c2 && continues c3) eqn:B; [|constructor].
    unfold continues in B. cbn [Nat.sub firstn]. repeat constructor; lia.
Qed.
Lemma harmless_escaped c : 0 <= c < 0x80 -> Forall harmless (escaped c).
Proof.
  intros H. assert (G : forallb (fun c => forallb (fun x => (32 <=? x) && negb ((x =? 38) || (x =? 60) || (x =? 62))) (escaped c)) (map Z.of_nat (seq 0 128)) = true)
    by (vm_compute; reflexivity).
  rewrite forallb_forall in G. specialize (G c). rewrite forallb_forall in G. apply Forall_forall. intros x Hx. unfold harmless.
  assert (I : In c (map Z.of_nat (seq 0 128))) by (apply in_map_iff; exists (Z.to_nat c); split; [lia|apply in_seq; lia]).
  specialize (G I x Hx). lia.
Qed.
Lemma harmless_escape s : forall keep drop, Forall is_byte s -> Forall (fun x => 0x80 <= x) (firstn keep s) -> Forall harmless (escape keep drop s).
Proof.
  induction s as [|c t IH]; intros keep drop B K; [constructor|]. inversion B as [|? ? Bc Bt]; subst. unfold is_byte in Bc. cbn [escape]. destruct keep as [|k].
  - destruct drop as [|d]; [|apply IH; [exact Bt|constructor]]. destruct (c <? 0x80) eqn:E.
    + apply Forall_app. split; [|apply IH; [exact Bt|constructor]]. destruct (html_safe c) eqn:S; [|apply harmless_escaped; lia].
      unfold html_safe in S. repeat constructor; lia.
    + destruct (Nat.eqb (rune_size c t) 1); [repeat (constructor; [unfold harmless; lia|]); apply IH; [exact Bt|constructor]|].
      destruct (separator c t) as [d|] eqn:S.
      * assert (D : d = 8 \/ d = 9).
        { unfold separator in S. destruct t as [|c1 [|c2 t]]; try discriminate S. destruct ((c =? 0xE2) && (c1 =? 0x80) && ((c2 =? 0xA8) || (c2 =? 0xA9))) eqn:X; [|discriminate S]. injection S as <-. lia. }
        cbn [app]. repeat (constructor; [unfold harmless; lia|]). constructor; [destruct D as [-> | ->]; vm_compute; intuition discriminate|]. apply IH; [exact Bt|constructor].
      * constructor; [unfold harmless; lia|]. apply IH; [exact Bt|apply rune_rest].
  - cbn [firstn] in K. inversion K as [|? ? Kc Kt]; subst. constructor; [unfold harmless; lia|]. apply IH; assumption.
Qed.
Lemma codes_bytes s : Forall is_byte (codes s).
Proof.
  unfold codes. apply Forall_map, Forall_forall. intros a _. unfold is_byte, char_code. pose proof (N_ascii_bounded a). lia.
Qed.
Lemma harmless_string s : Forall harmless (appendString (codes s)).
Proof.
  unfold appendString. constructor; [unfold harmless; lia|]. apply Forall_app. split; [apply harmless_escape; [apply codes_bytes|constructor]|].
  repeat constructor; lia.
Qed.
Lemma harmless_commas l : Forall (Forall harmless) l -> Forall harmless (commas l).
Proof.
  intros H. destruct H as [|x l Hx Hl]; [constructor|]. cbn [commas]. apply Forall_app. split; [exact Hx|].
  induction Hl as [|y l Hy _ IH]; [constructor|]. cbn [flat_map app]. constructor; [unfold harmless; lia|]. apply Forall_app. auto.
Qed.
Theorem C98_one_line : forall t text, OutputJSON_text t = Ok text ->
  exists line, text = line ++ [10] /\ Forall harmless line.
Proof.
  intros t text E. unfold OutputJSON_text in E. destruct (OutputJSON t) as [data| |]; try discriminate E. cbn [bind] in E. injection E as <-.
  exists (Marshal data). split; [reflexivity|]. unfold Marshal. constructor; [unfold harmless; lia|]. apply Forall_app. split; [|repeat constructor; lia].
  apply harmless_commas, Forall_map, Forall_forall. intros m _. unfold object_text. constructor; [unfold harmless; lia|]. apply Forall_app. split; [|repeat constructor; lia].
  apply harmless_commas, Forall_map, Forall_forall. intros kv _. unfold member_text. apply Forall_app. split; [apply harmless_string|]. constructor; [unfold harmless; lia|apply harmless_string].
Qed.

(** The conditions matter: bytes that are no UTF-8 are printed alike, and of two columns with one name only the last is shown. *)
Definition byte_text (c : Z) : string := String (char_of c) EmptyString.
Theorem C98_conditions_refuted :
  OutputJSON_text (mkTable ["a"] [[byte_text 0xFE]])%string = OutputJSON_text (mkTable ["a"] [[byte_text 0xFF]])%string /\ byte_text 0xFE <> byte_text 0xFF /\
  OutputJSON_text (mkTable ["a"; "a"] [["1"; "2"]])%string = OutputJSON_text (mkTable ["a"; "a"] [["3"; "2"]])%string.
Proof. split; [vm_compute; reflexivity|]. split; [vm_compute; discriminate|vm_compute; reflexivity]. Qed.

(** ** Examples *)

Definition quoted (s : string) : string := (String (char_of 34) s ++ String (char_of 34) EmptyString)%string.
Definition shown (r : res (list Z)) : option string := match r with Ok l => Some (PropsPrinted.shown_text l) | _ => None end.
Example C98_example :
  shown (OutputJSON_text (mkTable ["name"; "code"] [["A&B <x>"; "0A"]; [byte_text 10; quoted "q"]])%string) =
  Some ("[{" ++ quoted "code" ++ ":" ++ quoted "0A" ++ "," ++ quoted "name" ++ ":" ++ quoted "A\u0026B \u003cx\u003e" ++ "},{" ++
        quoted "code" ++ ":" ++ quoted "\""q\""" ++ "," ++ quoted "name" ++ ":" ++ quoted "\n" ++ "}]" ++ newline)%string.
Proof. vm_compute. reflexivity. Qed.
Example C98_read_example :
  read_json (codes "[ {""a"" : ""A\/\t"" } , { } ]"%string) = Some (JArray [JObject [([97], JString [65; 47; 9])]; JObject []]) /\
  read_json (codes "[{""a"":""b""") = None /\ read_json (codes "[{""a"":""b""}] x") = None /\ read_json (codes "[{""a"":""\x""}]"%string) = None.
Proof. vm_compute. auto. Qed.
Example C98_valid_example : (valid_table ["name"] [["A&B"]; [byte_text 0xC3 ++ byte_text 0xA9]])%string.
Proof.
  split; [repeat constructor; intros []|]. split; [constructor; [|constructor]; apply text_valid, PropsPrinted.cell_okb_ok; reflexivity|].
  constructor; [split; [reflexivity|]; constructor; [|constructor]; apply text_valid, PropsPrinted.cell_okb_ok; reflexivity|]. constructor; [|constructor].
  split; [reflexivity|]. constructor; [|constructor]. exists [0xE9]. split; [constructor; [unfold scalar; lia|constructor]|reflexivity].
Qed.
Example C98_applies : shown (OutputJSON_text (message_table [PropsPrinted.ex_message])) =
  Some ("[{" ++ quoted "DEOJ" ++ ":" ++ quoted "0EF001" ++ "," ++ quoted "EDT0" ++ ":" ++ quoted "" ++ "," ++ quoted "EDT1" ++ ":" ++ quoted "42" ++ "," ++
    quoted "EHD" ++ ":" ++ quoted "1081" ++ "," ++ quoted "EPC0" ++ ":" ++ quoted "80" ++ "," ++ quoted "EPC1" ++ ":" ++ quoted "88" ++ "," ++
    quoted "ESV" ++ ":" ++ quoted "52" ++ "," ++ quoted "OPC" ++ ":" ++ quoted "02" ++ "," ++ quoted "PDC0" ++ ":" ++ quoted "00" ++ "," ++ quoted "PDC1" ++ ":" ++ quoted "01" ++ "," ++
    quoted "SEOJ" ++ ":" ++ quoted "029001" ++ "," ++ quoted "TID" ++ ":" ++ quoted "0007" ++ "}]" ++ newline)%string.
Proof. vm_compute. reflexivity. Qed.

(** The byte 255, which is in no valid text, opens and closes a passage whose marks do
    not count: such a cell is taken for two characters less and its line is shifted. *)
Theorem C97_escape_refuted :
  let cell := string_of_list_ascii (map char_of [255; 120; 255]) in
  Output (mkTable ["a"; "b"] [[cell; "z"]])%string = codes "a b" ++ [10] ++ [255; 120; 255; 32; 122; 10] /\
  Output (mkTable ["a"; "b"] [["xyz"; "z"]])%string = codes "a   b" ++ [10] ++ codes "xyz z" ++ [10].
Proof. vm_compute. split; reflexivity. Qed.

Print Assumptions C97_escape_refuted.
Print Assumptions C97_characters.
Print Assumptions C98_one_line.
Print Assumptions C98_read_back.
Print Assumptions C98_cell.
Print Assumptions C98_determined.
Print Assumptions C98_get.
Print Assumptions C98_get_determined.
Print Assumptions C98_scan.
Print Assumptions C98_scan_determined.
Print Assumptions C98_names.
Print Assumptions C98_conditions_refuted.

(** Proofs about the tables of [Cmd]. *)

From Coq Require Import String Ascii ZifyBool ZifyNat.
From Verif Require Import Go GoFacts Encoding Protocol StdDB Property Object Node Remote Cmd CmdFacts.
Local Open Scope Z_scope.
Local Open Scope list_scope.

(** ** Hiding *)

(** The row below [prev] with its leading cells blanked that agree with [prev],
    at most [k] of them. *)
Fixpoint hide_row (k : nat) (prev row : list string) : list string :=
  match k, prev, row with
  | S k, p :: prev, x :: row => if String.eqb x p then EmptyString :: hide_row k prev row else x :: row
  | _, _, _ => row
  end.
Fixpoint hide_rows (k : nat) (prev : list string) (rows : list (list string)) : list (list string) :=
  match rows with [] => [] | row :: rows => hide_row k prev row :: hide_rows k row rows end.

(** At least [k] cells, the first [k] of them not blank. *)
Definition full (k : nat) (row : list string) : Prop :=
  (k <= length row)%nat /\ Forall (fun c => c <> EmptyString) (firstn k row).

Lemma hide_row_0 prev row : hide_row 0 prev row = row.
Proof. reflexivity. Qed.
Lemma hide_rows_0 rows : forall prev, hide_rows 0 prev rows = rows.
Proof. induction rows as [|r rows IH]; intros prev; cbn [hide_rows]; [reflexivity|]. rewrite IH. reflexivity. Qed.

Lemma nth_error_hide k : forall prev row, nth_error (hide_row k prev row) k = nth_error row k.
Proof.
  induction k as [|k IH]; intros [|p prev] [|x row]; cbn [hide_row]; try reflexivity.
  destruct (String.eqb x p); cbn [nth_error]; auto.
Qed.

Lemma hide_row_length k : forall prev row, length (hide_row k prev row) = length row.
Proof.
  induction k as [|k IH]; intros [|p prev] [|x row]; cbn [hide_row]; try reflexivity.
  destruct (String.eqb x p); cbn [length]; auto.
Qed.

(** The cell before: blank exactly if all cells up to it agree. *)
Lemma hide_prev_cell k : forall prev row, full (S k) prev -> full (S k) row ->
  exists c, nth_error (hide_row (S k) prev row) k = Some c /\ (is_blank c = true <-> firstn (S k) row = firstn (S k) prev).
Proof.
  induction k as [|k IH]; intros [|p prev] [|x row] [HL HF] [HL' HF']; cbn [length] in *; try lia.
  - inversion HF as [|? ? Hp _]; subst. inversion HF' as [|? ? Hx _]; subst.
    cbn [hide_row firstn]. destruct (String.eqb_spec x p) as [->|N]; cbn [nth_error].
    + exists EmptyString. split; [reflexivity|]. split; [reflexivity|]. reflexivity.
    + exists x. split; [reflexivity|]. destruct x; [congruence|]. split; [discriminate|congruence].
  - rewrite firstn_cons in HF, HF'. inversion HF as [|? ? Hp HFp]; subst. inversion HF' as [|? ? Hx HFx]; subst.
    change (hide_row (S (S k)) (p :: prev) (x :: row)) with (if String.eqb x p then EmptyString :: hide_row (S k) prev row else x :: row).
    rewrite !(firstn_cons (S k)).
    destruct (String.eqb_spec x p) as [->|N].
    + destruct (IH prev row) as (c & E & HB); [split; [lia|assumption]..|]. exists c. split; [exact E|]. rewrite HB.
      split; [congruence|]. intros H. injection H. auto.
    + cbn [nth_error]. destruct (nth_error row k) as [c|] eqn:Ec.
      * exists c. split; [reflexivity|]. split; [|congruence]. intros HB. exfalso.
        assert (Hc : In c (firstn (S k) row)).
        { clear -Ec. revert row Ec. induction k as [|k IH]; intros [|y row] Ec; try discriminate Ec; cbn in *; [left; congruence|].
          right. apply (IH row). exact Ec. }
        rewrite Forall_forall in HFx. specialize (HFx c Hc). destruct c; [congruence|discriminate HB].
      * apply nth_error_None in Ec. lia.
Qed.

Lemma hide_row_S k : forall prev row, (S k <= length prev)%nat -> (S k <= length row)%nat ->
  hide_row (S k) prev row = if list_eq_dec string_dec (firstn (S k) row) (firstn (S k) prev)
                            then set_nth (hide_row k prev row) k EmptyString else hide_row k prev row.
Proof.
  induction k as [|k IH]; intros [|p prev] [|x row] HL HL'; cbn [length] in *; try lia.
  - cbn [hide_row firstn]. destruct (String.eqb_spec x p) as [->|N]; destruct (list_eq_dec string_dec _ _) as [E|NE]; cbn [set_nth]; try congruence.
  - change (hide_row (S (S k)) (p :: prev) (x :: row)) with (if String.eqb x p then EmptyString :: hide_row (S k) prev row else x :: row).
    change (hide_row (S k) (p :: prev) (x :: row)) with (if String.eqb x p then EmptyString :: hide_row k prev row else x :: row).
    rewrite !(firstn_cons (S k)).
    destruct (String.eqb_spec x p) as [->|N].
    + rewrite IH by lia. destruct (list_eq_dec string_dec (firstn (S k) row) (firstn (S k) prev)) as [E|NE];
        destruct (list_eq_dec string_dec (p :: firstn (S k) row) (p :: firstn (S k) prev)) as [E'|NE']; try reflexivity; exfalso.
      * congruence.
      * injection E'. auto.
    + destruct (list_eq_dec string_dec _ _) as [E|NE]; [congruence|reflexivity].
Qed.

(** Equality of one more cell. *)
Lemma firstn_agree k : forall (a b : list string) x y, nth_error a k = Some x -> nth_error b k = Some y ->
  (firstn (S k) a = firstn (S k) b <-> firstn k a = firstn k b /\ x = y).
Proof.
  induction k as [|k IH]; intros [|p a] [|q b] x y Ea Eb; try discriminate Ea; try discriminate Eb.
  - cbn in *. split; [intros H; split; congruence|intros [_ ->]; congruence].
  - cbn [nth_error] in *. rewrite !(firstn_cons (S k)), !(firstn_cons k). split.
    + intros H. injection H as -> H. apply (IH a b x y Ea Eb) in H as [H ->]. split; congruence.
    + intros [H ->]. injection H as -> H. f_equal. apply (IH a b y y Ea Eb). auto.
Qed.

Lemma idx_nth {A} (l : list A) k x : nth_error l k = Some x -> idx l (Z.of_nat k) = Ok x.
Proof. intros E. unfold idx. destruct (Z.ltb_spec (Z.of_nat k) 0); [lia|]. rewrite Nat2Z.id, E. reflexivity. Qed.
Lemma set_idx_nth {A} (l : list A) k v : (k < length l)%nat -> set_idx l (Z.of_nat k) v = Ok (set_nth l k v).
Proof.
  intros H. unfold set_idx, len. replace ((Z.of_nat k <? 0) || (Z.of_nat (length l) <=? Z.of_nat k)) with false by lia.
  rewrite Nat2Z.id. reflexivity.
Qed.

(** One column. *)
Lemma strip_step k rows : forall prev last, full (S k) prev -> nth_error prev k = Some last -> Forall (full (S k)) rows ->
  strip_rows (Z.of_nat k) false last (hide_rows k prev rows) = Ok (hide_rows (S k) prev rows).
Proof.
  induction rows as [|row rows IH]; intros prev last HP EL HF; [reflexivity|].
  inversion HF as [|? ? HR HF']; subst.
  destruct (nth_error row k) as [x|] eqn:Ex; [|apply nth_error_None in Ex; destruct HR; lia].
  cbn [hide_rows strip_rows]. rewrite (idx_nth _ k x) by (rewrite nth_error_hide; exact Ex). cbn [bind].
  rewrite (hide_row_S k prev row) by (destruct HP, HR; assumption).
  pose proof (firstn_agree k row prev x last Ex EL) as HA.
  destruct (String.eqb_spec x last) as [->|N].
  - destruct k as [|k].
    + destruct (list_eq_dec string_dec _ _) as [E|NE]; [|exfalso; apply NE, HA; split; reflexivity].
      change (Z.of_nat 0 =? 0) with true. cbn match. rewrite (set_idx_nth _ 0 EmptyString) by (rewrite hide_row_length; destruct HR; lia).
      cbn [bind]. rewrite (IH row last HR Ex HF'). reflexivity.
    + assert (HPk : full (S k) prev /\ full (S k) row).
      { clear -HP HR. assert (H : forall r, full (S (S k)) r -> full (S k) r).
        { intros r [H1 H2]. split; [lia|]. rewrite <- (firstn_skipn (S k) r) in H2. rewrite firstn_app in H2. apply Forall_app in H2 as [H2 _].
          rewrite firstn_firstn in H2. replace (Nat.min (S (S k)) (S k)) with (S k) in H2 by lia. exact H2. }
        auto. }
      destruct HPk as [HP1 HR1].
      destruct (hide_prev_cell k prev row HP1 HR1) as (c & Ec & HB).
      replace (Z.of_nat (S k) =? 0) with false by lia.
      replace (Z.of_nat (S k) - 1) with (Z.of_nat k) by lia. rewrite (idx_nth _ k c Ec). cbn [bind].
      destruct (is_blank c) eqn:EB.
      * destruct (list_eq_dec string_dec _ _) as [E|NE]; [|exfalso; apply NE, HA; split; [apply HB; reflexivity|reflexivity]].
        rewrite (set_idx_nth _ (S k) EmptyString) by (rewrite hide_row_length; destruct HR; lia).
        cbn [bind]. rewrite (IH row last HR Ex HF'). reflexivity.
      * destruct (list_eq_dec string_dec _ _) as [E|NE]; [exfalso; apply HA in E as [E _]; apply HB in E; discriminate E|].
        cbn [bind]. rewrite (IH row last HR Ex HF'). reflexivity.
  - destruct (list_eq_dec string_dec _ _) as [E|NE]; [exfalso; apply HA in E as [_ E]; congruence|].
    rewrite (IH row x HR Ex HF'). reflexivity.
Qed.

Definition hide_all (k : nat) (rows : list (list string)) : list (list string) :=
  match rows with [] => [] | r :: rows => r :: hide_rows k r rows end.

Lemma full_le j k r : (j <= k)%nat -> full k r -> full j r.
Proof.
  intros HL [H1 H2]. split; [lia|]. replace (firstn j r) with (firstn j (firstn k r)).
  - rewrite <- (firstn_skipn j (firstn k r)) in H2. apply Forall_app in H2 as [H2 _]. exact H2.
  - rewrite firstn_firstn. f_equal. lia.
Qed.

Lemma strip_columns k : forall rows j n, (j + n)%nat = k -> Forall (full k) rows ->
  for_each (map Z.of_nat (seq j n)) (fun c rows => strip_rows c true EmptyString rows) (hide_all j rows) = Ok (hide_all k rows).
Proof.
  intros rows j n. revert j. induction n as [|n IH]; intros j E HF; cbn [seq map for_each].
  - replace j with k by lia. reflexivity.
  - assert (E1 : strip_rows (Z.of_nat j) true EmptyString (hide_all j rows) = Ok (hide_all (S j) rows)).
    { destruct rows as [|r rows]; [reflexivity|]. inversion HF as [|? ? HR HF']; subst.
      assert (HR' : full (S j) r) by (eapply full_le; [|exact HR]; lia).
      destruct (nth_error r j) as [x|] eqn:Ex; [|apply nth_error_None in Ex; destruct HR'; lia].
      cbn [hide_all strip_rows]. rewrite (idx_nth _ j x Ex). cbn [bind].
      rewrite (strip_step j rows r x HR' Ex); [reflexivity|]. eapply Forall_impl; [|exact HF']. intros a Ha. eapply full_le; [|exact Ha]; lia. }
    rewrite E1. cbn [bind]. apply IH; [lia|exact HF].
Qed.

Lemma hide_all_0 rows : hide_all 0 rows = rows.
Proof. destruct rows as [|r rows]; [reflexivity|]. cbn. rewrite hide_rows_0. reflexivity. Qed.

Lemma Hide_spec cols rows k : Forall (full k) rows ->
  HideDuplicateColumns (mkTable cols rows) (map Z.of_nat (seq 0 k))
  = Ok (mkTable cols (filter (fun row => negb (forallb is_blank row)) (hide_all k rows))).
Proof.
  intros HF. unfold HideDuplicateColumns. cbn [t_rows t_columns].
  rewrite <- (hide_all_0 rows) at 1. rewrite (strip_columns k rows 0 k eq_refl HF). reflexivity.
Qed.

(** ** Restoring *)

(** Replaces the blank cells among the first [k] by the cells of [prev]. *)
Fixpoint fill_row (k : nat) (prev row : list string) : list string :=
  match k, prev, row with
  | S k, p :: prev, x :: row => (if is_blank x then p else x) :: fill_row k prev row
  | _, _, _ => row
  end.
Fixpoint fill_rows (k : nat) (prev : list string) (rows : list (list string)) : list (list string) :=
  match rows with [] => [] | row :: rows => fill_row k prev row :: fill_rows k (fill_row k prev row) rows end.
Definition fill_down (k : nat) (rows : list (list string)) : list (list string) :=
  match rows with [] => [] | row :: rows => row :: fill_rows k row rows end.

Lemma fill_full k : forall prev row, full k row -> fill_row k prev row = row.
Proof.
  induction k as [|k IH]; intros [|p prev] [|x row] [HL HF]; cbn [fill_row]; try reflexivity.
  cbn [length firstn] in *. inversion HF; subst. rewrite IH by (split; [lia|assumption]). destruct x; [congruence|reflexivity].
Qed.

Lemma fill_hide k : forall prev row, full k row -> fill_row k prev (hide_row k prev row) = row.
Proof.
  induction k as [|k IH]; intros [|p prev] [|x row] HF; cbn [fill_row hide_row]; try reflexivity.
  pose proof HF as [HL HF']. cbn [length firstn] in *. inversion HF' as [|? ? Hx HFx]; subst.
  destruct (String.eqb_spec x p) as [->|N]; cbn [fill_row].
  - cbn. rewrite IH by (split; [lia|assumption]). reflexivity.
  - rewrite fill_full by (split; [lia|assumption]). destruct x; [congruence|reflexivity].
Qed.

Lemma fill_same k : forall prev prev' row, firstn k prev = firstn k prev' -> fill_row k prev row = fill_row k prev' row.
Proof.
  induction k as [|k IH]; intros [|p prev] [|p' prev'] [|x row] E; cbn [fill_row] in *; try reflexivity; try discriminate E.
  injection E as -> E. rewrite (IH prev prev' row E). reflexivity.
Qed.

(** A row that repeats the first [k] cells of the row above and has nothing else. *)
Definition repeats (k : nat) (prev row : list string) : bool :=
  (if list_eq_dec string_dec (firstn k row) (firstn k prev) then true else false) && forallb is_blank (skipn k row).
Fixpoint drop_repeats (k : nat) (prev : list string) (rows : list (list string)) : list (list string) :=
  match rows with
  | [] => []
  | row :: rows => if repeats k prev row then drop_repeats k row rows else row :: drop_repeats k row rows
  end.

Lemma hide_blank k : forall prev row, (1 <= k)%nat -> full k prev -> full k row ->
  forallb is_blank (hide_row k prev row) = repeats k prev row.
Proof.
  induction k as [|k IH]; intros prev row H1 HP HR; [lia|].
  destruct prev as [|p prev], row as [|x row]; try (destruct HP as [HP _]; destruct HR as [HR _]; cbn in HP, HR; lia).
  pose proof HP as [HL HF]. pose proof HR as [HL' HF']. cbn [length] in *.
  rewrite firstn_cons in HF, HF'. inversion HF as [|? ? Hp HFp]; subst. inversion HF' as [|? ? Hx HFx]; subst.
  cbn [hide_row]. unfold repeats. rewrite !firstn_cons. cbn [skipn].
  destruct (String.eqb_spec x p) as [->|N].
  - cbn [forallb is_blank andb]. destruct k as [|k].
    + cbn [hide_row firstn skipn]. destruct (list_eq_dec string_dec [p] [p]); [|congruence]. destruct prev; reflexivity.
    + rewrite IH by (try lia; split; try lia; assumption). unfold repeats.
      destruct (list_eq_dec string_dec (firstn (S k) row) (firstn (S k) prev)) as [E|NE];
        destruct (list_eq_dec string_dec (p :: firstn (S k) row) (p :: firstn (S k) prev)) as [E'|NE']; try reflexivity; exfalso.
      * congruence.
      * injection E'. auto.
  - destruct (list_eq_dec string_dec _ _) as [E|NE]; [congruence|]. cbn [forallb]. destruct x; [congruence|reflexivity].
Qed.

Lemma repeats_same k prev row : repeats k prev row = true -> firstn k row = firstn k prev.
Proof. unfold repeats. destruct (list_eq_dec string_dec _ _); [auto|discriminate]. Qed.

Lemma fill_hide_rows k rows : forall prev prev', (1 <= k)%nat -> full k prev -> Forall (full k) rows ->
  firstn k prev' = firstn k prev ->
  fill_rows k prev' (filter (fun row => negb (forallb is_blank row)) (hide_rows k prev rows)) = drop_repeats k prev rows.
Proof.
  induction rows as [|row rows IH]; intros prev prev' H1 HP HF E; [reflexivity|].
  inversion HF as [|? ? HR HF']; subst. cbn [hide_rows filter drop_repeats].
  rewrite (hide_blank k prev row H1 HP HR). destruct (repeats k prev row) eqn:ER; cbn [negb].
  - apply (IH row prev' H1 HR HF'). rewrite E. symmetry. apply repeats_same, ER.
  - cbn [fill_rows]. rewrite (fill_same k prev' prev _ E), (fill_hide k prev row HR).
    f_equal. apply (IH row row H1 HR HF'). reflexivity.
Qed.

(** ** CSV *)

Definition no_char (c : ascii) (s : string) : Prop := ~ In c (list_ascii_of_string s).

Lemma string_app_nil s : (s ++ EmptyString)%string = s.
Proof. induction s as [|c s IH]; cbn; [reflexivity|]. rewrite IH. reflexivity. Qed.
Lemma string_app_assoc a b c : ((a ++ b) ++ c)%string = (a ++ (b ++ c))%string.
Proof. induction a as [|x a IH]; cbn; [reflexivity|]. rewrite IH. reflexivity. Qed.

(** A cell ends at the first separator. *)
Lemma cut_inj (P : ascii -> Prop) a : forall b x y u v,
  (forall c, In c (list_ascii_of_string a) -> ~ P c) -> (forall c, In c (list_ascii_of_string b) -> ~ P c) -> P x -> P y ->
  (a ++ String x u)%string = (b ++ String y v)%string -> a = b /\ x = y /\ u = v.
Proof.
  induction a as [|c a IH]; intros [|d b] x y u v Ha Hb Hx Hy E; cbn in *.
  - injection E. auto.
  - injection E as <- _. exfalso. apply (Hb x); auto.
  - injection E as -> _. exfalso. apply (Ha y); auto.
  - injection E as <- E. destruct (IH b x y u v) as (-> & -> & ->); auto.
Qed.

Definition comma : ascii := char_of 44.
Definition nl : ascii := char_of 10.
Definition sep (c : ascii) : Prop := c = comma \/ c = nl.
Definition plain (s : string) : Prop := forall c, In c (list_ascii_of_string s) -> ~ sep c.

Lemma line_cons x y l : (String.concat "," (x :: y :: l) = x ++ String comma (String.concat "," (y :: l)))%string.
Proof. reflexivity. Qed.

Lemma line_inj l : forall k u v, l <> [] -> k <> [] -> Forall plain l -> Forall plain k ->
  (String.concat "," l ++ String nl u = String.concat "," k ++ String nl v)%string -> l = k /\ u = v.
Proof.
  induction l as [|x l IH]; intros [|y k] u v Hl Hk Fl Fk E; try congruence.
  inversion Fl as [|? ? Px Fl']; subst. inversion Fk as [|? ? Py Fk']; subst.
  destruct l as [|x' l], k as [|y' k].
  - cbn [String.concat] in E. destruct (cut_inj sep x y nl nl u v) as (-> & _ & ->); auto; right; reflexivity.
  - rewrite line_cons, string_app_assoc in E. cbn [String.concat] in E.
    destruct (cut_inj sep x y nl comma u (String.concat "," (y' :: k) ++ String nl v)) as (_ & F & _); auto; [right; reflexivity|left; reflexivity|discriminate F].
  - rewrite line_cons, string_app_assoc in E. cbn [String.concat] in E.
    destruct (cut_inj sep x y comma nl (String.concat "," (x' :: l) ++ String nl u) v) as (_ & F & _); auto; [left; reflexivity|right; reflexivity|discriminate F].
  - rewrite !line_cons, !string_app_assoc in E.
    destruct (cut_inj sep x y comma comma (String.concat "," (x' :: l) ++ String nl u) (String.concat "," (y' :: k) ++ String nl v)) as (-> & _ & E'); auto; try (left; reflexivity).
    destruct (IH (y' :: k) u v) as [E1 E2]; try discriminate; auto. split; congruence.
Qed.

Lemma concat_cons s l : String.concat EmptyString (s :: l) = (s ++ String.concat EmptyString l)%string.
Proof. destruct l; cbn; [rewrite string_app_nil|]; reflexivity. Qed.

Lemma csv_inj l : forall k, Forall (fun r => r <> [] /\ Forall plain r) l -> Forall (fun r => r <> [] /\ Forall plain r) k ->
  String.concat EmptyString (map csv_line l) = String.concat EmptyString (map csv_line k) -> l = k.
Proof.
  revert l. assert (HN : forall r l, r <> [] -> String.concat EmptyString (map csv_line (r :: l))
                = (String.concat "," r ++ String nl (String.concat EmptyString (map csv_line l)))%string).
  { intros r l Hr. cbn [map]. rewrite concat_cons. destruct r; [congruence|]. unfold csv_line. rewrite string_app_assoc. reflexivity. }
  assert (HE : forall r l, r <> [] -> String.concat EmptyString (map csv_line (r :: l)) <> EmptyString).
  { intros r l Hr H. rewrite HN in H by exact Hr. destruct (String.concat "," r); discriminate H. }
  induction l as [|r l IH]; intros [|q k] Fl Fk E; [reflexivity| | |].
  - exfalso. inversion Fk as [|? ? [Hq _] _]; subst. apply (HE q k Hq). symmetry. exact E.
  - exfalso. inversion Fl as [|? ? [Hq _] _]; subst. apply (HE r l Hq). exact E.
  - inversion Fl as [|? ? [Hr Pr] Fl']; subst. inversion Fk as [|? ? [Hq Pq] Fk']; subst.
    rewrite !HN in E by assumption. destruct (line_inj r q _ _ Hr Hq Pr Pq E) as [-> E']. f_equal. apply IH; assumption.
Qed.

(** * The table printed in the default format (C97)

    get and scan print their table through text/tabwriter.  The columns are
    aligned, so that the text can be read back column by column; in particular
    the printed text determines the response, and the nodes found. *)
From Coq Require Import ZArith List Bool String Ascii Lia.
From Verif Require Import Go Encoding Protocol Parser Property Object Node Handler Remote Cmd TabWriter TabFacts.
From Verif Require Import Spec EncodingFacts ProtocolFacts ObjectFacts NodeFacts HandlerFacts RemoteFacts CmdFacts.
From Verif Require StdNames ManDB AddressText PropsAddress CmdTable PropsCmd PropsScan PropsRemote PropsNode PropsObject.
Import ListNotations.
Local Open Scope Z_scope.

(** ** Layout *)

(** The cells of a row, each but the last filled with blanks to the width of its column. *)
Fixpoint laid (widths : list nat) (row : list string) : list Z :=
  match row, widths with
  | [], _ => []
  | [s], _ => codes s
  | s :: row, w :: ws => codes s ++ repeat 32 (w - RuneCount (codes s)) ++ laid ws row
  | s :: row, [] => codes s ++ laid [] row
  end.

Lemma write_laid row : forall ws, length row = S (length ws) ->
  write_cells (map Z.of_nat ws) (map cell_of row) = laid ws row.
Proof.
  induction row as [|s row IH]; intros ws L; [discriminate L|]. destruct ws as [|w ws].
  - destruct row; [|discriminate L]. cbn. apply app_nil_r.
  - destruct row as [|s' row]; [discriminate L|].
    change (laid (w :: ws) (s :: s' :: row)) with (codes s ++ repeat 32 (w - RuneCount (codes s)) ++ laid ws (s' :: row)).
    rewrite <- IH by (cbn [length] in *; lia). cbn [map write_cells cell_of ce_text ce_width]. unfold padding.
    replace (Z.to_nat (Z.of_nat w - Z.of_nat (RuneCount (codes s)))) with (w - RuneCount (codes s))%nat by lia. reflexivity.
Qed.

Definition table_of (cols : list string) (rows : list (list string)) : Prop :=
  cols <> [] /\ Forall (fun r => length r = length cols /\ Forall unmarked r) (cols :: rows).

(** One line for each row, below the line of the column names; each column is one character wider than its longest cell. *)
Theorem C97_layout : forall cols rows, table_of cols rows ->
  exists widths, length cols = S (length widths) /\
    Output (mkTable cols rows) = flat_map (fun r => laid widths r ++ [10]) (cols :: rows) /\
    forall j w, nth_error widths j = Some w ->
      (forall r s, In r (cols :: rows) -> nth_error r j = Some s -> (RuneCount (codes s) < w)%nat) /\
      exists r s, In r (cols :: rows) /\ nth_error r j = Some s /\ w = S (RuneCount (codes s)).
Proof.
  intros cols rows (NE & H). assert (N : (1 <= length cols)%nat) by (destruct cols; [congruence|cbn; lia]).
  destruct (Nat.eq_dec (length cols) 1) as [E|E].
  - exists []. split; [exact E|]. rewrite E in H. split; [|intros j w X; destruct j; discriminate X].
    rewrite Output_single by exact H. rewrite !flat_map_concat_map. f_equal. apply map_ext_in. intros r Hr.
    rewrite Forall_forall in H. destruct (H r Hr) as (L & _). destruct r as [|s [|]]; try discriminate L. cbn [flat_map laid]. rewrite app_nil_r. reflexivity.
  - set (ls := map (fun r => (map cell_of r, [10])) (cols :: rows) : list line).
    exists (map (fun j => Z.to_nat (block_width j ls)) (seq 0 (length cols - 1))). split; [rewrite map_length, seq_length; lia|].
    assert (NL : ls <> []) by discriminate.
    assert (HW : forall j, Forall (fun l : line => 0 <= ce_width (nth j (fst l) no_cell)) ls).
    { intros j. apply Forall_map, Forall_forall. intros r _. cbn [fst]. change no_cell with (cell_of "") at 1. rewrite map_nth. cbn [cell_of ce_width]. lia. }
    split.
    + rewrite (Output_rows (length cols)) by (lia || exact H). fold ls. unfold writeLines. unfold ls at 2. rewrite flat_map_concat_map, map_map, <- flat_map_concat_map.
      rewrite !flat_map_concat_map. f_equal. apply map_ext_in. intros r Hr. cbn [fst snd]. f_equal.
      rewrite Forall_forall in H. destruct (H r Hr) as (L & _). rewrite <- write_laid by (rewrite map_length, seq_length; lia). f_equal. rewrite map_map. apply map_ext_in.
      intros j _. destruct (block_width_spec j ls NL (HW j)) as (A & l & Hl & B). specialize (A l Hl). rewrite Z2Nat.id; [reflexivity|].
      specialize (HW j). rewrite Forall_forall in HW. specialize (HW l Hl). lia.
    + intros j w Hj. rewrite nth_error_map in Hj. destruct (nth_error (seq 0 (length cols - 1)) j) as [k|] eqn:EK; [|discriminate Hj].
      assert (LJ : (j < length cols - 1)%nat) by (rewrite <- (seq_length (length cols - 1) 0); apply nth_error_Some; congruence).
      assert (k = j) by (apply nth_error_nth with (d := O) in EK; rewrite seq_nth in EK by exact LJ; lia). subst k. injection Hj as <-.
      destruct (block_width_spec j ls NL (HW j)) as (A & l & Hl & B).
      assert (C : forall r s, nth_error r j = Some s -> ce_width (nth j (map cell_of r) no_cell) = Z.of_nat (RuneCount (codes s))).
      { intros r s X. change no_cell with (cell_of ""). rewrite map_nth. apply nth_error_nth with (d := EmptyString) in X. rewrite X. reflexivity. }
      split.
      * intros r s Hr Hs. specialize (A (map cell_of r, [10])). cbn [fst] in A. rewrite (C r s Hs) in A.
        assert (X : In (map cell_of r, [10]) ls) by (apply (in_map (fun r => (map cell_of r, [10]))); exact Hr). specialize (A X). lia.
      * unfold ls in Hl. apply in_map_iff in Hl. destruct Hl as (r & <- & Hr). rewrite Forall_forall in H. destruct (H r Hr) as (L & _).
        destruct (nth_error r j) as [s|] eqn:ES; [|apply nth_error_None in ES; lia]. exists r, s. split; [exact Hr|]. split; [exact ES|].
        cbn [fst] in B. rewrite (C r s ES) in B. rewrite B. lia.
Qed.

(** ** Reading it back *)

(** A reader of the text: the words of the first line say where the columns
    begin, every line is cut there, and the blanks at the end of a cell are dropped. *)
Fixpoint lines_of (cur t : list Z) : list (list Z) :=
  match t with [] => [] | c :: t => if c =? 10 then cur :: lines_of [] t else lines_of (cur ++ [c]) t end.
Fixpoint spans (blank : bool) (n : nat) (h : list Z) : list nat :=
  match h with
  | [] => [n]
  | c :: t => if c =? 32 then spans true (S n) t else if blank then n :: spans false 1 t else spans false (S n) t
  end.
Fixpoint trim (s : list Z) : list Z :=
  match s with
  | [] => []
  | c :: t => match trim t with [] => if c =? 32 then [] else [c] | t' => c :: t' end
  end.
Fixpoint cut (ws : list nat) (l : list Z) : list (list Z) :=
  match ws with
  | [] => []
  | [_] => [trim l]
  | w :: ws => trim (firstn w l) :: cut ws (skipn w l)
  end.
Definition read_table (t : list Z) : list (list (list Z)) :=
  match lines_of [] t with [] => [] | h :: ls => map (cut (spans false 0 h)) (h :: ls) end.

(** Column names without blanks, and cells of printable characters that do not end with a blank. *)
Definition name_ok (s : string) : Prop := s <> EmptyString /\ Forall (fun c => 32 < c < 127) (codes s).
Definition cell_text (s : string) : Prop := Forall (fun c => 32 <= c < 127) (codes s).
Definition cell_ok (s : string) : Prop := cell_text s /\ last (codes s) 0 <> 32.

Lemma lines_one l : forall cur r, Forall (fun c => c <> 10) l -> lines_of cur (l ++ 10 :: r) = (cur ++ l) :: lines_of [] r.
Proof.
  induction l as [|c l IH]; intros cur r H; [cbn; rewrite app_nil_r; reflexivity|]. inversion H; subst. cbn [lines_of app].
  replace (c =? 10) with false by lia. rewrite IH by assumption. rewrite <- app_assoc. reflexivity.
Qed.
Lemma lines_all {A} (f : A -> list Z) ls : Forall (fun x => Forall (fun c => c <> 10) (f x)) ls ->
  lines_of [] (flat_map (fun x => f x ++ [10]) ls) = map f ls.
Proof.
  induction ls as [|x ls IH]; intros H; [reflexivity|]. inversion H; subst. cbn [flat_map map]. rewrite <- app_assoc. cbn [app].
  rewrite lines_one by assumption. rewrite IH by assumption. reflexivity.
Qed.

Lemma trim_blanks n : trim (repeat 32 n) = [].
Proof. induction n as [|n IH]; [reflexivity|]. cbn [repeat trim]. rewrite IH. reflexivity. Qed.
Lemma trim_pad s n : trim (s ++ repeat 32 n) = trim s.
Proof. induction s as [|c s IH]; [apply trim_blanks|]. cbn [app trim]. rewrite IH. reflexivity. Qed.
Lemma trim_cell s n : last s 0 <> 32 -> trim (s ++ repeat 32 n) = s.
Proof.
  induction s as [|c s IH]; intros H; [apply trim_blanks|]. cbn [app trim].
  destruct s as [|c' s]; [cbn [app]; rewrite trim_blanks; cbn [last] in H; replace (c =? 32) with false by lia; reflexivity|].
  rewrite IH by exact H. reflexivity.
Qed.
Lemma trim_id s : last s 0 <> 32 -> trim s = s.
Proof. intros H. rewrite <- (app_nil_r s) at 1. exact (trim_cell s 0 H). Qed.

Lemma ascii_count s : Forall (fun c => 32 <= c < 127) s -> RuneCount s = length s.
Proof.
  unfold RuneCount. induction s as [|c s IH]; intros H; [reflexivity|]. inversion H as [|? ? Hc Hs]; subst. cbn [rune_count length].
  assert (E : rune_size c s = 1%nat) by (unfold rune_size, utf8_first; replace (c <? 0xC2) with true by lia; reflexivity).
  rewrite E. cbn [Nat.sub]. rewrite IH by exact Hs. reflexivity.
Qed.

(** The widths of the columns, but for the last: wider than their cells. *)
Fixpoint fits (ws : list nat) (row : list string) : Prop :=
  match row, ws with
  | [_], [] => True
  | s :: row, w :: ws => (length (codes s) < w)%nat /\ fits ws row
  | _, _ => False
  end.
Lemma laid_more w ws s s' row : laid (w :: ws) (s :: s' :: row) = codes s ++ repeat 32 (w - RuneCount (codes s)) ++ laid ws (s' :: row).
Proof. reflexivity. Qed.

Lemma cut_laid x row : forall ws, fits ws row -> Forall cell_text row -> cut (ws ++ [x]) (laid ws row) = map (fun s => trim (codes s)) row.
Proof.
  induction row as [|s row IH]; intros ws F H; [destruct ws; destruct F|]. inversion H as [|? ? H1 Hr]; subst.
  destruct ws as [|w ws].
  - destruct row; [|destruct F]. reflexivity.
  - destruct row as [|s' row]; [destruct F as (_ & F); destruct ws; destruct F|]. destruct F as (F1 & F2).
    rewrite laid_more, ascii_count by exact H1. cbn [app]. set (n := (w - length (codes s))%nat).
    assert (L : length (codes s ++ repeat 32 n) = w) by (rewrite app_length, repeat_length; unfold n; lia).
    assert (C : forall l, cut (w :: ws ++ [x]) l = trim (firstn w l) :: cut (ws ++ [x]) (skipn w l)) by (intros l; destruct ws; reflexivity).
    rewrite C, app_assoc. clearbody n. rewrite <- L. rewrite firstn_app, Nat.sub_diag, firstn_all, firstn_O, app_nil_r.
    rewrite skipn_app, skipn_all, Nat.sub_diag, skipn_O. cbn [app].
    rewrite trim_pad. rewrite IH by assumption. reflexivity.
Qed.

Lemma spans_word w : forall n r, Forall (fun c => 32 < c < 127) w -> spans false n (w ++ r) = spans false (n + length w) r.
Proof.
  induction w as [|c w IH]; intros n r H; [cbn; rewrite Nat.add_0_r; reflexivity|]. inversion H; subst. cbn [app spans length].
  replace (c =? 32) with false by lia. rewrite IH by assumption. f_equal. lia.
Qed.
Lemma spans_blanks k : forall b n r, spans b n (repeat 32 (S k) ++ r) = spans true (n + S k) r.
Proof.
  induction k as [|k IH]; intros b n r; [cbn; f_equal; lia|]. change (repeat 32 (S (S k)) ++ r) with (32 :: repeat 32 (S k) ++ r).
  cbn [spans]. change (32 =? 32) with true. cbv iota. rewrite IH. f_equal. lia.
Qed.
Lemma codes_ne s : s <> EmptyString -> exists c t, codes s = c :: t.
Proof. destruct s as [|c s]; [congruence|]. intros _. eexists _, _. reflexivity. Qed.
Lemma laid_head row ws : forall s t, row = s :: t -> name_ok s -> exists c l, laid ws row = c :: l /\ 32 < c.
Proof.
  intros s t -> (NE & H). destruct (codes_ne s NE) as (c & l & E). rewrite E in H. inversion H; subst. assert (32 < c) by lia.
  destruct t as [|s' t]; [cbn [laid]; rewrite E; eauto|]. destruct ws as [|w ws]; cbn [laid]; rewrite E; cbn [app]; eauto.
Qed.
Lemma spans_laid row : forall ws, fits ws row -> Forall name_ok row -> exists x, spans false 0 (laid ws row) = ws ++ [x].
Proof.
  induction row as [|s row IH]; intros ws F H; [destruct ws; destruct F|]. inversion H as [|? ? (H1 & H2) Hr]; subst.
  destruct ws as [|w ws].
  - destruct row; [|destruct F]. cbn [laid]. rewrite <- (app_nil_r (codes s)), spans_word by exact H2. cbn [spans app]. eauto.
  - destruct row as [|s' row]; [destruct F as (_ & F); destruct ws; destruct F|]. destruct F as (F1 & F2).
    rewrite laid_more. assert (H2' : Forall (fun c => 32 <= c < 127) (codes s)) by (eapply Forall_impl; [|exact H2]; intros c Hc; cbn beta in Hc; lia).
    rewrite ascii_count by exact H2'. rewrite spans_word by exact H2. replace (w - length (codes s))%nat with (S (w - length (codes s) - 1)) by lia.
    rewrite spans_blanks. destruct (IH ws F2 Hr) as (x & EX). exists x.
    inversion Hr as [|? ? HN' _]; subst. destruct (laid_head (s' :: row) ws s' row eq_refl HN') as (c & l & EL & LC). rewrite EL in *.
    cbn [spans] in *. replace (c =? 32) with false in * by lia. rewrite EX. cbn [app]. f_equal. lia.
Qed.

Lemma fits_of cols rows ws : length cols = S (length ws) -> Forall (fun r => length r = length cols) (cols :: rows) ->
  (forall j w r s, nth_error ws j = Some w -> In r (cols :: rows) -> nth_error r j = Some s -> (length (codes s) < w)%nat) ->
  forall r, In r (cols :: rows) -> fits ws r.
Proof.
  intros L HL H r Hr. assert (LR : length r = S (length ws)) by (rewrite Forall_forall in HL; rewrite (HL r Hr); exact L).
  assert (HF : forall j w s, nth_error ws j = Some w -> nth_error r j = Some s -> (length (codes s) < w)%nat) by (intros; eapply H; eassumption).
  clear -LR HF. revert ws LR HF. induction r as [|s r IH]; intros ws L H; [discriminate L|]. destruct ws as [|w ws].
  - destruct r; [exact I|discriminate L].
  - cbn [fits]. assert (G : (length (codes s) < w)%nat /\ fits ws r).
    { split; [exact (H O w s eq_refl eq_refl)|]. apply IH; [cbn [length] in L; lia|]. intros j. exact (H (S j)). }
    destruct r; exact G.
Qed.

Lemma text_unmarked s : cell_text s -> unmarked s.
Proof. intros H. unfold unmarked. eapply Forall_impl; [|exact H]. intros c Hc. unfold no_mark. cbn in Hc. lia. Qed.
Lemma name_cell s : name_ok s -> cell_ok s.
Proof.
  intros (NE & H). split; [eapply Forall_impl; [|exact H]; intros c Hc; cbn beta in Hc; lia|]. destruct (codes_ne s NE) as (c & t & E). rewrite E in *.
  assert (X : In (last (c :: t) 0) (c :: t)) by (clear; revert c; induction t as [|d t IH]; intros c; [left; reflexivity|right; apply IH]).
  rewrite Forall_forall in H. specialize (H _ X). cbv beta in H. lia.
Qed.
Lemma laid_chars row : forall ws, Forall cell_text row -> Forall (fun c => c <> 10) (laid ws row).
Proof.
  assert (B : forall s, cell_text s -> Forall (fun c => c <> 10) (codes s)) by (intros s H; eapply Forall_impl; [|exact H]; intros c Hc; cbn beta in Hc; lia).
  induction row as [|s row IH]; intros ws H; [constructor|]. inversion H as [|? ? Hs Hr]; subst.
  destruct row as [|s' row]; [exact (B s Hs)|]. destruct ws as [|w ws].
  - change (laid [] (s :: s' :: row)) with (codes s ++ laid [] (s' :: row)). apply Forall_app. split; [exact (B s Hs)|exact (IH [] Hr)].
  - rewrite laid_more. apply Forall_app. split; [exact (B s Hs)|]. apply Forall_app. split; [|exact (IH ws Hr)].
    apply Forall_forall. intros c X. apply repeat_spec in X. lia.
Qed.

(** Whoever reads the text by its columns gets the table, but for blanks at the end of cells. *)
Theorem C97_read_back : forall cols rows, cols <> [] -> Forall name_ok cols ->
  Forall (fun r => length r = length cols /\ Forall cell_text r) rows ->
  read_table (Output (mkTable cols rows)) = map (map (fun s => trim (codes s))) (cols :: rows).
Proof.
  intros cols rows NE HN HR.
  assert (HA : Forall (fun r => length r = length cols /\ Forall cell_text r) (cols :: rows)).
  { constructor; [split; [reflexivity|]|exact HR]. eapply Forall_impl; [|exact HN]. intros s Hs. apply name_cell in Hs. apply Hs. }
  destruct (C97_layout cols rows) as (ws & L & E & W).
  { split; [exact NE|]. eapply Forall_impl; [|exact HA]. intros r (A & B). split; [exact A|]. eapply Forall_impl; [|exact B]. exact text_unmarked. }
  assert (F : forall r, In r (cols :: rows) -> fits ws r).
  { apply fits_of; [exact L|eapply Forall_impl; [|exact HA]; intros r (A & _); exact A|].
    intros j w r s Hj Hr Hs. destruct (W j w Hj) as (W1 & _). specialize (W1 r s Hr Hs). rewrite ascii_count in W1; [exact W1|].
    rewrite Forall_forall in HA. destruct (HA r Hr) as (_ & B). rewrite Forall_forall in B. exact (B s (nth_error_In _ _ Hs)). }
  rewrite E. unfold read_table. rewrite lines_all.
  - destruct (spans_laid cols ws (F cols (or_introl eq_refl)) HN) as (x & EX). cbn [map]. rewrite EX.
    rewrite Forall_forall in HA. rewrite cut_laid; [|apply F; left; reflexivity|apply (HA cols); left; reflexivity]. f_equal. rewrite map_map. apply map_ext_in. intros r Hr.
    apply cut_laid; [apply F; right; exact Hr|apply (HA r); right; exact Hr].
  - eapply Forall_impl; [|exact HA]. intros r (_ & B). apply laid_chars, B.
Qed.
(** Exactly the table, if no cell ends with a blank. *)
Lemma trim_rows (rs : list (list string)) : Forall (Forall cell_ok) rs -> map (map (fun s => trim (codes s))) rs = map (map codes) rs.
Proof.
  intros H. apply map_ext_in. intros r Hr. apply map_ext_in. intros s Hs. rewrite Forall_forall in H. specialize (H r Hr). rewrite Forall_forall in H. apply trim_id, H, Hs.
Qed.
Theorem C97_exact : forall cols rows, cols <> [] -> Forall name_ok cols ->
  Forall (fun r => length r = length cols /\ Forall cell_ok r) rows ->
  read_table (Output (mkTable cols rows)) = map (map codes) (cols :: rows).
Proof.
  intros cols rows NE HN HR. rewrite C97_read_back; [|assumption..|].
  - apply trim_rows. constructor; [eapply Forall_impl; [|exact HN]; exact name_cell|]. eapply Forall_impl; [|exact HR]. intros r (_ & X). exact X.
  - eapply Forall_impl; [|exact HR]. intros r (L & X). split; [exact L|]. eapply Forall_impl; [|exact X]. intros s Y. apply Y.
Qed.

Lemma codes_inj s : forall s', codes s = codes s' -> s = s'.
Proof.
  induction s as [|c s IH]; intros [|c' s'] H; try discriminate H; [reflexivity|]. unfold codes in *. cbn [list_ascii_of_string map] in H.
  injection H as H1 H2. f_equal; [|apply IH, H2]. unfold char_code in H1. apply N2Z.inj in H1. rewrite <- (ascii_N_embedding c), <- (ascii_N_embedding c'), H1. reflexivity.
Qed.
Lemma map_inj {A B} (f : A -> B) : (forall x y, f x = f y -> x = y) -> forall l l', map f l = map f l' -> l = l'.
Proof.
  intros H. induction l as [|x l IH]; intros [|y l'] E; try discriminate E; [reflexivity|]. injection E as E1 E2. f_equal; auto.
Qed.
Lemma rows_inj (a b : list (list string)) : map (map codes) a = map (map codes) b -> a = b.
Proof. apply map_inj, map_inj, codes_inj. Qed.

(** So two tables printed alike are the same. *)
Theorem C97_determined : forall cols rows cols' rows', cols <> [] -> cols' <> [] -> Forall name_ok cols -> Forall name_ok cols' ->
  Forall (fun r => length r = length cols /\ Forall cell_ok r) rows -> Forall (fun r => length r = length cols' /\ Forall cell_ok r) rows' ->
  Output (mkTable cols rows) = Output (mkTable cols' rows') -> cols = cols' /\ rows = rows'.
Proof.
  intros cols rows cols' rows' N N' H H' R R' E. pose proof (C97_exact cols rows N H R) as A. rewrite E, C97_exact in A by assumption.
  apply rows_inj in A. injection A as -> ->. split; reflexivity.
Qed.

(** ** The get command *)

Ltac each := repeat apply Forall_cons; try apply Forall_nil.

Lemma codes_text l : codes (text l) = map char_code l.
Proof. unfold codes. rewrite PropsCmd.text_chars. reflexivity. Qed.
Lemma codes_app a b : codes (a ++ b)%string = codes a ++ codes b.
Proof. unfold codes. rewrite PropsCmd.string_app_chars. apply map_app. Qed.

(** Digits and letters. *)
Definition inked (s : string) : Prop := Forall (fun c => 32 < c < 127) (codes s).
Lemma inked_cell s : inked s -> cell_ok s.
Proof.
  intros H. destruct s as [|c s]; [split; [constructor|cbn; lia]|]. apply name_cell. split; [discriminate|exact H].
Qed.
Lemma inked_app a b : inked a -> inked b -> inked (a ++ b)%string.
Proof. intros A B. unfold inked. rewrite codes_app. apply Forall_app. split; assumption. Qed.
Lemma digit_inked d : 0 <= d < 16 -> 32 < char_code (upper_digit d) < 127 /\ 32 < char_code (lower_digit d) < 127.
Proof.
  intros H. assert (G : forallb (fun d => (32 <? char_code (upper_digit d)) && (char_code (upper_digit d) <? 127) && (32 <? char_code (lower_digit d)) && (char_code (lower_digit d) <? 127))
    (map Z.of_nat (seq 0 16)) = true) by reflexivity.
  rewrite forallb_forall in G. specialize (G d). assert (I : In d (map Z.of_nat (seq 0 16))).
  { replace d with (Z.of_nat (Z.to_nat d)) by lia. apply in_map, in_seq. lia. }
  specialize (G I). lia.
Qed.
Lemma digits_inked l : Forall (fun d => 0 <= d < 16) l -> inked (text (map upper_digit l)).
Proof.
  intros H. unfold inked. rewrite codes_text, map_map. apply Forall_map. eapply Forall_impl; [|exact H]. intros d Hd. apply digit_inked, Hd.
Qed.
Lemma fmt_X_inked w v : printable v -> inked (fmt_X w v).
Proof. intros H. apply digits_inked. apply (digits_ok 16); [lia|exact H]. Qed.
Lemma fmt_d_inked v : printable v -> inked (fmt_d v).
Proof. intros H. apply digits_inked. apply (digits_ok 10 v 0); [lia|exact H]. Qed.
Lemma byte_digits b : is_byte b -> 0 <= b / 16 < 16 /\ 0 <= b mod 16 < 16.
Proof. unfold is_byte. intros H. split; [split; [apply Z.div_pos; lia|apply Z.div_lt_upper_bound; lia]|apply Z.mod_pos_bound; lia]. Qed.
Lemma fmt_bytes_inked l : is_bytes l -> inked (fmt_bytes l).
Proof.
  intros H. unfold inked, fmt_bytes. rewrite codes_text. induction H as [|b l Hb _ IH]; [constructor|]. destruct (byte_digits b Hb) as (A & B).
  cbn [flat_map app map]. constructor; [apply digit_inked, A|]. constructor; [apply digit_inked, B|exact IH].
Qed.
Lemma hex_inked l : is_bytes l -> inked (EncodeToString l).
Proof.
  intros H. unfold inked, EncodeToString. rewrite codes_text. induction H as [|b l Hb _ IH]; [constructor|]. destruct (byte_digits b Hb) as (A & B).
  cbn [flat_map app map]. constructor; [apply digit_inked, A|]. constructor; [apply digit_inked, B|exact IH].
Qed.
Lemma inked_literal s : forallb (fun c => (32 <? c) && (c <? 127)) (codes s) = true -> inked s.
Proof. intros H. apply Forall_forall. intros c Hc. rewrite forallb_forall in H. specialize (H c Hc). lia. Qed.

Lemma message_printed m : received m ->
  Forall name_ok (Columns [m]) /\ length (message_row m) = length (Columns [m]) /\ Forall cell_ok (message_row m).
Proof.
  intros H. destruct (received_header m H) as (A1 & A2 & A3 & A4 & A5 & A6 & _). pose proof (received_props m H) as HP.
  destruct (PropsCmd.ehd_bytes m H) as [HE1 HE2]. unfold is_byte in HE1, HE2. split; [|split].
  - rewrite PropsCmd.Columns_one by lia. apply Forall_app. split.
    + each; (split; [discriminate|apply inked_literal; vm_compute; reflexivity]).
    + apply Forall_forall. intros c Hc. apply PropsCmd.column_in in Hc as (n & Hn & HC). apply in_seq in Hn.
      destruct HC as [->|[->| ->]]; (split; [discriminate|apply inked_app; [apply inked_literal; vm_compute; reflexivity|apply fmt_d_inked; unfold printable; lia]]).
  - destruct (PropsCmd.C57_json m H) as (_ & _ & L). symmetry. exact L.
  - unfold message_row. apply Forall_app. split.
    + each; try (apply inked_cell, fmt_X_inked; unfold printable; lia). apply inked_cell, inked_app; apply fmt_X_inked; unfold printable; lia.
    + pose proof (PropsCmd.received_short m H) as HSh. clear -HP HSh. revert HSh. induction HP as [|p ps [P1 P2] _ IH]; intros HSh; [constructor|]. cbn [flat_map].
      inversion HSh as [|? ? S1 S2]; subst. apply Forall_app. split; [|exact (IH S2)]. unfold is_byte in P1.
      each; apply inked_cell; [apply fmt_X_inked; unfold printable; lia| |apply fmt_bytes_inked; exact P2].
      apply fmt_X_inked. unfold printable, pp_Size, len. lia.
Qed.

(** What get prints for a response can be read back, and determines every field of it. *)
Theorem C97_get : forall m, received m ->
  read_table (Output (message_table [m])) = [map codes (Columns [m]); map codes (message_row m)].
Proof.
  intros m H. destruct (message_printed m H) as (A & B & C). unfold message_table, Rows. cbn [map]. apply C97_exact; [discriminate|exact A|].
  constructor; [split; assumption|constructor].
Qed.
Theorem C97_get_determined : forall m m', received m -> received m' -> Output (message_table [m]) = Output (message_table [m']) ->
  TID m = TID m' /\ SEOJ m = SEOJ m' /\ DEOJ m = DEOJ m' /\ m_esv m = m_esv m' /\ OPC m = OPC m' /\ m_ep m = m_ep m'.
Proof.
  intros m m' H H' E. apply PropsCmd.C57_determined; [assumption..|]. pose proof (C97_get m H) as A. rewrite E, (C97_get m' H') in A.
  assert (X : [Columns [m']; message_row m'] = [Columns [m]; message_row m]) by (apply rows_inj; exact A). symmetry. congruence.
Qed.

(** ** The scan command *)

(** Names, addresses and error texts that are texts of a kind; those of the library are of the kinds above (C97_names, C97_addresses). *)
Definition tidy (P : string -> Prop) (env : scan_env) : Prop :=
  (forall ip, P (se_address env ip)) /\ (forall o, P (se_class_name env o)) /\ (forall o c, P (se_prop_name env o c)) /\
  (forall c s, se_manufacture env c = Some s -> P s) /\
  (forall n nd m, match se_post env n nd m with inl res => received res | inr e => P e end).

Definition object_shown (o : object) : Prop := printable (Code o) /\ Forall (fun p => printable (p_code p)) (Properties (o_props o)).
Definition node_shown (nd : rnode) : Prop :=
  printable (a_port (rn_addr nd)) /\ Forall object_shown (rn_devices nd ++ rn_profiles nd).

Section Rows.
Variable P : string -> Prop.
Hypothesis HP0 : forall s, inked s -> P s.

Lemma literal_P s : forallb (fun c => (32 <? c) && (c <? 127)) (codes s) = true -> P s.
Proof. intros H. apply HP0, inked_literal, H. Qed.

Lemma object_cells_ok env man nd o : tidy P env -> P man -> printable (a_port (rn_addr nd)) -> printable (Code o) ->
  Forall P (object_cells env man nd o).
Proof.
  intros (T1 & T2 & _) HM HP HC. unfold object_cells, object_name. each; try apply T1; try exact HM.
  - apply HP0, fmt_d_inked, HP.
  - apply HP0, fmt_X_inked, HC.
  - destruct (is_blank (se_class_name env o)); [apply literal_P; reflexivity|apply T2].
Qed.
Lemma property_data_ok env n nd o p : tidy P env -> P (snd (property_data env n nd o p)).
Proof.
  intros (_ & _ & _ & _ & T). unfold property_data. destruct (IsReadRequired p); [|apply literal_P; reflexivity]. cbn [snd].
  specialize (T n nd (read_message (Code o) (p_code p))). destruct (se_post env n nd _) as [res|e]; [|exact T].
  pose proof (received_props res T) as HP. destruct (m_ep res) as [|q [|]]; try (apply literal_P; reflexivity). inversion HP as [|? ? (_ & B) _]; subst.
  apply HP0, hex_inked, B.
Qed.
Lemma rule_ok p : P (rule_text p).
Proof. unfold rule_text. apply HP0. destruct (p_get p), (p_set p), (p_anno p); apply inked_literal; reflexivity. Qed.

Lemma property_rows_ok env man nd o ps : tidy P env -> P man -> printable (a_port (rn_addr nd)) -> printable (Code o) ->
  Forall (fun p => printable (p_code p)) ps ->
  forall n, Forall (fun r => length r = 9%nat /\ Forall P r) (snd (property_rows env n man nd o ps)).
Proof.
  intros T HM HP HC. induction ps as [|p ps IH]; intros HF n; [constructor|]. inversion HF as [|? ? Hp Hr]; subst. cbn [property_rows].
  pose proof (property_data_ok env n nd o p T) as HD. destruct (property_data env n nd o p) as [n1 data]. specialize (IH Hr n1).
  destruct (property_rows env n1 man nd o ps) as [n2 rows]. cbn [snd] in *. constructor; [|exact IH]. split; [reflexivity|].
  apply Forall_app. split; [apply object_cells_ok; assumption|]. each; try exact HD.
  - apply HP0, fmt_X_inked, Hp.
  - unfold property_name. destruct (is_blank (se_prop_name env o (p_code p))); [apply literal_P; reflexivity|]. destruct T as (_ & _ & T & _). apply T.
  - apply rule_ok.
Qed.
Lemma object_rows_ok env details man nd os : tidy P env -> P man -> printable (a_port (rn_addr nd)) -> Forall object_shown os ->
  forall n, Forall (fun r => length r = length (scan_columns details) /\ Forall P r) (snd (object_rows env details n man nd os)).
Proof.
  intros T HM HP. induction os as [|o os IH]; intros HF n; [constructor|]. inversion HF as [|? ? (O1 & O2) Hr]; subst. cbn [object_rows].
  assert (G : Forall (fun r => length r = length (scan_columns details) /\ Forall P r)
    (snd (if details then property_rows env n man nd o (Properties (o_props o)) else (n, [object_cells env man nd o])))).
  { destruct details; [apply property_rows_ok; assumption|]. cbn [snd]. constructor; [|constructor]. split; [reflexivity|apply object_cells_ok; assumption]. }
  destruct (if details then _ else _) as [n1 mine]. specialize (IH Hr n1). destruct (object_rows env details n1 man nd os) as [n2 rows]. cbn [snd] in *.
  apply Forall_app. split; assumption.
Qed.
Lemma node_rows_ok env details address nodes : tidy P env -> Forall node_shown nodes ->
  forall n, Forall (fun r => length r = length (scan_columns details) /\ Forall P r) (node_rows env details address n nodes).
Proof.
  intros T. induction nodes as [|nd nodes IH]; intros HF n; [constructor|]. inversion HF as [|? ? (N1 & N2) Hr]; subst. cbn [node_rows].
  destruct (negb (is_blank address) && _); [apply IH, Hr|]. cbv zeta.
  assert (HM : P (manufacture_name env n nd)).
  { destruct (PropsScan.man_cases env n nd) as [->|(c & E)]; [apply literal_P; reflexivity|]. destruct T as (_ & _ & _ & T & _). exact (T c _ E). }
  pose proof (object_rows_ok env details (manufacture_name env n nd) nd _ T HM N1 N2 (S n)) as G.
  destruct (object_rows env details (S n) (manufacture_name env n nd) nd (rn_devices nd ++ rn_profiles nd)) as [n1 mine]. cbn [snd] in G.
  apply Forall_app. split; [exact G|apply IH, Hr].
Qed.

(** Hiding repeated cells leaves cells that can be printed. *)
Lemma blank_P : P EmptyString.
Proof. apply literal_P. reflexivity. Qed.
Definition row_fine (n : nat) (r : list string) : Prop := length r = n /\ Forall P r.
Lemma hide_row_fine k : forall prev r n, row_fine n r -> row_fine n (CmdTable.hide_row k prev r).
Proof.
  induction k as [|k IH]; intros prev r n H; [exact H|]. cbn [CmdTable.hide_row]. destruct prev as [|p prev], r as [|x r]; try exact H.
  destruct (String.eqb x p); [|exact H]. destruct H as (L & F). inversion F as [|? ? _ F']; subst.
  destruct (IH prev r (length r) (conj eq_refl F')) as (L' & G). split; [cbn [length]; rewrite L'; reflexivity|constructor; [exact blank_P|exact G]].
Qed.
Lemma hide_all_fine k n rows : Forall (row_fine n) rows -> Forall (row_fine n) (CmdTable.hide_all k rows).
Proof.
  destruct rows as [|r rows]; [auto|]. intros H. inversion H as [|? ? Hr Hs]; subst. cbn [CmdTable.hide_all]. constructor; [exact Hr|].
  clear H Hr. revert r. induction Hs as [|s rows Hs _ IH]; intros r; [constructor|]. cbn [CmdTable.hide_rows]. constructor; [apply hide_row_fine, Hs|apply IH].
Qed.
Lemma filter_Forall {A} (Q : A -> Prop) f l : Forall Q l -> Forall Q (filter f l).
Proof. intros H. apply Forall_forall. intros x Hx. apply filter_In in Hx. rewrite Forall_forall in H. apply H, Hx. Qed.
End Rows.

Lemma scan_names details : Forall name_ok (scan_columns details).
Proof. destruct details; unfold scan_columns; cbn [app]; each; (split; [discriminate|apply inked_literal; vm_compute; reflexivity]). Qed.

Lemma scan_rows (P : string -> Prop) env ct details address : (forall s, inked s -> P s) -> tidy P env -> PropsScan.named env -> Forall node_shown (ct_found ct) ->
  exists shown, scan_table env ct details address = Ok (mkTable (scan_columns details) shown) /\
    Forall (fun r => length r = length (scan_columns details) /\ Forall P r) shown.
Proof.
  intros HP T HN HS. unfold scan_table, DiscoveredNodeTable.
  destruct (PropsScan.scan_full env ct details address HN) as (HF & _). unfold DiscoveredNodeTable in HF. cbn [t_rows] in HF.
  change [0; 1; 2; 3; 4] with (map Z.of_nat (seq 0 5)). rewrite (CmdTable.Hide_spec _ _ 5 HF). eexists. split; [reflexivity|].
  apply filter_Forall, (hide_all_fine P HP). apply (node_rows_ok P HP); assumption.
Qed.

(** The text printed by scan gives back the table, with the repeated cells left blank. *)
Theorem C97_scan : forall env ct details address, tidy cell_text env -> PropsScan.named env -> Forall node_shown (ct_found ct) ->
  exists shown, scan_table env ct details address = Ok (mkTable (scan_columns details) shown) /\
    read_table (Output (mkTable (scan_columns details) shown)) = map (map (fun s => trim (codes s))) (scan_columns details :: shown).
Proof.
  intros env ct details address T HN HS. destruct (scan_rows cell_text env ct details address) as (shown & E & R); [|assumption..|].
  - intros s H. apply inked_cell in H. apply H.
  - exists shown. split; [exact E|]. apply C97_read_back; [discriminate|apply scan_names|exact R].
Qed.
(** With details: whoever fills the blank cells from the row above has all rows. *)
Theorem C97_scan_details : forall env ct address, tidy cell_ok env -> PropsScan.named env -> Forall node_shown (ct_found ct) ->
  exists t shown, scan_table env ct true address = Ok t /\
    read_table (Output t) = map (map codes) (scan_columns true :: shown) /\
    CmdTable.fill_down 5 shown = t_rows (DiscoveredNodeTable env ct true address).
Proof.
  intros env ct address T HN HS. destruct (scan_rows cell_ok env ct true address inked_cell T HN HS) as (shown & E & R).
  destruct (PropsScan.C52_scan_details env ct address HN) as (shown' & E' & F). rewrite E in E'. injection E' as <-.
  exists (mkTable (scan_columns true) shown), shown. split; [exact E|]. split; [|exact F]. apply C97_exact; [discriminate|apply scan_names|exact R].
Qed.
Theorem C97_scan_determined : forall env ct env' ct' address address' t t',
  tidy cell_ok env -> PropsScan.named env -> Forall node_shown (ct_found ct) -> tidy cell_ok env' -> PropsScan.named env' -> Forall node_shown (ct_found ct') ->
  scan_table env ct true address = Ok t -> scan_table env' ct' true address' = Ok t' -> Output t = Output t' ->
  t_rows (DiscoveredNodeTable env ct true address) = t_rows (DiscoveredNodeTable env' ct' true address').
Proof.
  intros env ct env' ct' address address' t t' T HN HS T' HN' HS' E E' EO.
  destruct (C97_scan_details env ct address T HN HS) as (u & shown & U & R & F). rewrite E in U. injection U as <-.
  destruct (C97_scan_details env' ct' address' T' HN' HS') as (u & shown' & U & R' & F'). rewrite E' in U. injection U as <-.
  rewrite EO, R' in R. apply rows_inj in R. injection R as R. rewrite <- F, <- F', R. reflexivity.
Qed.

(** The nodes a controller has found can be shown, whatever it received from peers with a port. *)
Definition event_shown (ev : PropsRemote.ctrl_event) : Prop :=
  match ev with PropsRemote.Receives _ m => received m /\ 0 <= a_port (m_from m) < 65536 | PropsRemote.Clears => True end.
Lemma created_shown o : PropsObject.created o -> object_shown o.
Proof.
  intros H. apply PropsNode.created_ok in H. destruct H as (C & W & F). split.
  - destruct C as (L & B). unfold Code, printable. rewrite ByteToInteger_spec by exact B. apply Z.mod_pos_bound. lia.
  - apply Forall_forall. intros p Hp. rewrite Forall_forall in F. destruct (F p) as (B & _); [|unfold is_byte in B; unfold printable; lia]. apply (PropertyFacts.Properties_In _ p W). exact Hp.
Qed.
Theorem C97_found : forall conf evs, Forall event_shown evs -> Forall node_shown (ct_found (PropsRemote.ctrl_run conf evs newCtrl)).
Proof.
  intros conf evs. assert (G : forall ct, Forall event_shown evs -> Forall node_shown (ct_found ct) -> Forall node_shown (ct_found (PropsRemote.ctrl_run conf evs ct))); [|intros H; apply G; [exact H|constructor]].
  induction evs as [|ev evs IH]; intros ct HE HC; [exact HC|]. inversion HE as [|? ? E1 E2]; subst. cbn [PropsRemote.ctrl_run fold_left]. apply IH; [exact E2|].
  destruct ev as [nd m|]; [|constructor]. destruct E1 as (R & P). cbn [PropsRemote.ctrl_step].
  destruct (PropsRemote.C38_step conf nd ct m R) as [(n & (_ & _ & codes & IL & _ & D) & F & _)|(_ & F & _)]; rewrite F; [|exact HC].
  apply Forall_app. split; [exact HC|]. constructor; [|constructor]. destruct D as (DA & DD & ps & DP & DF). split.
  - rewrite DA. unfold PropsRemote.sender, printable. cbn [a_port]. destruct (cc_auto conf); lia.
  - assert (HB : Forall is_bytes codes).
    { destruct IL as (p & rest & trailing & _ & EP & _ & ED & _). pose proof (received_props m R) as HP. rewrite EP in HP. inversion HP as [|? ? (_ & HD) _]; subst.
      rewrite ED in HD. inversion HD as [|? ? _ HD']; subst. apply Forall_app in HD'. destruct HD' as (HD' & _). clear -HD'.
      induction codes as [|c codes IH]; [constructor|]. cbn [concat] in HD'. apply Forall_app in HD'. destruct HD' as (A & B). constructor; [exact A|apply IH, B]. }
    assert (HL : Forall (fun c => length c = 3%nat) codes) by (destruct IL as (p & rest & trailing & _ & _ & _ & _ & X); exact X).
    assert (V : forall f, Forall (fun c => 0 <= be_value c < 2 ^ 64) (filter f codes)).
    { intros f. apply filter_Forall, Forall_forall. intros c Hc. rewrite Forall_forall in HB, HL. pose proof (be_value_bound c (HB c Hc)) as X. rewrite (HL c Hc) in X. lia. }
    assert (NP : object_shown np_object).
    { apply created_shown, PropsObject.created_node_profile. apply NewNodeProfile_spec. }
    rewrite DP. clear DP. apply Forall_app. split; [|constructor; [exact NP|apply Forall_app; split; [|constructor; [exact NP|constructor]]]].
    + specialize (V (fun c => negb (is_profile c))). induction DD as [|c o cs os (_ & E) _ IHo]; [constructor|]. inversion V; subst.
      constructor; [eapply created_shown, PropsObject.created_device; eassumption|apply IHo; assumption].
    + specialize (V is_profile). induction DF as [|c o cs os (_ & E) _ IHo]; [constructor|]. inversion V; subst.
      constructor; [eapply created_shown, PropsObject.created_profile; eassumption|apply IHo; assumption].
Qed.

(** ** The texts of the library *)

Definition cell_okb (s : string) : bool := forallb (fun c => (32 <=? c) && (c <? 127)) (codes s) && negb (last (codes s) 0 =? 32).
Lemma cell_okb_ok s : cell_okb s = true -> cell_ok s.
Proof.
  intros H. apply andb_prop in H. destruct H as (A & B). split; [|lia]. apply Forall_forall. intros c Hc. rewrite forallb_forall in A. specialize (A c Hc). lia.
Qed.
(** All names of the standard classes and of their properties are such cells, and all names of manufacturers but one, which ends with a blank. *)
Theorem C97_names :
  (forall k, In k StdNames.name_table -> cell_ok (StdNames.nc_name k) /\ forall c s, In (c, s) (StdNames.nc_props k) -> cell_ok s) /\
  (forall c s, In (c, s) ManDB.man_table -> cell_text s /\ (cell_ok s <-> c <> 0x0000B0)).
Proof.
  split.
  - assert (G : forallb (fun k => cell_okb (StdNames.nc_name k) && forallb (fun e => cell_okb (snd e)) (StdNames.nc_props k)) StdNames.name_table = true) by (vm_compute; reflexivity).
    intros k Hk. rewrite forallb_forall in G. specialize (G k Hk). apply andb_prop in G. destruct G as (A & B). split; [apply cell_okb_ok, A|].
    intros c s Hs. rewrite forallb_forall in B. apply cell_okb_ok. exact (B (c, s) Hs).
  - assert (G : forallb (fun e => forallb (fun c => (32 <=? c) && (c <? 127)) (codes (snd e)) && Bool.eqb (last (codes (snd e)) 0 =? 32) (fst e =? 0x0000B0)) ManDB.man_table = true)
      by (vm_compute; reflexivity).
    intros c s Hs. rewrite forallb_forall in G. specialize (G (c, s) Hs). cbn [fst snd] in G. apply andb_prop in G. destruct G as (A & B).
    apply Bool.eqb_prop in B. assert (T : cell_text s) by (apply Forall_forall; intros x Hx; rewrite forallb_forall in A; specialize (A x Hx); lia).
    split; [exact T|]. unfold cell_ok. split; [intros (_ & X) Y; rewrite Y in B; lia|]. intros X. split; [exact T|]. lia.
Qed.
(** So are the texts of addresses. *)
Theorem C97_addresses : forall ip s, PropsAddress.an_ip ip -> codes s = AddressText.IP_String ip -> cell_ok s.
Proof.
  intros ip s HI E. apply inked_cell. unfold inked. rewrite E.
  destruct ip as [|b t] eqn:EI; [repeat (apply Forall_cons; [lia|]); apply Forall_nil|]. rewrite <- EI in *.
  destruct (PropsAddress.host_kind ip HI ltac:(congruence)) as [(H & _)|(H & _)]; (eapply Forall_impl; [|exact H]); intros c Hc.
  - unfold PropsAddress.is_digit in Hc. lia.
  - unfold PropsAddress.v6_char, PropsAddress.is_hex in Hc. lia.
Qed.

(** The conditions matter: a cell with a line break is printed as two rows, and a text ending with a blank is read back without it. *)
Theorem C97_marks_refuted :
  Output (mkTable ["a"; "b"] [["x" ++ newline ++ "y"; "z"]])%string = Output (mkTable ["a"; "b"] [["x"]; ["y"; "z"]])%string /\
  Output (mkTable ["a"; "b"] [["x"; "z"]; ["long"; "z"]])%string = Output (mkTable ["a"; "b"] [["x "; "z"]; ["long"; "z"]])%string.
Proof. vm_compute. split; reflexivity. Qed.

(** ** Examples *)

Definition shown_text (l : list Z) : string := string_of_list_ascii (map char_of l).
Example C97_example :
  shown_text (Output (mkTable ["node_address"; "node_port"; "object_code"]
    [["192.168.1.2"; "3610"; "029001"]; [""; ""; "0EF001"]; ["fe80::1"; "3610"; ""]])%string) =
  ("node_address node_port object_code" ++ newline ++ "192.168.1.2  3610      029001" ++ newline ++
   "                       0EF001" ++ newline ++ "fe80::1      3610      " ++ newline)%string.
Proof. vm_compute. reflexivity. Qed.
(** A response to a read request of two properties; the first came without data. *)
Definition ex_frame : list Z := [0x10; 0x81; 0; 7; 2; 0x90; 1; 0x0E; 0xF0; 1; 0x52; 2; 0x80; 0; 0x88; 1; 0x42].
Definition ex_message : message := match NewMessageWithBytes ex_frame with Ok m => SetPacketType (SetFrom m (mkAddress 1 3610)) 2 | _ => NewMessage end.
Example C97_applies : received ex_message /\
  shown_text (Output (message_table [ex_message])) =
  ("EHD  TID  SEOJ   DEOJ   ESV OPC EPC0 PDC0 EDT0 EPC1 PDC1 EDT1" ++ newline ++
   "1081 0007 029001 0EF001 52  02  80   00        88   01   42" ++ newline)%string.
Proof.
  split; [|vm_compute; reflexivity]. unfold ex_message. destruct (NewMessageWithBytes ex_frame) as [m| |] eqn:E; [|vm_compute in E; discriminate E..].
  exists ex_frame, m, (mkAddress 1 3610), 2. split; [|split; [exact E|reflexivity]].
  unfold ex_frame, is_bytes, is_byte. repeat (apply Forall_cons; [lia|]). apply Forall_nil.
Qed.
(** A scan of the example controller. *)
Example C97_scan_applies : tidy cell_ok PropsScan.ex_env /\ PropsScan.named PropsScan.ex_env /\ Forall node_shown (ct_found PropsScan.ex_found) /\
  option_map (fun t => shown_text (Output t)) (match scan_table PropsScan.ex_env PropsScan.ex_found false "" with Ok t => Some t | _ => None end) = Some
  ("node_address node_port manufacture object_code object_name" ++ newline ++
   "192.168.1.2  3610      unknown     029001      General lighting" ++ newline ++
   "                                   0EF001      Node profile" ++ newline)%string.
Proof.
  split; [|split; [|split]].
  - unfold tidy, PropsScan.ex_env. cbn [se_address se_class_name se_prop_name se_manufacture se_post].
    split; [intros; apply cell_okb_ok; reflexivity|]. split; [intros o; destruct (Code o =? 0x0EF001); apply cell_okb_ok; reflexivity|].
    split; [intros; apply cell_okb_ok; reflexivity|]. split; [intros c s X; discriminate X|intros; apply cell_okb_ok; reflexivity].
  - split; [intros ip; discriminate|intros c s X; discriminate X].
  - apply C97_found. constructor; [|constructor]. cbn [event_shown]. split; [|vm_compute; split; [discriminate|reflexivity]].
    apply PropsRemote.ex_received; [repeat constructor; discriminate|repeat constructor; discriminate|cbn; lia].
  - vm_compute. reflexivity.
Qed.

Print Assumptions C97_layout.
Print Assumptions C97_read_back.
Print Assumptions C97_exact.
Print Assumptions C97_determined.
Print Assumptions C97_get.
Print Assumptions C97_get_determined.
Print Assumptions C97_scan.
Print Assumptions C97_scan_details.
Print Assumptions C97_scan_determined.
Print Assumptions C97_found.
Print Assumptions C97_names.
Print Assumptions C97_addresses.
Print Assumptions C97_marks_refuted.

(** * Facts about the printed table, used by PropsTable *)
From Coq Require Import ZArith List Bool String Ascii Lia.
From Verif Require Import Go Cmd TabWriter.
Import ListNotations.
Local Open Scope Z_scope.

(** No byte that ends a cell or opens an escaped text. *)
Definition no_mark (c : Z) : Prop := c <> 9 /\ c <> 10 /\ c <> 11 /\ c <> 12 /\ c <> 255.
Definition unmarked (s : string) : Prop := Forall no_mark (codes s).
Definition cell_of (s : string) : cell := mkCell (codes s) (Z.of_nat (RuneCount (codes s))).

Lemma put_plain w c : w_escape w = false -> no_mark c -> put w c = append_byte w c.
Proof.
  intros E (H1 & H2 & H3 & H4 & H5). unfold put. rewrite E. replace (c =? 9) with false by lia. replace (c =? 10) with false by lia.
  replace (c =? 11) with false by lia. replace (c =? 12) with false by lia. replace (c =? 255) with false by lia. reflexivity.
Qed.
Lemma Write_plain s : forall w, w_escape w = false -> Forall no_mark s ->
  Write w s = mkWriter (w_lines w) (w_line w) (mkCell (ce_text (w_cell w) ++ s) (ce_width (w_cell w))) (w_uncounted w ++ s) false (w_out w).
Proof.
  induction s as [|c s IH]; intros w E H.
  - cbn [Write fold_left]. rewrite !app_nil_r. destruct w as [a b [t x] d e f]. cbn in *. subst e. reflexivity.
  - inversion H as [|? ? Hc Hs]; subst. change (Write w (c :: s)) with (Write (put w c) s). rewrite put_plain by assumption. rewrite IH; [|exact E|exact Hs].
    cbn [append_byte w_lines w_line w_cell ce_text ce_width w_uncounted w_out]. rewrite <- !app_assoc. reflexivity.
Qed.
Lemma Write_app w a b : Write w (a ++ b) = Write (Write w a) b.
Proof. apply fold_left_app. Qed.

Definition ready (ls : list (list cell)) (l : list cell) (out : list Z) : writer := mkWriter ls l no_cell [] false out.

Lemma Write_cell ls l out s : unmarked s -> Write (ready ls l out) (codes s ++ [9]) = ready ls (l ++ [cell_of s]) out.
Proof. intros H. rewrite Write_app, (Write_plain (codes s)) by (reflexivity || exact H). reflexivity. Qed.
Lemma Write_last ls l out s : unmarked s -> l <> [] -> Write (ready ls l out) (codes s ++ [10]) = ready (ls ++ [l ++ [cell_of s]]) [] out.
Proof.
  intros H N. rewrite Write_app, (Write_plain (codes s)) by (reflexivity || exact H). cbn [Write fold_left put ready w_escape]. change (10 =? 9) with false.
  change (10 =? 11) with false. change (10 =? 10) with true. change (10 =? 12) with false. cbn [orb].
  cbn [updateWidth terminateCell addLine ready w_lines w_line w_cell w_uncounted w_escape w_out ce_text ce_width no_cell app].
  replace (Nat.eqb (length (l ++ [mkCell (codes s) (0 + Z.of_nat (RuneCount (codes s)))])) 1) with false; [reflexivity|].
  symmetry. apply Nat.eqb_neq. rewrite app_length. destruct l; [congruence|cbn; lia].
Qed.

Lemma printRow_more row : forall ls l out, row <> [] -> (l <> [] \/ (2 <= length row)%nat) -> Forall unmarked row ->
  printRow (ready ls l out) row = ready (ls ++ [l ++ map cell_of row]) [] out.
Proof.
  induction row as [|s row IH]; intros ls l out NE H HU; [congruence|]. inversion HU as [|? ? Hs Hr]; subst.
  destruct row as [|s' row].
  - cbn [printRow map]. apply Write_last; [exact Hs|]. destruct H as [H|H]; [exact H|cbn in H; lia].
  - change (printRow (ready ls l out) (s :: s' :: row)) with (printRow (Write (ready ls l out) (codes s ++ [9])) (s' :: row)).
    rewrite Write_cell by exact Hs. rewrite IH; [|discriminate|left; destruct l; discriminate|exact Hr]. rewrite <- app_assoc. reflexivity.
Qed.
Lemma printRow_one s out : unmarked s -> printRow (ready [] [] out) [s] = ready [] [] (out ++ codes s ++ [10]).
Proof.
  intros H. cbn [printRow]. rewrite Write_app, (Write_plain (codes s)) by (reflexivity || exact H). cbn [Write fold_left put ready w_escape]. change (10 =? 9) with false.
  change (10 =? 11) with false. change (10 =? 10) with true. change (10 =? 12) with false. cbn [orb].
  cbn [updateWidth terminateCell addLine w_lines w_line w_cell w_uncounted w_escape w_out ce_text ce_width no_cell app length Nat.eqb].
  unfold Flush. cbn [w_cell ce_text no_cell w_lines w_line map app fst length fold_right Nat.max w_out format].
  unfold fresh, ready. f_equal. cbn [blocks has_column fst length Nat.sub Nat.ltb Nat.leb Bool.eqb flat_map app writeLines write_cells snd].
  cbn. rewrite !app_nil_r. reflexivity.
Qed.

(** ** The blocks of a table with rows of equal length *)

Lemma blocks_all p ls : forall b, ls <> [] -> Forall (fun l => p l = b) ls -> blocks p ls = [(b, ls)].
Proof.
  induction ls as [|l ls IH]; intros b NE H; [congruence|]. inversion H as [|? ? Hl Hr]; subst. cbn [blocks].
  destruct ls as [|l' ls]; [reflexivity|]. rewrite (IH (p l)) by (discriminate || exact Hr). rewrite Bool.eqb_reflx. reflexivity.
Qed.
Lemma blocks_last p ls z : ls <> [] -> Forall (fun l => p l = true) ls -> p z = false -> blocks p (ls ++ [z]) = [(true, ls); (false, [z])].
Proof.
  induction ls as [|l ls IH]; intros NE H HZ; [congruence|]. inversion H as [|? ? Hl Hr]; subst. cbn [blocks app].
  destruct ls as [|l' ls]; [cbn [app blocks]; rewrite Hl, HZ; reflexivity|]. rewrite IH by (discriminate || assumption). rewrite Hl. reflexivity.
Qed.

Lemma format_rows n ls : ls <> [] -> Forall (fun l : line => length (fst l) = n) ls ->
  forall d widths, (length widths <= n - 1)%nat -> (n - 1 - length widths <= d)%nat ->
  format d widths ls = writeLines (widths ++ map (fun j => block_width j ls) (seq (length widths) (n - 1 - length widths))) ls.
Proof.
  intros NE HL. induction d as [|d IH]; intros widths H1 H2.
  - replace (n - 1 - length widths)%nat with O by lia. cbn [seq map format]. rewrite app_nil_r. reflexivity.
  - cbn [format]. destruct (Nat.eq_dec (length widths) (n - 1)) as [E|E].
    + replace (n - 1 - length widths)%nat with O by lia. cbn [seq map]. rewrite app_nil_r. rewrite (blocks_all _ ls false NE).
      * cbn [flat_map]. apply app_nil_r.
      * eapply Forall_impl; [|exact HL]. intros l Hl. unfold has_column. rewrite Hl. apply Nat.ltb_ge. lia.
    + rewrite (blocks_all _ ls true NE).
      * cbn [flat_map]. rewrite app_nil_r, IH by (rewrite app_length; cbn; lia). rewrite app_length. cbn [length].
        replace (n - 1 - length widths)%nat with (S (n - 1 - (length widths + 1))) by lia. cbn [seq map]. rewrite <- app_assoc. cbn [app].
        replace (length widths + 1)%nat with (S (length widths)) by lia. reflexivity.
      * eapply Forall_impl; [|exact HL]. intros l Hl. unfold has_column. rewrite Hl. apply Nat.ltb_lt. lia.
Qed.

Lemma Output_rows n cols rows : (2 <= n)%nat -> Forall (fun r => length r = n /\ Forall unmarked r) (cols :: rows) ->
  Output (mkTable cols rows) =
  writeLines (map (fun j => block_width j (map (fun r => (map cell_of r, [10])) (cols :: rows))) (seq 0 (n - 1)))
             (map (fun r => (map cell_of r, [10])) (cols :: rows)).
Proof.
  intros Hn H. unfold Output. cbn [t_columns t_rows]. remember (cols :: rows) as all eqn:EA. assert (NE : all <> []) by (subst; discriminate). clear EA cols rows.
  assert (P : forall rs ls, Forall (fun r => length r = n /\ Forall unmarked r) rs ->
    fold_left printRow rs (ready ls [] []) = ready (ls ++ map (map cell_of) rs) [] []).
  { induction rs as [|r rs IH]; intros ls HF; [cbn; rewrite app_nil_r; reflexivity|]. inversion HF as [|? ? (L & U) HF']; subst. cbn [fold_left map].
    rewrite printRow_more; [|destruct r; [cbn in Hn; lia|discriminate]|right; lia|exact U]. rewrite IH by exact HF'. rewrite <- app_assoc. reflexivity. }
  change (fresh []) with (ready [] [] []). rewrite P by exact H. cbn [app]. unfold Flush. cbn [ready w_cell no_cell ce_text w_lines w_line w_out fresh app].
  rewrite !map_map. set (ls := map (fun r => (map cell_of r, [10])) all).
  assert (HL : Forall (fun l : line => length (fst l) = n) ls).
  { unfold ls. apply Forall_map. eapply Forall_impl; [|exact H]. intros r (L & _). cbn [fst]. rewrite map_length. exact L. }
  assert (NL : ls <> []) by (unfold ls; destruct all; [congruence|discriminate]).
  rewrite map_app. cbn [map fst length]. set (depth := fold_right Nat.max O _).
  assert (D : (n <= depth)%nat).
  { unfold depth. destruct ls as [|l ls']; [congruence|]. inversion HL; subst. cbn [map app fold_right]. lia. }
  clearbody depth. destruct depth as [|d]; [lia|]. cbn [format length]. rewrite blocks_last; [|exact NL| |reflexivity].
  - cbn [flat_map app length]. rewrite (format_rows n ls NL HL d [block_width 0 ls]) by (cbn; lia). cbn [writeLines flat_map write_cells fst snd app length].
    rewrite app_nil_r. f_equal. replace (n - 1)%nat with (S (n - 1 - 1)) at 2 by lia. reflexivity.
  - eapply Forall_impl; [|exact HL]. intros l Hl. unfold has_column. rewrite Hl. apply Nat.ltb_lt. lia.
Qed.
Lemma Output_single cols rows : Forall (fun r => length r = 1%nat /\ Forall unmarked r) (cols :: rows) ->
  Output (mkTable cols rows) = flat_map (fun r => flat_map codes r ++ [10]) (cols :: rows).
Proof.
  intros H. unfold Output. cbn [t_columns t_rows]. remember (cols :: rows) as all eqn:EA. clear EA cols rows. change (fresh []) with (ready [] [] []).
  assert (P : forall rs out, Forall (fun r => length r = 1%nat /\ Forall unmarked r) rs ->
    fold_left printRow rs (ready [] [] out) = ready [] [] (out ++ flat_map (fun r => flat_map codes r ++ [10]) rs)).
  { induction rs as [|r rs IH]; intros out HF; [cbn; rewrite app_nil_r; reflexivity|]. inversion HF as [|? ? (L & U) HF']; subst. cbn [fold_left].
    destruct r as [|s [|]]; try discriminate L. inversion U; subst. rewrite printRow_one by assumption. rewrite IH by exact HF'. cbn [flat_map].
    rewrite app_nil_r, <- app_assoc. reflexivity. }
  rewrite P by exact H. cbn [app]. unfold Flush, ready. cbn [w_cell no_cell ce_text w_lines w_line w_out fresh map app fst length fold_right Nat.max format writeLines flat_map write_cells snd].
  rewrite !app_nil_r. reflexivity.
Qed.

(** ** Widths *)

Lemma block_width_spec j ls : ls <> [] -> Forall (fun l : line => 0 <= ce_width (nth j (fst l) no_cell)) ls ->
  (forall l, In l ls -> ce_width (nth j (fst l) no_cell) < block_width j ls) /\
  exists l, In l ls /\ block_width j ls = ce_width (nth j (fst l) no_cell) + 1.
Proof.
  intros NE H. unfold block_width.
  assert (G : forall ls w, 0 <= w -> Forall (fun l : line => 0 <= ce_width (nth j (fst l) no_cell)) ls ->
    let r := fold_left (fun width l => let w := ce_width (nth j (fst l) no_cell) + 1 in if width <? w then w else width) ls w in
    w <= r /\ (forall l, In l ls -> ce_width (nth j (fst l) no_cell) < r) /\ (r = w \/ exists l, In l ls /\ r = ce_width (nth j (fst l) no_cell) + 1)).
  { clear. induction ls as [|l ls IH]; intros w Hw HF; [cbn; repeat split; [lia|intros l []|left; reflexivity]|]. inversion HF as [|? ? Hl HF']; subst.
    cbv zeta in IH |- *. cbn [fold_left]. destruct (w <? ce_width (nth j (fst l) no_cell) + 1) eqn:E.
    - destruct (IH (ce_width (nth j (fst l) no_cell) + 1) ltac:(lia) HF') as (A & B & C). split; [lia|]. split.
      + intros m [->|M]; [lia|exact (B m M)].
      + right. destruct C as [C|(m & M & C)]; [exists l; split; [left; reflexivity|exact C]|exists m; split; [right; exact M|exact C]].
    - destruct (IH w Hw HF') as (A & B & C). split; [exact A|]. split.
      + intros m [->|M]; [lia|exact (B m M)].
      + destruct C as [C|(m & M & C)]; [left; exact C|right; exists m; split; [right; exact M|exact C]]. }
  cbv zeta in G. destruct (G ls 0 ltac:(lia) H) as (A & B & C). split; [exact B|]. destruct C as [C|C]; [|exact C].
  exfalso. destruct ls as [|l ls]; [congruence|]. specialize (B l (or_introl eq_refl)). inversion H; subst. lia.
Qed.

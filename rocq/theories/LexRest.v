(** * LexRest: the remaining text of a lexer, and the numeric escapes read from it *)
From Coq Require Import Strings.String NArith ZArith Bool Arith List Lia ZifyBool ZifyNat ZifyN.
From Verif Require Import Base Token Spec LexModel LexBasics.
Import ListNotations.
Open Scope N_scope.

(** The text from the cursor on. *)
Definition rest (f : lx) : str := skipn (l_idx f) (l_input f).

Lemma rest_new s : rest (new_lx s) = s.
Proof. reflexivity. Qed.
Lemma rest_advance f : rest (advance f) = tl (rest f).
Proof.
  unfold rest. rewrite advance_idx, advance_input.
  replace (S (l_idx f)) with (l_idx f + 1)%nat by lia. rewrite <- skipn_add.
  destruct (skipn (l_idx f) (l_input f)); reflexivity.
Qed.
Lemma rest_advance_n k f : rest (advance_n k f) = skipn k (rest f).
Proof. unfold rest. rewrite advance_n_idx, advance_n_input, skipn_add. reflexivity. Qed.
Lemma current_char_rest f : wf f -> current_char f = hd 0 (rest f).
Proof.
  unfold wf, current_char, rest. intros Hw. destruct (l_size f <=? l_idx f)%nat eqn:E.
  - apply Nat.leb_le in E. rewrite skipn_all2 by lia. reflexivity.
  - apply Nat.leb_gt in E. rewrite (skipn_cons _ _ oob) by lia. reflexivity.
Qed.
Lemma peek_rest f : wf f -> peek f = hd 0 (tl (rest f)).
Proof.
  unfold wf, peek. intros Hw. rewrite <- rest_advance. unfold rest. rewrite advance_idx, advance_input.
  destruct (l_size f <=? l_idx f + 1)%nat eqn:E.
  - apply Nat.leb_le in E. rewrite skipn_all2 by lia. reflexivity.
  - apply Nat.leb_gt in E. rewrite (skipn_cons _ _ oob) by lia.
    replace (l_idx f + 1)%nat with (S (l_idx f)) by lia. reflexivity.
Qed.
Lemma rest_length f : wf f -> length (rest f) = (l_size f - l_idx f)%nat.
Proof. unfold wf, rest. intros ->. apply skipn_length. Qed.

Lemma wf_advance f : wf f -> wf (advance f).
Proof. auto. Qed.
Lemma wf_advance_n k f : wf f -> wf (advance_n k f).
Proof. apply wf_adv with k. apply adv_advance_n. Qed.
Lemma wf_new s : wf (new_lx s).
Proof. reflexivity. Qed.

(** ** Independent notions used in statements *)


Lemma contains_refl s : contains s s.
Proof. exists [], []. rewrite app_nil_r. reflexivity. Qed.
Lemma contains_trans a b c : contains a b -> contains b c -> contains a c.
Proof.
  intros (l & r & ->) (l' & r' & ->). exists (l' ++ l), (r ++ r').
  rewrite <- !app_assoc. reflexivity.
Qed.
Lemma contains_rest w f r : rest f = w ++ r -> contains w (l_input f).
Proof.
  intros H. exists (firstn (l_idx f) (l_input f)), r. rewrite <- H.
  symmetry. apply firstn_skipn.
Qed.


Lemma between_iff a b c : between a b c = true <-> a <= c /\ c <= b.
Proof. unfold between. rewrite andb_true_iff, !N.leb_le. reflexivity. Qed.
Lemma isdigit_iff c : isdigit c = true <-> 48 <= c /\ c <= 57.
Proof. apply between_iff. Qed.
Lemma isoctal_iff c : isoctal c = true <-> 48 <= c /\ c <= 55.
Proof. apply between_iff. Qed.
Lemma isxdigit_iff c : isxdigit c = true <-> (48 <= c <= 57 \/ 97 <= c <= 102 \/ 65 <= c <= 70).
Proof. unfold isxdigit, isdigit. rewrite !orb_true_iff, !between_iff. intuition lia. Qed.
Lemma isalpha_iff c : isalpha c = true <-> (97 <= c <= 122 \/ 65 <= c <= 90).
Proof. unfold isalpha. rewrite orb_true_iff, !between_iff. intuition lia. Qed.
Lemma isspace_iff c : isspace c = true <-> (9 <= c <= 13 \/ c = 32).
Proof. unfold isspace. rewrite orb_true_iff, between_iff, N.eqb_eq. intuition lia. Qed.

Lemma xdigit_cases c : isxdigit c = true ->
  (if between "a"%ch "f"%ch c then schar c - 97 + 10
   else if between "A"%ch "F"%ch c then schar c - 65 + 10
   else schar c - 48)%Z = Z.of_N (dval c).
Proof.
  rewrite isxdigit_iff. intros H. unfold schar, dval, between.
  repeat match goal with |- context [if ?b then _ else _] => destruct b eqn:?; simpl end; lia.
Qed.

Lemma hex_loop_spec n f z :
  wf f -> isxdigit (current_char f) = true ->
  exists ds, (1 <= length ds <= Nat.max 1 n)%nat /\ Forall (fun c => isxdigit c = true) ds /\
    rest f = ds ++ rest (advance_n (length ds) f) /\
    hex_loop n f (Z.of_N z) = (Z.of_N (numval_from 16 z ds), advance_n (length ds) f) /\
    ((length ds < n)%nat -> isxdigit (current_char (advance_n (length ds) f)) = false).
Proof.
  revert f z. induction n as [|n IH]; intros f z Hw Hx.
  - cbn [hex_loop]. cbv zeta. rewrite (xdigit_cases _ Hx).
    assert (Hi : (l_idx f < l_size f)%nat) by (eapply current_char_pred_nz; [exact Hx|reflexivity]).
    exists [current_char f]. simpl. repeat split; try lia.
    + constructor; auto.
    + rewrite rest_advance. rewrite current_char_rest by auto.
      destruct (rest f) eqn:E; [|reflexivity].
      pose proof (rest_length f Hw) as HL. rewrite E in HL. simpl in HL. lia.
    + f_equal. lia.
  - cbn [hex_loop]. cbv zeta. rewrite (xdigit_cases _ Hx).
    assert (Hi : (l_idx f < l_size f)%nat) by (eapply current_char_pred_nz; [exact Hx|reflexivity]).
    assert (Hr : rest f = current_char f :: rest (advance f)).
    { rewrite rest_advance. rewrite current_char_rest by auto.
      destruct (rest f) eqn:E; [|reflexivity].
      pose proof (rest_length f Hw) as HL. rewrite E in HL. simpl in HL. lia. }
    replace (Z.of_N z * 16 + Z.of_N (dval (current_char f)))%Z
      with (Z.of_N (z * 16 + dval (current_char f))) by lia.
    destruct (isxdigit (current_char (advance f))) eqn:Hx'.
    + destruct n as [|n].
      { exists [current_char f]. simpl. repeat split; try lia; auto. }
      destruct (IH (advance f) (z * 16 + dval (current_char f)) (wf_advance _ Hw) Hx')
        as (ds & Hl & Hall & Hrest & Heq & Hmax).
      exists (current_char f :: ds). simpl length. repeat split; try lia.
      * constructor; auto.
      * rewrite Hr, Hrest at 1. reflexivity.
      * exact Heq.
      * intros Hlt. cbn [advance_n]. apply Hmax. lia.
    + exists [current_char f]. simpl. repeat split; try lia; auto.
Qed.

Lemma oct_loop_spec n f z :
  wf f -> isoctal (current_char f) = true ->
  exists ds, (1 <= length ds <= Nat.max 1 n)%nat /\ Forall (fun c => isoctal c = true) ds /\
    rest f = ds ++ rest (advance_n (length ds) f) /\
    oct_loop n f (Z.of_N z) = (Z.of_N (numval_from 8 z ds), advance_n (length ds) f) /\
    ((length ds < n)%nat -> isoctal (current_char (advance_n (length ds) f)) = false).
Proof.
  assert (Hc : forall c, isoctal c = true -> (schar c - 48)%Z = Z.of_N (dval c)).
  { intros c. rewrite isoctal_iff. unfold schar, dval. intros.
    repeat match goal with |- context [if ?b then _ else _] => destruct b eqn:? end; lia. }
  revert f z. induction n as [|n IH]; intros f z Hw Hx;
    cbn [oct_loop]; cbv zeta; rewrite (Hc _ Hx);
    (assert (Hi : (l_idx f < l_size f)%nat) by (eapply current_char_pred_nz; [exact Hx|reflexivity]));
    (assert (Hr : rest f = current_char f :: rest (advance f)) by
      (rewrite rest_advance; rewrite current_char_rest by auto;
       destruct (rest f) eqn:E; [|reflexivity];
       pose proof (rest_length f Hw) as HL; rewrite E in HL; simpl in HL; lia));
    replace (Z.of_N z * 8 + Z.of_N (dval (current_char f)))%Z
      with (Z.of_N (z * 8 + dval (current_char f))) by lia.
  - exists [current_char f]. simpl. repeat split; try lia; auto.
  - destruct (isoctal (current_char (advance f))) eqn:Hx'.
    + destruct n as [|n].
      { exists [current_char f]. simpl. repeat split; try lia; auto. }
      destruct (IH (advance f) (z * 8 + dval (current_char f)) (wf_advance _ Hw) Hx')
        as (ds & Hl & Hall & Hrest & Heq & Hmax).
      exists (current_char f :: ds). simpl length. repeat split; try lia.
      * constructor; auto.
      * rewrite Hr, Hrest at 1. reflexivity.
      * exact Heq.
      * intros Hlt. cbn [advance_n]. apply Hmax. lia.
    + exists [current_char f]. simpl. repeat split; try lia; auto.
Qed.

Lemma rest_cons f : wf f -> (l_idx f < l_size f)%nat -> rest f = current_char f :: rest (advance f).
Proof.
  intros Hw Hi. rewrite rest_advance. rewrite current_char_rest by auto.
  destruct (rest f) eqn:E; [|reflexivity].
  pose proof (rest_length f Hw) as HL. rewrite E in HL. simpl in HL. lia.
Qed.

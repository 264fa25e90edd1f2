(** * LexNumbers: integer literals *)
From Coq Require Import Strings.String NArith ZArith Bool Arith List Lia ZifyBool ZifyNat ZifyN.
From Verif Require Import Base Token Spec LexModel LexBasics LexRest LexInv LexFwd.
Import ListNotations.
Open Scope N_scope.

Lemma digit_val_dval c : isxdigit c = true -> digit_val c = Z.of_N (dval c).
Proof.
  rewrite isxdigit_iff. intros H. unfold digit_val, dval, between.
  repeat match goal with |- context [if ?b then _ else _] => destruct b eqn:?; simpl end; lia.
Qed.
Lemma digits_val_from base ds : forall acc, Forall (fun c => isxdigit c = true) ds ->
  fold_left (fun acc c => (acc * Z.of_N base + digit_val c)%Z) ds (Z.of_N acc) = Z.of_N (numval_from base acc ds).
Proof.
  induction ds as [|d ds IH]; intros acc H; [reflexivity|]. inversion H; subst. cbn [fold_left numval_from].
  rewrite <- IH by assumption. f_equal. rewrite digit_val_dval by assumption. lia.
Qed.
Lemma digits_val_numval base ds : Forall (fun c => isxdigit c = true) ds ->
  digits_val (Z.of_N base) ds = Z.of_N (numval base ds).
Proof. intros H. apply (digits_val_from base ds 0 H). Qed.

(** The token of an integer literal with value [v] and bignum text [txt]. *)
Definition int_tok (f : lx) (v : N) (txt : str) : token :=
  if v <=? 2 ^ 62 - 1 then tkz f T_Fixnum (Z.of_N v) else tkl f T_Bignum txt.

Lemma chars_to_token f prefix ds base off :
  Forall (fun c => isxdigit c = true) ds -> off = length prefix ->
  chars_to_fixnum_or_bignum_token f (prefix ++ ds) (Z.of_N base) off = int_tok f (numval base ds) (prefix ++ ds).
Proof.
  intros H ->. unfold chars_to_fixnum_or_bignum_token, strtoll, int_tok.
  replace (skipn (length prefix) (prefix ++ ds)) with ds
    by (clear; induction prefix; [reflexivity|exact IHprefix]).
  rewrite (digits_val_numval _ _ H). unfold llong_max, max_fixnum.
  change (2 ^ 62 - 1) with 4611686018427387903.
  destruct (9223372036854775807 <? Z.of_N (numval base ds))%Z eqn:E1;
    [|destruct (4611686018427387903 <? Z.of_N (numval base ds))%Z eqn:E2];
    destruct (numval base ds <=? 4611686018427387903) eqn:E3; cbn [orb]; try reflexivity; try lia.
  all: try (rewrite E2; reflexivity). all: try lia.
Qed.

(** What may follow an integer literal without becoming part of it. *)
Definition ends_number (r : str) : Prop :=
  isxdigit (hd 0 r) = false /\ hd 0 r <> "_"%ch /\ (hd 0 r <> "."%ch \/ isdigit (hd 0 (tl r)) = false).

Lemma separated_head p ds txt : separated ds txt -> Forall (fun c => p c = true) ds ->
  exists d ds' t, ds = d :: ds' /\ txt = d :: t /\ p d = true.
Proof. intros [d|d ds' t Hs|d ds' t Hs] H; inversion H; subst; eauto 8. Qed.

Lemma int_tok_adv f k v txt : int_tok (advance_n k f) v txt = int_tok f v txt.
Proof.
  pose proof (advance_n_frame k f) as H. unfold int_tok, tkz, tkl. rewrite H. reflexivity.
Qed.

Lemma all_xdigit (p : N -> bool) ds : (forall c, p c = true -> isxdigit c = true) ->
  Forall (fun c => p c = true) ds -> Forall (fun c => isxdigit c = true) ds.
Proof. intros H. apply Forall_impl. exact H. Qed.
Lemma isdigit_x c : isdigit c = true -> isxdigit c = true.
Proof. rewrite isdigit_iff, isxdigit_iff. lia. Qed.
Lemma isoctal_x c : isoctal c = true -> isxdigit c = true.
Proof. rewrite isoctal_iff, isxdigit_iff. lia. Qed.
Lemma isbinary_x c : isbinary c = true -> isxdigit c = true.
Proof. unfold isbinary. rewrite orb_true_iff, !N.eqb_eq, isxdigit_iff. lia. Qed.

Lemma not_underscore (p : N -> bool) : p "_"%ch = false -> forall c, p c = true -> c <> "_"%ch.
Proof. intros H c Hc ->. congruence. Qed.

Lemma digit_loop_at p f ds txt r buf :
  p "_"%ch = false -> (forall c, p c = true -> isxdigit c = true) ->
  separated ds txt -> Forall (fun c => p c = true) ds -> at_text f (txt ++ r) -> ends_number r ->
  digit_loop (loop_fuel f) p f buf = Ok (buf ++ ds, advance_n (length txt) f).
Proof.
  intros Hp Hx Hs Hd Hat (H1 & H2 & _).
  apply (digit_loop_fwd p) with (r := r); auto.
  - apply not_underscore. exact Hp.
  - destruct (p (hd 0 r)) eqn:E; [|reflexivity]. apply Hx in E. congruence.
  - rewrite (at_fuel _ _ Hat), app_length. lia.
Qed.

Lemma consume_decimal_fwd f ds txt r :
  separated ds txt -> Forall (fun c => isdigit c = true) ds -> at_text f (txt ++ r) -> ends_number r ->
  consume_decimal f = Ok (int_tok f (numval 10 ds) ds, advance_n (length txt) f).
Proof.
  intros Hs Hd Hat Hr. unfold consume_decimal.
  rewrite (digit_loop_at isdigit f ds txt r) by (auto using isdigit_x). cbn [bind app].
  pose proof (at_adv_n _ _ _ Hat) as Hat'. set (g := advance_n (length txt) f) in *.
  destruct Hr as (H1 & H2 & H3).
  assert (He : (hd 0 r =? "e"%ch) = false /\ (hd 0 r =? "E"%ch) = false).
  { split; apply N.eqb_neq; intros E; rewrite E in H1; discriminate. }
  destruct He as [He1 He2].
  assert (Hc : ((current_char g =? "."%ch) && isdigit (peek g)) || ((current_char g =? "e"%ch) || (current_char g =? "E"%ch)) = false).
  { rewrite (at_cur_hd _ _ Hat'), He1, He2, !orb_false_r. destruct (hd 0 r =? "."%ch) eqn:E; [|reflexivity].
    apply N.eqb_eq in E. destruct r as [|c r]; [discriminate|]. cbn [hd tl] in *.
    rewrite (at_peek _ _ _ Hat'). destruct H3; [congruence|assumption]. }
  rewrite Hc. f_equal. f_equal.
  rewrite <- (app_nil_l ds) at 1. change 10%Z with (Z.of_N 10).
  rewrite (chars_to_token g [] ds 10 0); [|eapply all_xdigit; [apply isdigit_x|exact Hd]|reflexivity].
  unfold g. apply int_tok_adv.
Qed.

Lemma consume_prefixed_fwd f c prefix p base ds txt r :
  p "_"%ch = false -> (forall c, p c = true -> isxdigit c = true) ->
  separated ds txt -> Forall (fun c => p c = true) ds ->
  at_text f ("0"%ch :: c :: txt ++ r) -> ends_number r ->
  consume_prefixed f prefix p (Z.of_N base) =
    Ok (int_tok f (numval base ds) (prefix ++ ds), advance_n (2 + length txt) f).
Proof.
  intros Hp Hx Hs Hd Hat Hr. unfold consume_prefixed.
  assert (Hat2 : at_text (advance_n 2 f) (txt ++ r)).
  { change ("0"%ch :: c :: txt ++ r) with (["0"%ch; c] ++ txt ++ r) in Hat. apply (at_adv_n _ _ _ Hat). }
  destruct (separated_head p _ _ Hs Hd) as (d & ds' & t & E1 & E2 & E3).
  assert (Hc : current_char (advance_n 2 f) = d) by (subst txt; apply (at_cur _ _ _ Hat2)).
  rewrite Hc, E3. cbn [negb].
  rewrite (digit_loop_at p _ ds txt r) by auto. cbn [bind]. f_equal. f_equal.
  rewrite chars_to_token; [|eapply all_xdigit; eauto|reflexivity]. rewrite advance_n_plus. apply int_tok_adv.
Qed.

(** ** The switch *)

Lemma lex_switch_digit f c w : at_text f (c :: w) -> isdigit c = true -> lex_switch f = plain (consume_numeric f).
Proof.
  intros Hat Hd. unfold lex_switch. rewrite (at_cur _ _ _ Hat). rewrite Hd.
  apply isdigit_iff in Hd.
  repeat match goal with |- context [c =? ?k] => replace (c =? k) with false by (symmetry; apply N.eqb_neq; unfold ch_nl; lia) end.
  reflexivity.
Qed.

Lemma lex_decimal f ds txt r :
  separated ds txt -> Forall (fun c => isdigit c = true) ds -> hd 0 ds <> "0"%ch ->
  at_text f (txt ++ r) -> ends_number r ->
  lex_switch f = Ok (int_tok f (numval 10 ds) ds, advance_n (length txt) f, None).
Proof.
  intros Hs Hd H0 Hat Hr.
  destruct (separated_head _ _ _ Hs Hd) as (d & ds' & t & E1 & E2 & E3).
  assert (Hat' : at_text f (d :: t ++ r)) by (subst txt; exact Hat).
  rewrite (lex_switch_digit f d (t ++ r)) by auto. unfold plain, consume_numeric.
  rewrite (at_cur _ _ _ Hat'). subst ds. cbn [hd] in H0. apply N.eqb_neq in H0. rewrite H0.
  rewrite (consume_decimal_fwd f (d :: ds') txt r) by auto. reflexivity.
Qed.
Lemma lex_zero f r : at_text f ("0"%ch :: r) -> ends_number r -> (hd 0 r <> "x"%ch) -> (hd 0 r <> "X"%ch) ->
  (hd 0 r <> "o"%ch) -> (hd 0 r <> "O"%ch) ->
  lex_switch f = Ok (int_tok f 0 ["0"%ch], advance_n 1 f, None).
Proof.
  intros Hat Hr X1 X2 X3 X4. rewrite (lex_switch_digit f "0"%ch r) by auto. unfold plain, consume_numeric.
  rewrite (at_cur _ _ _ Hat), (at_peek _ _ _ Hat). change ("0"%ch =? "0"%ch) with true. cbv iota.
  assert (Hx : forall c, isxdigit c = true -> (hd 0 r =? c) = false).
  { intros c Hc. apply N.eqb_neq. intros E. destruct Hr as [Hr _]. congruence. }
  apply N.eqb_neq in X1, X2, X3, X4. rewrite X1, X2, X3, X4.
  rewrite (Hx "d"%ch), (Hx "D"%ch), (Hx "b"%ch), (Hx "B"%ch) by reflexivity. cbn [orb].
  replace (isdigit (hd 0 r)) with false
    by (destruct (isdigit (hd 0 r)) eqn:E; [|reflexivity]; apply isdigit_x in E; destruct Hr; congruence).
  rewrite (consume_decimal_fwd f ["0"%ch] ["0"%ch] r); [reflexivity|constructor|repeat constructor|exact Hat|exact Hr].
Qed.

(** The five radix prefixes. *)
Inductive radix : N -> N -> str -> (N -> bool) -> Prop :=
| radix_d c : c = "d"%ch \/ c = "D"%ch -> radix c 10 [] isdigit
| radix_o c : c = "o"%ch \/ c = "O"%ch -> radix c 8 ["0"%ch; "o"%ch] isoctal
| radix_x c : c = "x"%ch \/ c = "X"%ch -> radix c 16 ["0"%ch; "x"%ch] isxdigit
| radix_b c : c = "b"%ch \/ c = "B"%ch -> radix c 2 ["0"%ch; "b"%ch] isbinary.

Lemma lex_prefixed f c base prefix p ds txt r :
  radix c base prefix p -> separated ds txt -> Forall (fun c => p c = true) ds ->
  at_text f ("0"%ch :: c :: txt ++ r) -> ends_number r ->
  lex_switch f = Ok (int_tok f (numval base ds) (prefix ++ ds), advance_n (2 + length txt) f, None).
Proof.
  intros Hc Hs Hd Hat Hr. rewrite (lex_switch_digit f "0"%ch (c :: txt ++ r)) by auto. unfold plain, consume_numeric.
  rewrite (at_cur _ _ _ Hat), (at_peek _ _ _ Hat). change ("0"%ch =? "0"%ch) with true. cbv iota. cbn [hd].
  destruct Hc as [c [-> | ->]|c [-> | ->]|c [-> | ->]|c [-> | ->]];
    repeat match goal with |- context [if ?b || ?d then _ else _] =>
      let v := eval vm_compute in (b || d) in change (b || d) with v; cbv iota end.
  all: match goal with |- context [consume_prefixed _ ?pr ?p ?b] =>
         let n := eval vm_compute in (Z.to_N b) in change b with (Z.of_N n) end.
  all: (erewrite consume_prefixed_fwd; [reflexivity| | |exact Hs|exact Hd|exact Hat|exact Hr]);
    [reflexivity|auto using isdigit_x, isoctal_x, isbinary_x].
Qed.

(** A leading 0 without a letter. *)
Lemma lex_bare_octal f d ds txt r :
  separated (d :: ds) txt -> Forall (fun c => isoctal c = true) (d :: ds) ->
  at_text f ("0"%ch :: txt ++ r) -> ends_number r ->
  lex_switch f = Ok (int_tok f (numval 8 (d :: ds)) (d :: d :: ds), advance_n (1 + length txt) f, None).
Proof.
  intros Hs Hd Hat Hr. rewrite (lex_switch_digit f "0"%ch (txt ++ r)) by auto. unfold plain, consume_numeric.
  rewrite (at_cur _ _ _ Hat), (at_peek _ _ _ Hat). change ("0"%ch =? "0"%ch) with true. cbv iota.
  destruct (separated_head _ _ _ Hs Hd) as (d' & ds' & t & E1 & E2 & E3). injection E1 as <- <-.
  assert (Hh : hd 0 (txt ++ r) = d) by (subst txt; reflexivity). rewrite Hh.
  pose proof E3 as E3'. apply isoctal_iff in E3'.
  repeat match goal with |- context [d =? ?k] => replace (d =? k) with false by (symmetry; apply N.eqb_neq; lia) end.
  cbn [orb]. replace (isdigit d) with true by (symmetry; apply isdigit_iff; lia). rewrite E3. cbn [negb].
  pose proof (at_adv _ _ _ Hat) as Hat1.
  rewrite (digit_loop_at isoctal _ (d :: ds) txt r) by (auto using isoctal_x). cbn [bind app].
  change (d :: d :: ds) with ([d] ++ d :: ds). change 8%Z with (Z.of_N 8).
  rewrite chars_to_token; [|eapply all_xdigit; [apply isoctal_x|exact Hd]|reflexivity].
  f_equal. f_equal. f_equal. apply (int_tok_adv f (1 + length txt)).
Qed.

(** ** Whole sources *)

Lemma ends_nil : ends_number [].
Proof. split; [reflexivity|]. split; [discriminate|left; discriminate]. Qed.

Definition num_tok (v : N) (txt : str) : token :=
  if v <=? 2 ^ 62 - 1 then Tok T_Fixnum None None (Z.of_N v) [] 0 0 false
  else Tok T_Bignum (Some txt) None 0 [] 0 0 false.
Definition eof_at (s : str) : token := Tok T_Eof None None 0 [] (line_of s (length s)) (col_of s (length s)) false.

Lemma number_source s v txt fuel :
  lex_switch (set_tokpos (new_lx s) false) = Ok (int_tok (set_tokpos (new_lx s) false) v txt, advance_n (length s) (set_tokpos (new_lx s) false), None) ->
  isdigit (hd 0 s) = true -> (2 <= fuel)%nat -> tokens fuel s = Ok [num_tok v txt; eof_at s].
Proof.
  intros H Hd Hf. apply isdigit_iff in Hd.
  assert (E : int_tok (set_tokpos (new_lx s) false) v txt = num_tok v txt) by reflexivity. rewrite E in H.
  eapply tokens_single; [exact H|..]; try (unfold ch_tab, ch_bs; lia); try (unfold num_tok; destruct (v <=? 2 ^ 62 - 1); reflexivity).
  - intros ->. cbn in Hd. lia.
  - apply advance_n_frame.
  - apply (pos_advance_n s (length s)); reflexivity.
Qed.

Lemma num_tok_value v txt : ruby_integer txt = v -> int_value (num_tok v txt) = Some v.
Proof.
  intros H. unfold num_tok. destruct (v <=? 2 ^ 62 - 1); unfold int_value; cbn [ty lit fix_].
  - replace (0 <=? Z.of_N v)%Z with true by lia. f_equal. lia.
  - congruence.
Qed.

Lemma ruby_integer_decimal ds : Forall (fun c => isdigit c = true) ds -> hd 0 ds <> "0"%ch -> ruby_integer ds = numval 10 ds.
Proof.
  intros Hd H0. destruct ds as [|d ds]; [reflexivity|]. cbn [hd] in H0.
  unfold ruby_integer. inversion Hd as [|? ? H]; subst. apply isdigit_iff in H.
  assert (Hc : d = 49 \/ d = 50 \/ d = 51 \/ d = 52 \/ d = 53 \/ d = 54 \/ d = 55 \/ d = 56 \/ d = 57) by lia.
  repeat (destruct Hc as [-> |Hc]; [reflexivity|]). subst d. reflexivity.
Qed.
Lemma int_tok_value f v txt : int_value (int_tok f v txt) = int_value (num_tok v txt).
Proof. unfold int_tok, num_tok. destruct (v <=? 2 ^ 62 - 1); reflexivity. Qed.

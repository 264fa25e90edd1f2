(** * LexLexeme: reading one lexical element forward *)
From Coq Require Import Strings.String NArith ZArith Bool Arith List Lia ZifyBool ZifyNat ZifyN.
From Verif Require Import Base Token Spec SpecLit SpecLexeme LexModel LexBasics LexRest LexSwitch LexInv LexFwd LexNumbers LexIdent LexWords LexQuoted LexHereFwd LexHereSrc TokensProofs LexPunct.
Import ListNotations.
Open Scope N_scope.

(** ** Words *)
Lemma idsfx_word w : word w -> Forall (fun c => idsfx c = true) w.
Proof.
  intros (c & r & -> & Hc & Hr). assert (H : Forall ident_char (c :: r)) by (constructor; [left; exact Hc|exact Hr]).
  eapply Forall_impl; [|exact H]. intros a Ha. unfold is_identifier_char_or_message_suffix. rewrite (ident_char_ok _ Ha). reflexivity.
Qed.
Lemma idsfx_no c : ~ ident_char c -> c <> "?"%ch -> c <> "!"%ch -> idsfx c = false.
Proof.
  intros H1 H2 H3. apply N.eqb_neq in H2, H3. unfold is_identifier_char_or_message_suffix. rewrite (not_ident_char _ H1). cbn [orb]. unfold is_message_suffix. rewrite ?H2, ?H3. destruct (c =? 0); reflexivity.
Qed.

Lemma no_keyword f u x : at_text f (u ++ x) -> Forall (fun c => idsfx c = true) u -> idsfx (hd 0 x) = false ->
  (is_reserved u -> n_rem (l_names f) <> 0 /\ u <> s2l "self") -> lex_keyword f = None.
Proof.
  intros Hat Hu Hx Hr. rewrite (lex_keyword_no_self f (u ++ x) Hat).
  - destruct (n_rem (l_names f) =? 0) eqn:E; [|reflexivity]. apply N.eqb_eq in E.
    apply (match_keyword_none f _ keywords Hat). intros k t r0 Hin He Hr0.
    assert (u = k) by (eapply same_word; eauto using keyword_chars). subst k.
    apply reserved_keywords in Hin. destruct Hr as [Hr _]; [exists t; exact Hin|congruence].
  - intros r0 He Hr0. exfalso.
    assert (u = s2l "self") by (eapply same_word; [exact He|exact Hu|repeat constructor|exact Hx|exact Hr0]).
    destruct Hr as [_ Hr]; [exists T_SelfKeyword; subst u; apply reserved_keywords; apply self_in|congruence].
Qed.

Lemma tkl_adv n f t s : tkl (advance_n n f) t s = tk4 f t (Some s) 0 [].
Proof. unfold tkl. rewrite (advance_n_frame n f). reflexivity. Qed.
Lemma adv_S n f : advance (advance_n n f) = advance_n (n + 1) f.
Proof. revert f. induction n as [|n IH]; intros f; [reflexivity|]. cbn [advance_n Nat.add]. apply IH. Qed.
Lemma names_adv n f : l_names (advance_n n f) = l_names f.
Proof. rewrite (advance_n_frame n f). reflexivity. Qed.
Lemma last_adv n f : l_last (advance_n n f) = l_last f.
Proof. rewrite (advance_n_frame n f). reflexivity. Qed.

(** A word that is not a keyword is read with what may belong to it. *)
Lemma bare_fwd f w x : at_text f (w ++ x) -> word w -> ~ ident_char (hd 0 x) -> lex_keyword f = None ->
  (can_be_complex_or_rational (ty (l_last f)) = true -> hd 0 w <> "i"%ch /\ hd 0 w <> "r"%ch) ->
  lex_switch f = plain (
    let t := name_type w in
    let f := advance_n (length w) f in
    let c := hd 0 x in
    if (c =? "?"%ch) || (c =? "!"%ch) then
      let key := (peek f =? ":"%ch) && can_precede_symbol_key (ty (l_last f)) in
      let f := if key then advance f else f in
      let t := if key then T_SymbolKey else t in
      let f := advance f in
      Ok (tkl f t (w ++ [c]), f)
    else if c =? "="%ch then
      if n_allow (l_names f) || (negb (is_dot (ty (l_last f))) && (0 <? n_rem (l_names f))) then
        let f := advance f in Ok (tkl f t (w ++ [c]), f)
      else Ok (tkl f t w, f)
    else if c =? ":"%ch then
      if negb (peek f =? ":"%ch) && can_precede_symbol_key (ty (l_last f)) then
        let f := advance f in Ok (tkl f T_SymbolKey w, f)
      else Ok (tkl f t w, f)
    else Ok (tkl f t w, f)).
Proof.
  intros Hat (c & u & -> & Hc & Hu) Hx Hk Hl. cbn [app hd] in *.
  pose proof (ident_start_name _ Hc) as Hn.
  rewrite (lex_switch_word f c (u ++ x) Hat Hn).
  2:{ destruct (can_be_complex_or_rational _); auto. }
  unfold lex_word. rewrite Hk, (at_cur _ _ _ Hat).
  assert (E : forall t, consume_bare_name_or_constant f t = consume_bare_name_or_constant f t) by reflexivity.
  assert (Hw : consume_word f = Ok (c :: u, advance_n (S (length u)) f)).
  { apply (consume_word_fwd f c u x Hat); [eapply Forall_impl; [|exact Hu]; apply ident_char_ok|apply not_ident_char; exact Hx]. }
  pose proof (at_adv_n f (c :: u) x Hat) as Hg. pose proof (at_cur_hd _ _ Hg) as Hcur.
  unfold name_type. cbn [hd].
  destruct (is_name_start_char c) eqn:E1.
  - replace (between "A"%ch "Z"%ch c) with false.
    + unfold consume_bare_name_or_constant. rewrite Hw. cbn [bind]. cbn [length] in Hcur. rewrite Hcur. reflexivity.
    + symmetry. unfold is_name_start_char, between in *. destruct (c =? 0); [discriminate|]. lia.
  - unfold name_start in Hn. rewrite E1 in Hn. cbn [orb] in Hn. rewrite Hn.
    unfold consume_bare_name_or_constant. rewrite Hw. cbn [bind]. cbn [length] in Hcur. rewrite Hcur. reflexivity.
Qed.

Lemma suffix_ident s x : suffix s \/ s = s2l "=" -> s <> [] -> ~ ident_char (hd 0 (s ++ x)).
Proof. intros [[<-|[<-|[<-|[]]]]| ->] Hs; try congruence; cbn; unfold ident_char, ident_start; lia. Qed.
Lemma numeric_complex t : can_be_complex_or_rational t = numeric t.
Proof. destruct t; reflexivity. Qed.
Lemma starts_pair_key t : can_precede_symbol_key t = starts_pair t.
Proof. destruct t; reflexivity. Qed.

Lemma reads_tkl f w t s : lex_switch f = Ok (tkl (advance_n (length w) f) t s, advance_n (length w) f, None) -> reads f w (tk4 f t (Some s) 0 []).
Proof. intros H. rewrite <- (tkl_adv (length w)). apply reads_n. exact H. Qed.

Lemma name_fwd f w s r p : at_text f ((w ++ s) ++ r) -> sound (L_name w s) -> here f p -> fits p (l_ws f) (L_name w s) r ->
  reads f (w ++ s) (tk4 f (name_type w) (Some (w ++ s)) 0 []).
Proof.
  intros Hat [Hw Hs] [Hp Hp' Hn Hse _] (F1 & F2 & F3 & F4).
  rewrite <- app_assoc in Hat. rewrite <- numeric_complex, <- Hp in F1. apply reads_tkl.
  assert (Hn0 : naming p = true -> n_rem (l_names f) <> 0) by (intros E; rewrite Hn, E; discriminate).
  destruct Hs as [[<-|[<-|[<-|[]]]]| ->].
  - destruct F3 as (G1 & G2 & G3 & G4 & G5); [discriminate|]. rewrite app_nil_r in *. cbn [app] in *. specialize (F4 eq_refl).
    rewrite (bare_fwd f w r Hat Hw G1); [| |exact F1].
    + cbv zeta. rewrite names_adv, last_adv, Hse, Hn, Hp. apply N.eqb_neq in G2, G3. rewrite G2, G3. cbn [orb].
      destruct (hd 0 r =? "="%ch) eqn:E1.
      * apply N.eqb_eq in E1. destruct (F4 E1) as [-> F5]. cbn [orb].
        destruct (naming p); [rewrite (F5 eq_refl)|]; [reflexivity|]. rewrite andb_false_r. reflexivity.
      * destruct (hd 0 r =? ":"%ch) eqn:E2; [|reflexivity]. apply N.eqb_eq in E2. destruct (G5 E2) as [_ G6].
        destruct r as [|c r']; [discriminate|]. cbn [hd] in E2. subst c.
        rewrite (at_peek _ _ _ (at_adv_n _ _ _ Hat)). cbn [tl hd] in G6. rewrite G6. reflexivity.
    + eapply no_keyword; [exact Hat|apply idsfx_word; exact Hw|apply idsfx_no; auto|]. intros Hr. destruct (G4 Hr). auto.
  - destruct F3 as (G1 & G2 & G3 & G4 & G5); [discriminate|].
    assert (Hnc : hd 0 r <> ":"%ch) by (intros E; destruct (G5 E); discriminate).
    rewrite (bare_fwd f w _ Hat Hw); [|cbn; unfold ident_char, ident_start; lia| |exact F1].
    + cbv zeta. change (hd 0 (s2l "?" ++ r)) with "?"%ch. eqb_consts. cbn [orb].
      pose proof (at_adv_n _ _ _ Hat) as Hg. change (s2l "?" ++ r) with ("?"%ch :: r) in Hg.
      rewrite (at_peek _ _ _ Hg). apply N.eqb_neq in Hnc. rewrite Hnc. cbn [andb]. rewrite adv_S, app_length. reflexivity.
    + eapply (no_keyword f (w ++ s2l "?") r); [rewrite <- app_assoc; exact Hat|apply Forall_app; split; [apply idsfx_word; exact Hw|repeat constructor]|apply idsfx_no; auto|].
      intros Hr. destruct (G4 Hr). auto.
  - destruct F3 as (G1 & G2 & G3 & G4 & G5); [discriminate|].
    assert (Hnc : hd 0 r <> ":"%ch) by (intros E; destruct (G5 E); discriminate).
    rewrite (bare_fwd f w _ Hat Hw); [|cbn; unfold ident_char, ident_start; lia| |exact F1].
    + cbv zeta. change (hd 0 (s2l "!" ++ r)) with "!"%ch. eqb_consts. cbn [orb].
      pose proof (at_adv_n _ _ _ Hat) as Hg. change (s2l "!" ++ r) with ("!"%ch :: r) in Hg.
      rewrite (at_peek _ _ _ Hg). apply N.eqb_neq in Hnc. rewrite Hnc. cbn [andb]. rewrite adv_S, app_length. reflexivity.
    + eapply (no_keyword f (w ++ s2l "!") r); [rewrite <- app_assoc; exact Hat|apply Forall_app; split; [apply idsfx_word; exact Hw|repeat constructor]|apply idsfx_no; auto|].
      intros Hr. destruct (G4 Hr). auto.
  - destruct (F2 eq_refl) as [G1 G2].
    rewrite (bare_fwd f w _ Hat Hw); [|cbn; unfold ident_char, ident_start; lia| |exact F1].
    + cbv zeta. change (hd 0 (s2l "=" ++ r)) with "="%ch. eqb_consts. cbn [orb]. rewrite names_adv, last_adv, Hse, Hn, Hp.
      replace (setter p || negb (is_dot (prev p)) && (0 <? (if naming p then 1 else 0))) with true.
      * rewrite adv_S, app_length. reflexivity.
      * destruct G1 as [->|[-> G1]]; [reflexivity|]. replace (is_dot (prev p)) with false; [rewrite orb_true_r; reflexivity|].
        destruct (prev p); try reflexivity. congruence.
    + eapply (no_keyword f w (s2l "=" ++ r)); [exact Hat|apply idsfx_word; exact Hw|reflexivity|].
      intros Hr. destruct (G2 Hr). auto.
Qed.

Lemma key_fwd f w s r p : at_text f ((w ++ s ++ [":"%ch]) ++ r) -> sound (L_key w s) -> here f p -> fits p (l_ws f) (L_key w s) r ->
  reads f (w ++ s ++ [":"%ch]) (tk4 f T_SymbolKey (Some (w ++ s)) 0 []).
Proof.
  intros Hat (Hw & Hs & Hr) [Hp Hp' Hn Hse _] (F1 & F2).
  rewrite <- !app_assoc in Hat. apply reads_tkl.
  assert (Hl : can_be_complex_or_rational (ty (l_last f)) = true -> hd 0 w <> "i"%ch /\ hd 0 w <> "r"%ch).
  { rewrite Hp. destruct (prev p); discriminate. }
  destruct Hs as [<-|[<-|[<-|[]]]].
  - rewrite app_nil_r in *. cbn [app] in *.
    rewrite (bare_fwd f w _ Hat Hw); [|cbn; unfold ident_char, ident_start; lia| |exact Hl].
    + cbv zeta. cbn [hd]. eqb_consts. cbn [orb]. rewrite last_adv, Hp, starts_pair_key, F1.
      rewrite (at_peek _ _ _ (at_adv_n _ _ _ Hat)). apply N.eqb_neq in F2. rewrite F2. cbn [negb andb].
      rewrite adv_S, app_length. reflexivity.
    + eapply no_keyword; [exact Hat|apply idsfx_word; exact Hw|reflexivity|]. intros H. contradiction.
  - rewrite (bare_fwd f w _ Hat Hw); [|cbn; unfold ident_char, ident_start; lia| |exact Hl].
    + cbv zeta. change (hd 0 (s2l "?" ++ [":"%ch] ++ r)) with "?"%ch. eqb_consts. cbn [orb]. rewrite last_adv, Hp, starts_pair_key, F1.
      pose proof (at_adv_n _ _ _ Hat) as Hg. change (s2l "?" ++ [":"%ch] ++ r) with ("?"%ch :: ":"%ch :: r) in Hg.
      rewrite (at_peek _ _ _ Hg). cbn [hd]. eqb_consts. cbn [andb].
      rewrite !adv_S, !app_length. replace (length w + (length (s2l "?") + length [":"%ch]))%nat with (length w + 1 + 1)%nat by (cbn; lia). reflexivity.
    + eapply (no_keyword f (w ++ s2l "?") (":"%ch :: r)); [rewrite <- app_assoc; exact Hat|apply Forall_app; split; [apply idsfx_word; exact Hw|repeat constructor]|reflexivity|].
      intros H. contradiction.
  - rewrite (bare_fwd f w _ Hat Hw); [|cbn; unfold ident_char, ident_start; lia| |exact Hl].
    + cbv zeta. change (hd 0 (s2l "!" ++ [":"%ch] ++ r)) with "!"%ch. eqb_consts. cbn [orb]. rewrite last_adv, Hp, starts_pair_key, F1.
      pose proof (at_adv_n _ _ _ Hat) as Hg. change (s2l "!" ++ [":"%ch] ++ r) with ("!"%ch :: ":"%ch :: r) in Hg.
      rewrite (at_peek _ _ _ Hg). cbn [hd]. eqb_consts. cbn [andb].
      rewrite !adv_S, !app_length. replace (length w + (length (s2l "!") + length [":"%ch]))%nat with (length w + 1 + 1)%nat by (cbn; lia). reflexivity.
    + eapply (no_keyword f (w ++ s2l "!") (":"%ch :: r)); [rewrite <- app_assoc; exact Hat|apply Forall_app; split; [apply idsfx_word; exact Hw|repeat constructor]|reflexivity|].
      intros H. contradiction.
Qed.

Lemma keyword_fwd f w t r p : at_text f (w ++ r) -> sound (L_keyword w t) -> here f p -> fits p (l_ws f) (L_keyword w t) r ->
  reads f w (tk4 f t None 0 []).
Proof.
  intros Hat (Hin & _ & _) [Hp Hp' Hn Hse _] (F1 & F2 & F3). apply reads_n. cbn [In] in F3.
  apply reserved_keywords in Hin. assert (Hx : idsfx (hd 0 r) = false) by (apply idsfx_no; [exact F2| |]; intros E; apply F3; rewrite E; auto).
  destruct (naming p) eqn:En.
  - destruct F1 as [F1|(F1 & F4 & F5 & F6)]; [discriminate|]. subst t.
    assert (w = s2l "self").
    { assert (A : forallb (fun q => negb (ttype_eqb (snd q) T_SelfKeyword) || str_eqb (fst q) (s2l "self")) keywords = true) by reflexivity.
      rewrite forallb_forall in A. specialize (A _ Hin). apply str_eqb_eq. exact A. }
    subst w. change (s2l "self" ++ r) with ("s"%ch :: s2l "elf" ++ r) in Hat.
    rewrite (lex_switch_word f _ _ Hat); [|reflexivity|right; right; split; discriminate].
    change ("s"%ch :: s2l "elf" ++ r) with (s2l "self" ++ r) in Hat. unfold lex_word, lex_keyword.
    replace (negb (is_dot (ty (l_last f))) && negb (is_constant_resolution (ty (l_last f)))) with true
      by (rewrite Hp; destruct (prev p); try reflexivity; congruence).
    rewrite (match_yes f (s2l "self") r) by (auto; discriminate).
    pose proof (at_adv_n _ _ _ Hat) as Hg. rewrite (at_cur_hd _ _ Hg), F4. eqb_consts. cbn [orb].
    rewrite names_adv, Hn. change (1 =? 0) with false. cbv iota. rewrite (at_cur_hd _ _ Hg), F4. eqb_consts. cbn [andb].
    reflexivity.
  - apply lex_keyword_fwd with (r := r); auto. intros E. apply F3. rewrite E. auto.
Qed.

(** ** Numbers *)
Lemma decimal_digit c : decimal c <-> isdigit c = true.
Proof. unfold decimal, isdigit, between. lia. Qed.
Lemma decimals_digits ds txt : decimals ds txt -> separated ds txt /\ Forall (fun c => isdigit c = true) ds.
Proof. intros [H1 H2]. split; [exact H1|]. eapply Forall_impl; [|exact H2]. intros a Ha. apply decimal_digit. exact Ha. Qed.
Lemma not_ident_parts c : ~ ident_char c -> isxdigit c = false /\ isdigit c = false /\ c <> "_"%ch /\ isalpha c = false.
Proof. unfold ident_char, ident_start, isxdigit, isdigit, isalpha, between. lia. Qed.
Lemma ends_number_lex r : SpecLexeme.ends_number r -> LexNumbers.ends_number r.
Proof.
  intros [H1 H2]. destruct (not_ident_parts _ H1) as (H3 & H4 & H5 & _). split; [exact H3|]. split; [exact H5|].
  destruct (N.eq_dec (hd 0 r) "."%ch) as [E|E]; [right|left; exact E].
  destruct (isdigit (hd 0 (tl r))) eqn:Ed; [|reflexivity]. exfalso. apply (H2 E). apply decimal_digit. exact Ed.
Qed.

Lemma int_fwd f ds txt r : at_text f (txt ++ r) -> sound (L_int ds txt) -> SpecLexeme.ends_number r ->
  reads f txt (int_token ds (l_tline f) (l_tcol f) (l_ws f)).
Proof.
  intros Hat [Hd H0] Hr. destruct (decimals_digits _ _ Hd) as [Hs Hf].
  change (int_token ds (l_tline f) (l_tcol f) (l_ws f)) with (int_tok f (numval 10 ds) ds).
  apply reads_n. destruct (N.eq_dec (hd 0 ds) "0"%ch) as [E|E].
  - destruct (H0 E) as [-> ->]. change (numval 10 ["0"%ch]) with 0.
    assert (Hn : forall c, ident_char c -> hd 0 r <> c) by (intros c Hc E2; destruct Hr as [Hr _]; rewrite E2 in Hr; auto).
    apply (lex_zero f r Hat (ends_number_lex _ Hr)); apply Hn; unfold ident_char, ident_start; lia.
  - apply (lex_decimal f ds txt r Hs Hf E Hat (ends_number_lex _ Hr)).
Qed.

Lemma float_fwd f ds txt fs ftxt r : at_text f ((txt ++ "."%ch :: ftxt) ++ r) -> sound (L_float ds txt fs ftxt) -> ~ ident_char (hd 0 r) ->
  reads f (txt ++ "."%ch :: ftxt) (tk4 f T_Float None 0 (ds ++ "."%ch :: fs)).
Proof.
  intros Hat (Hd & Hfd & H0) Hr. destruct (decimals_digits _ _ Hd) as [Hs Hf]. destruct (decimals_digits _ _ Hfd) as [Hs2 Hf2].
  destruct (not_ident_parts _ Hr) as (R1 & R2 & R3 & R4).
  rewrite <- app_assoc in Hat. cbn [app] in Hat.
  destruct (separated_head _ _ _ Hs Hf) as (d & ds' & t & E1 & E2 & E3).
  destruct (separated_head _ _ _ Hs2 Hf2) as (d2 & ds2' & t2 & E4 & E5 & E6).
  apply reads_n. rewrite (lex_switch_digit f d (t ++ "."%ch :: ftxt ++ r)); [|subst txt; exact Hat|exact E3].
  unfold plain.
  assert (En : consume_numeric f = consume_decimal f).
  { unfold consume_numeric. rewrite (at_cur_hd _ _ Hat). destruct (hd 0 (txt ++ _) =? "0"%ch) eqn:E; [|reflexivity].
    apply N.eqb_eq in E. subst txt. cbn [app hd] in E. subst d.
    destruct H0 as [H1 H2]; [subst ds; reflexivity|]. rewrite E1 in H1. injection H1 as ->.
    rewrite H2 in Hat. cbn [app] in Hat. rewrite (at_peek _ _ _ Hat). reflexivity. }
  rewrite En. unfold consume_decimal.
  rewrite (digit_loop_fwd isdigit (loop_fuel f)) with (ds := ds) (txt := txt) (r := "."%ch :: ftxt ++ r);
    [|intros c Hc ->; discriminate|auto|auto|exact Hat|reflexivity|discriminate|rewrite (at_fuel _ _ Hat), app_length; lia].
  cbn [bind app]. pose proof (at_adv_n _ _ _ Hat) as Hg. set (g := advance_n (length txt) f) in *.
  rewrite (at_cur _ _ _ Hg), (at_peek _ _ _ Hg). replace (hd 0 (ftxt ++ r)) with d2 by (subst ftxt; reflexivity). rewrite E6. eqb_consts. cbn [andb orb].
  unfold consume_numeric_as_float. rewrite (at_cur _ _ _ Hg). eqb_consts.
  pose proof (at_adv _ _ _ Hg) as Hg1.
  rewrite (digit_loop_fwd isdigit (loop_fuel (advance g))) with (ds := fs) (txt := ftxt) (r := r);
    [|intros c Hc ->; discriminate|auto|auto|exact Hg1|exact R2|exact R3|rewrite (at_fuel _ _ Hg1), app_length; lia].
  cbn [bind]. rewrite (at_cur_hd _ _ (at_adv_n _ _ _ Hg1)).
  assert (Ee : (hd 0 r =? "e"%ch) || (hd 0 r =? "E"%ch) = false).
  { unfold ident_char, ident_start in Hr. clear - Hr. lia. }
  rewrite Ee. rewrite <- app_assoc. cbn [app].
  assert (Ea : advance_n (length ftxt) (advance g) = advance_n (length (txt ++ "."%ch :: ftxt)) f).
  { rewrite app_length. cbn [length]. unfold g.
    assert (A : forall n m h, advance_n m (advance_n n h) = advance_n (n + m) h).
    { induction n as [|n IH]; intros m h; [reflexivity|]. cbn [advance_n Nat.add]. apply IH. }
    rewrite <- A. reflexivity. }
  rewrite Ea. f_equal. f_equal. f_equal. unfold tkd. rewrite (advance_n_frame _ f). reflexivity.
Qed.

(** ** Variables, symbols, strings *)
Lemma sigil_fwd f k w r t : at_text f ((k :: w) ++ r) -> word w -> ends_word r ->
  consume_word_token f t = Ok (tk4 f t (Some (k :: w)) 0 [], advance_n (length (k :: w)) f).
Proof.
  intros Hat (c & u & -> & Hc & Hu) Hr. unfold consume_word_token.
  rewrite (consume_word_fwd f k (c :: u) r).
  - cbn [bind length]. rewrite tkl_adv. reflexivity.
  - exact Hat.
  - constructor; [apply ident_char_ok; left; exact Hc|eapply Forall_impl; [|exact Hu]; apply ident_char_ok].
  - apply not_ident_char. exact Hr.
Qed.
Lemma word_hd w : word w -> ident_start (hd 0 w).
Proof. intros (c & u & -> & Hc & Hu). exact Hc. Qed.

Lemma ivar_fwd f w r : at_text f (("@"%ch :: w) ++ r) -> word w -> ends_word r ->
  reads f ("@"%ch :: w) (tk4 f T_InstanceVariable (Some ("@"%ch :: w)) 0 []).
Proof.
  intros Hat Hw Hr. apply reads_n. unfold lex_switch. rewrite (at_cur f "@"%ch (w ++ r) Hat). eqb_consts.
  rewrite (at_peek f "@"%ch (w ++ r) Hat).
  assert (E : (hd 0 (w ++ r) =? "@"%ch) = false).
  { pose proof (word_hd w Hw) as H. destruct Hw as (c & u & -> & _). cbn [app hd] in *. unfold ident_start in H. clear - H. lia. }
  rewrite E, (sigil_fwd f "@"%ch w r) by auto. reflexivity.
Qed.
Lemma cvar_fwd f w r : at_text f (("@"%ch :: "@"%ch :: w) ++ r) -> word w -> ends_word r ->
  reads f ("@"%ch :: "@"%ch :: w) (tk4 f T_ClassVariable (Some ("@"%ch :: "@"%ch :: w)) 0 []).
Proof.
  intros Hat Hw Hr. apply reads_n. unfold lex_switch. rewrite (at_cur f "@"%ch ("@"%ch :: w ++ r) Hat). eqb_consts.
  rewrite (at_peek f "@"%ch ("@"%ch :: w ++ r) Hat). cbn [hd]. eqb_consts.
  rewrite (sigil_fwd (advance f) "@"%ch w r); auto; [|apply (at_adv f "@"%ch); exact Hat]. cbn [bind].
  unfold set_lit, tk4, literal_or_blank. cbn [lit].
  assert (Ec : cstr ("@"%ch :: w) = "@"%ch :: w).
  { destruct Hw as (c & u & -> & Hc & Hu). apply (cstr_raw 0 0). constructor; [split; [discriminate|reflexivity]|].
    assert (H : forall a, ident_char a -> a <> 0 /\ (a = 0 -> 0 = 0)) by (unfold ident_char, ident_start; intros; lia).
    constructor; [apply H; left; exact Hc|eapply Forall_impl; [|exact Hu]; exact H]. }
  rewrite Ec. reflexivity.
Qed.
Lemma gvar_fwd f w r : at_text f (("$"%ch :: w) ++ r) -> word w -> ends_word r ->
  reads f ("$"%ch :: w) (tk4 f T_GlobalVariable (Some ("$"%ch :: w)) 0 []).
Proof.
  intros Hat Hw Hr. apply reads_n. unfold lex_switch. rewrite (at_cur f "$"%ch (w ++ r) Hat). eqb_consts.
  rewrite (at_peek f "$"%ch (w ++ r) Hat). pose proof (word_hd w Hw) as H.
  assert (E : hd 0 (w ++ r) = hd 0 w) by (destruct Hw as (c & u & -> & _); reflexivity). rewrite E.
  assert (E2 : (hd 0 w =? "&"%ch) = false /\ between "1"%ch "9"%ch (hd 0 w) = false /\ (hd 0 w =? "-"%ch) = false /\ is_special_global (hd 0 w) = false).
  { unfold is_special_global, between. cbn [existsb]. unfold ident_start in H. clear - H. lia. }
  destruct E2 as (E3 & E4 & E5 & E6). rewrite E3, E4. unfold consume_global_variable.
  rewrite (at_peek f "$"%ch (w ++ r) Hat), E, E6, E5. rewrite (sigil_fwd f "$"%ch w r) by auto. reflexivity.
Qed.

Lemma symbol_fwd f w s r p : at_text f ((":"%ch :: w ++ s) ++ r) -> sound (L_symbol w s) -> here f p -> fits p (l_ws f) (L_symbol w s) r ->
  reads f (":"%ch :: w ++ s) (tk4 f T_Symbol (Some (w ++ s)) 0 []).
Proof.
  intros Hat [Hw Hs] Hh (F1 & F2 & F3).
  cbn [app] in Hat. rewrite <- app_assoc in Hat. pose proof (word_hd w Hw) as H.
  assert (E : forall y, hd 0 (w ++ y) = hd 0 w) by (destruct Hw as (c & u & -> & _); reflexivity).
  pose proof (at_adv _ _ _ Hat) as H1.
  apply reads_n. unfold lex_switch. rewrite (at_cur _ _ _ Hat). eqb_consts.
  rewrite (at_cur_hd _ _ H1), E. change (ty (l_last (advance f))) with (ty (l_last f)). change (l_ws (advance f)) with (l_ws f). rewrite (apart_no f p) by assumption.
  assert (E1 : (hd 0 w =? ":"%ch) = false /\ (hd 0 w =? """"%ch) = false /\ (hd 0 w =? "'"%ch) = false /\ isspace (hd 0 w) || (hd 0 w =? 0) = false).
  { unfold isspace, between. unfold ident_start in H. clear - H. lia. }
  destruct E1 as (-> & -> & -> & ->).
  unfold plain, consume_symbol. rewrite (at_cur_hd _ _ H1), E.
  assert (E2 : forall c, In c ["@"; "$"; "~"; "+"; "-"; "&"; "|"; "^"; "%"; "/"; "*"; "="; "!"; ">"; "<"; "["]%ch -> (hd 0 w =? c) = false).
  { intros c Hc. apply N.eqb_neq. intros Ec. rewrite Ec in H. unfold ident_start in H. cbn [In] in Hc.
    repeat (destruct Hc as [<-|Hc]; [clear - H; lia|]). exact Hc. }
  rewrite !E2 by (cbn [In]; auto 20). cbn [orb].
  destruct Hw as (c & u & -> & Hc & Hu). cbn [app] in H1.
  assert (Hid : is_identifier_char (hd 0 (s ++ r)) = false).
  { apply not_ident_char. destruct (list_eq_dec N.eq_dec s []) as [->|Hne]; [apply F1; reflexivity|apply suffix_ident; auto]. }
  rewrite (word_loop_fwd (loop_fuel (advance f)) (advance f) c u (s ++ r)); auto;
    [|eapply Forall_impl; [|exact Hu]; apply ident_char_ok|rewrite (at_fuel _ _ H1); cbn [length]; rewrite app_length; lia].
  cbn [bind app fst snd]. change (advance_n (S (length u)) (advance f)) with (advance_n (length (c :: u)) (advance f)).
  pose proof (at_adv_n (advance f) (c :: u) (s ++ r) H1) as Hg. set (g := advance_n (length (c :: u)) (advance f)) in *.
  rewrite (at_cur_hd _ _ Hg).
  assert (Eg : g = advance_n (length (":"%ch :: c :: u)) f) by reflexivity.
  destruct Hs as [[<-|[<-|[<-|[]]]]| ->].
  - rewrite app_nil_r. cbn [app] in *. destruct (F1 eq_refl) as [_ F4].
    destruct ((hd 0 r =? "?"%ch) || (hd 0 r =? "!"%ch) || (hd 0 r =? "="%ch)) eqn:Eq.
    + assert (Hi : hd 0 (tl r) = ">"%ch).
      { apply F4. cbn [In]. clear - Eq. lia. }
      destruct r as [|k r']; [discriminate|]. rewrite (at_peek _ _ _ Hg). cbn [tl] in Hi. rewrite Hi. eqb_consts.
      cbn [bind]. rewrite Eg, tkl_adv. reflexivity.
    + cbn [bind]. rewrite Eg, tkl_adv. reflexivity.
  - assert (Hgt : hd 0 r <> ">"%ch) by (apply F2; discriminate). apply N.eqb_neq in Hgt.
    change (s2l "?" ++ r) with ("?"%ch :: r) in *. cbn [hd]. eqb_consts. cbn [orb].
    rewrite (at_peek _ _ _ Hg), Hgt. unfold gobble. rewrite (at_cur _ _ _ Hg). cbn [bind].
    rewrite Eg, adv_S, tkl_adv. replace (length (":"%ch :: c :: u ++ s2l "?")) with (length (":"%ch :: c :: u) + 1)%nat
      by (cbn [length app]; rewrite app_length; cbn; lia). reflexivity.
  - assert (Hgt : hd 0 r <> ">"%ch) by (apply F2; discriminate). apply N.eqb_neq in Hgt.
    change (s2l "!" ++ r) with ("!"%ch :: r) in *. cbn [hd]. eqb_consts. cbn [orb].
    rewrite (at_peek _ _ _ Hg), Hgt. unfold gobble. rewrite (at_cur _ _ _ Hg). cbn [bind].
    rewrite Eg, adv_S, tkl_adv. replace (length (":"%ch :: c :: u ++ s2l "!")) with (length (":"%ch :: c :: u) + 1)%nat
      by (cbn [length app]; rewrite app_length; cbn; lia). reflexivity.
  - assert (Hgt : hd 0 r <> ">"%ch) by (apply F2; discriminate). apply N.eqb_neq in Hgt.
    change (s2l "=" ++ r) with ("="%ch :: r) in *. cbn [hd]. eqb_consts. cbn [orb].
    rewrite (at_peek _ _ _ Hg), Hgt. unfold gobble. rewrite (at_cur _ _ _ Hg). cbn [bind].
    rewrite Eg, adv_S, tkl_adv. replace (length (":"%ch :: c :: u ++ s2l "=")) with (length (":"%ch :: c :: u) + 1)%nat
      by (cbn [length app]; rewrite app_length; cbn; lia). reflexivity.
Qed.

Lemma string_fwd f b r : at_text f (("'"%ch :: raw_quoted "'"%ch b ++ ["'"%ch]) ++ r) -> Forall (fun c => c <> 0) b -> hd 0 r <> ":"%ch ->
  reads f ("'"%ch :: raw_quoted "'"%ch b ++ ["'"%ch]) (tk4 f T_String (Some b) 0 []).
Proof.
  intros Hat Hb Hr. cbn [app] in Hat. rewrite <- app_assoc in Hat. cbn [app] in Hat. pose proof (at_adv _ _ _ Hat) as H1.
  apply reads_n. unfold lex_switch. rewrite (at_cur _ _ _ Hat). eqb_consts.
  rewrite (single_fwd (advance f) "'"%ch "'"%ch b r); auto; try discriminate.
  - cbv zeta. unfold plain. cbn [bind]. cbn [length]. rewrite app_length. cbn [length].
    change (advance_n (S (length (raw_quoted "'"%ch b))) (advance f)) with (advance_n (S (S (length (raw_quoted "'"%ch b)))) f).
    rewrite tkl_adv. replace (length (raw_quoted "'"%ch b) + 1)%nat with (S (length (raw_quoted "'"%ch b))) by lia. reflexivity.
  - eapply Forall_impl; [|exact Hb]. intros a Ha. auto.
Qed.

Lemma newline_fwd f r : at_text f (ch_nl :: r) -> l_heredocs f = [] -> reads f [ch_nl] (tk4 f T_Newline None 0 []).
Proof. intros Hat Hh. apply reads_n. rewrite (lex_newline _ _ Hat), Hh. reflexivity. Qed.

Lemma comment_loop_fwd w : forall f r fuel, at_text f ("#"%ch :: w ++ r) -> Forall (fun c => c <> 0 /\ c <> ch_nl /\ c <> ch_cr) w ->
  (r = [] \/ hd 0 r = ch_nl \/ hd 0 r = ch_cr) -> (length w < fuel)%nat ->
  comment_loop fuel f = Ok (advance_n (S (length w)) f).
Proof.
  assert (G : forall w k f r fuel, at_text f (k :: w ++ r) -> Forall (fun c => c <> 0 /\ c <> ch_nl /\ c <> ch_cr) w ->
    (r = [] \/ hd 0 r = ch_nl \/ hd 0 r = ch_cr) -> (length w < fuel)%nat -> comment_loop fuel f = Ok (advance_n (S (length w)) f)).
  { clear w. induction w as [|c w IH]; intros k f r fuel Hat Hw Hr Hf; destruct fuel as [|fuel]; cbn [length] in Hf; try lia; cbn [comment_loop]; cbv zeta.
    - pose proof (at_adv _ _ _ Hat) as H1. cbn [app] in H1. rewrite (at_cur_hd _ _ H1).
      replace (negb (hd 0 r =? 0) && negb (hd 0 r =? ch_nl) && negb (hd 0 r =? ch_cr)) with false; [reflexivity|].
      destruct Hr as [->|[->| ->]]; reflexivity.
    - pose proof (at_adv _ _ _ Hat) as H1. cbn [app] in H1. rewrite (at_cur _ _ _ H1). inversion Hw as [|? ? [C1 [C2 C3]] Hw']; subst.
      apply N.eqb_neq in C1, C2, C3. rewrite C1, C2, C3. cbn [negb andb]. rewrite (IH c (advance f) r) by (auto; lia). reflexivity. }
  intros f r fuel. apply G.
Qed.
Lemma comment_fwd f w r p : at_text f (("#"%ch :: w) ++ r) -> sound (L_comment w) -> here f p -> fits p (l_ws f) (L_comment w) r ->
  reads f ("#"%ch :: w) (tk4 f T_Comment None 0 []).
Proof.
  intros Hat Hw [Hp Hp' _ _ _] (F1 & F2 & F3). apply reads_n. unfold lex_switch. cbn [app] in Hat. rewrite (at_cur _ _ _ Hat). eqb_consts.
  unfold token_is_first_on_line. rewrite Hp.
  replace (negb (is_valid (prev p)) || is_newline (prev p)) with false.
  - rewrite (comment_loop_fwd w f r (loop_fuel f) Hat Hw F3); [|rewrite (at_fuel _ _ Hat); cbn [length]; rewrite app_length; lia].
    change ("#"%ch =? ch_nl) with false. cbn [bind]. unfold ret.
    replace (tk (advance_n (S (length w)) f) T_Comment) with (tk4 f T_Comment None 0 []); [reflexivity|].
    unfold tk. rewrite (advance_n_frame (S (length w)) f). reflexivity.
  - destruct Hp' as [Hp'| ->]; [congruence|]. destruct (prev p); try reflexivity. congruence.
Qed.

Definition raw_of (l : lexeme) (line col : nat) (ws : bool) : token :=
  match token_of l line col ws with Some t => t | None => Tok T_Comment None None 0 [] line col ws end.

(** ** Other numbers *)
Lemma advance_n_add n : forall m h, advance_n m (advance_n n h) = advance_n (n + m) h.
Proof. induction n as [|n IH]; intros m h; [reflexivity|]. cbn [advance_n Nat.add]. apply IH. Qed.
Lemma digits_fwd g ds txt r buf : decimals ds txt -> at_text g (txt ++ r) -> isdigit (hd 0 r) = false -> hd 0 r <> "_"%ch ->
  digit_loop (loop_fuel g) isdigit g buf = Ok (buf ++ ds, advance_n (length txt) g).
Proof.
  intros Hd Hg H1 H2. destruct (decimals_digits _ _ Hd) as [Hs Hf].
  apply (digit_loop_fwd isdigit (loop_fuel g)) with (r := r); auto; [intros c Hc ->; discriminate|rewrite (at_fuel _ _ Hg), app_length; lia].
Qed.
Lemma exp_fwd f ds txt frac m sg es etxt r :
  at_text f (spelling (L_exp ds txt frac m sg es etxt) ++ r) -> sound (L_exp ds txt frac m sg es etxt) -> ends_word r ->
  reads f (spelling (L_exp ds txt frac m sg es etxt)) (raw_of (L_exp ds txt frac m sg es etxt) (l_tline f) (l_tcol f) (l_ws f)).
Proof.
  intros Hat (Hd & Hfr & Hex & Hm & Hsg & H0) Hr. cbn [spelling raw_of token_of] in *.
  destruct (not_ident_parts _ Hr) as (R1 & R2 & R3 & R4).
  set (fr := match frac with Some (_, ftxt) => "."%ch :: ftxt | None => [] end) in *.
  set (fd := match frac with Some (fs, _) => "."%ch :: fs | None => [] end).
  repeat rewrite <- app_assoc in Hat. cbn [app] in Hat. rewrite <- app_assoc in Hat.
  destruct (decimals_digits _ _ Hd) as [Hs Hf].
  destruct (separated_head _ _ _ Hs Hf) as (d & ds' & t & E1 & E2 & E3).
  assert (Hme : isdigit m = false /\ m <> "_"%ch /\ (m =? "."%ch) = false /\ (m =? "e"%ch) || (m =? "E"%ch) = true).
  { destruct Hm as [-> | ->]; repeat split; discriminate. }
  destruct Hme as (M1 & M2 & M3 & M4).
  apply reads_n. rewrite (lex_switch_digit f d (t ++ fr ++ m :: sg ++ etxt ++ r)); [|subst txt; exact Hat|exact E3].
  unfold plain.
  assert (Hh : hd 0 (fr ++ m :: sg ++ etxt ++ r) = "."%ch \/ hd 0 (fr ++ m :: sg ++ etxt ++ r) = m).
  { unfold fr. destruct frac as [[fs ftxt]|]; [left|right]; reflexivity. }
  assert (En : consume_numeric f = consume_decimal f).
  { unfold consume_numeric. rewrite (at_cur_hd _ _ Hat). destruct (hd 0 (txt ++ _) =? "0"%ch) eqn:E; [|reflexivity].
    apply N.eqb_eq in E. subst txt. cbn [app hd] in E. subst d.
    destruct H0 as [H1 H2]; [subst ds; reflexivity|]. rewrite E1 in H1. injection H1 as ->.
    rewrite H2 in Hat. cbn [app] in Hat. rewrite (at_peek _ _ _ Hat).
    destruct Hh as [-> | ->]; [reflexivity|]. destruct Hm as [-> | ->]; reflexivity. }
  rewrite En. unfold consume_decimal.
  rewrite (digits_fwd f ds txt (fr ++ m :: sg ++ etxt ++ r)); auto;
    [|destruct Hh as [-> | ->]; auto|destruct Hh as [-> | ->]; auto; discriminate].
  cbn [bind app]. pose proof (at_adv_n _ _ _ Hat) as Hg.
  assert (Ec : consume_numeric_as_float (advance_n (length txt) f) ds =
    (let* (chars, f) := Ok (ds ++ fd, advance_n (length (txt ++ fr)) f) in
     let c := current_char f in
     if (c =? "e"%ch) || (c =? "E"%ch) then
       let chars := chars ++ ["e"%ch] in
       let f := advance f in
       let c := current_char f in
       let sign := (c =? "-"%ch) || (c =? "+"%ch) in
       let chars := if sign then chars ++ [c] else chars in
       let f := if sign then advance f else f in
       let c := current_char f in
       if negb (isdigit c) then Ok (tkcl f T_Invalid [c], f)
       else let* (chars, f) := digit_loop (loop_fuel f) isdigit f chars in Ok (tkd f T_Float chars, f)
     else Ok (tkd f T_Float chars, f)) /\
    (((current_char (advance_n (length txt) f) =? "."%ch) && isdigit (peek (advance_n (length txt) f))) ||
     ((current_char (advance_n (length txt) f) =? "e"%ch) || (current_char (advance_n (length txt) f) =? "E"%ch)) = true)).
  { unfold consume_numeric_as_float. unfold fr, fd in *. destruct frac as [[fs ftxt]|]; cbn [app] in Hg.
    - destruct (decimals_digits _ _ Hfr) as [Hs2 Hf2]. destruct (separated_head _ _ _ Hs2 Hf2) as (d2 & ds2' & t2 & E4 & E5 & E6).
      pose proof (at_adv _ _ _ Hg) as Hg1. split.
      + rewrite (at_cur _ _ _ Hg). eqb_consts.
        rewrite (digits_fwd _ fs ftxt (m :: sg ++ etxt ++ r)); auto. cbn [bind].
        rewrite app_length. cbn [length]. change (advance (advance_n (length txt) f)) with (advance_n 1 (advance_n (length txt) f)). rewrite !advance_n_add.
        replace (length txt + 1 + length ftxt)%nat with (length txt + S (length ftxt))%nat by lia.
        replace ((ds ++ ["."%ch]) ++ fs) with (ds ++ "."%ch :: fs) by (rewrite <- app_assoc; reflexivity). reflexivity.
      + rewrite (at_cur _ _ _ Hg), (at_peek _ _ _ Hg). subst ftxt. cbn [app hd]. rewrite E6. reflexivity.
    - rewrite !app_nil_r. split; [rewrite (at_cur _ _ _ Hg), M3; reflexivity|]. rewrite (at_cur _ _ _ Hg), M3, M4. reflexivity. }
  destruct Ec as [Ec1 Ec2]. rewrite Ec2, Ec1. cbn [bind]. clear Ec1 Ec2.
  rewrite app_assoc in Hat. pose proof (at_adv_n _ _ _ Hat) as Hk. rewrite (at_cur _ _ _ Hk), M4.
  pose proof (at_adv _ _ _ Hk) as Hk1. set (k := advance (advance_n (length (txt ++ fr)) f)) in *.
  destruct (decimals_digits _ _ Hex) as [Hs3 Hf3]. destruct (separated_head _ _ _ Hs3 Hf3) as (d3 & ds3' & t3 & E7 & E8 & E9).
  assert (Fin : forall k' chars n, at_text k' (etxt ++ r) -> k' = advance_n n f ->
     (if negb (isdigit (current_char k')) then Ok (tkcl k' T_Invalid [current_char k'], k')
      else let* (chars, f) := digit_loop (loop_fuel k') isdigit k' chars in Ok (tkd f T_Float chars, f))
     = Ok (tk4 f T_Float None 0 (chars ++ es), advance_n (n + length etxt) f)).
  { intros k' chars n Hk' Ek. replace (current_char k') with d3 by (symmetry; rewrite (at_cur_hd _ _ Hk'); subst etxt; reflexivity).
    rewrite E9. cbn [negb]. rewrite (digits_fwd k' es etxt r) by auto. cbn [bind]. subst k'. rewrite advance_n_add.
    f_equal. f_equal. unfold tkd. rewrite (advance_n_frame _ f). reflexivity. }
  assert (Ek : k = advance_n (length (txt ++ fr) + 1) f) by (unfold k; apply adv_S).
  destruct Hsg as [<-|[<-|[<-|[]]]].
  - cbn [app] in *. assert (Eh : current_char k = d3) by (rewrite (at_cur_hd _ _ Hk1); subst etxt; reflexivity).
    cbv zeta. replace ((current_char k =? "-"%ch) || (current_char k =? "+"%ch)) with false
      by (rewrite Eh; apply decimal_digit in E9; unfold decimal in E9; clear - E9; lia). cbv iota.
    rewrite (Fin k _ _ Hk1 Ek). cbn [bind].
    match goal with |- Ok (?a, ?b, _) = Ok (?a', ?b', _) => cut (a = a' /\ b = b'); [intros [-> ->]; reflexivity|split] end.
    + unfold tk4. repeat rewrite <- app_assoc. reflexivity.
    + f_equal. clear. rewrite !app_length. cbn. lia.
  - change (s2l "+" ++ etxt ++ r) with ("+"%ch :: etxt ++ r) in Hk1. pose proof (at_adv _ _ _ Hk1) as Hk2. cbv zeta. rewrite (at_cur _ _ _ Hk1). eqb_consts. cbn [orb].
    rewrite (Fin (advance k) _ (length (txt ++ fr) + 2)%nat Hk2); [|rewrite Ek, adv_S; f_equal; lia]. cbn [bind].
    match goal with |- Ok (?a, ?b, _) = Ok (?a', ?b', _) => cut (a = a' /\ b = b'); [intros [-> ->]; reflexivity|split] end.
    + unfold tk4. repeat rewrite <- app_assoc. reflexivity.
    + f_equal. clear. rewrite !app_length. cbn. lia.
  - change (s2l "-" ++ etxt ++ r) with ("-"%ch :: etxt ++ r) in Hk1. pose proof (at_adv _ _ _ Hk1) as Hk2. cbv zeta. rewrite (at_cur _ _ _ Hk1). eqb_consts. cbn [orb].
    rewrite (Fin (advance k) _ (length (txt ++ fr) + 2)%nat Hk2); [|rewrite Ek, adv_S; f_equal; lia]. cbn [bind].
    match goal with |- Ok (?a, ?b, _) = Ok (?a', ?b', _) => cut (a = a' /\ b = b'); [intros [-> ->]; reflexivity|split] end.
    + unfold tk4. repeat rewrite <- app_assoc. reflexivity.
    + f_equal. clear. rewrite !app_length. cbn. lia.
Qed.

Lemma radix_is m k : radix_of m = Some k -> exists p, radix m (base k) (lead k) p /\ (forall c, digit k c = true -> p c = true).
Proof.
  unfold radix_of. intros H.
  assert (B : forall c, isbinary c = (c =? "0"%ch) || (c =? "1"%ch)) by reflexivity.
  cbn [radices find marks existsb] in H. rewrite !orb_false_r in H.
  match type of H with context [if ?b then _ else _] => destruct b eqn:E1 end.
  { injection H as <-. cbn [base lead digit]. exists isdigit. split; [constructor; clear - E1; lia|]. intros c Hc. apply isdigit_iff. clear - Hc. lia. }
  match type of H with context [if ?b then _ else _] => destruct b eqn:E2 end.
  { injection H as <-. cbn [base lead digit]. exists isoctal. split; [constructor; clear - E2; lia|]. intros c Hc. apply isoctal_iff. clear - Hc. lia. }
  match type of H with context [if ?b then _ else _] => destruct b eqn:E3 end.
  { injection H as <-. cbn [base lead digit]. exists isbinary. split; [constructor; clear - E3; lia|]. intros c Hc. rewrite B. clear - Hc. lia. }
  match type of H with context [if ?b then _ else _] => destruct b eqn:E4 end; [|discriminate].
  injection H as <-. cbn [base lead digit]. exists isxdigit. split; [constructor; clear - E4; lia|].
  intros c Hc. apply isxdigit_iff. clear - Hc. lia.
Qed.
Lemma radix_fwd f m ds txt r : at_text f (("0"%ch :: m :: txt) ++ r) -> sound (L_radix m ds txt) -> SpecLexeme.ends_number r ->
  reads f ("0"%ch :: m :: txt) (raw_of (L_radix m ds txt) (l_tline f) (l_tcol f) (l_ws f)).
Proof.
  intros Hat (k & Hk & Hs & Hd) Hr. destruct (radix_is _ _ Hk) as (p & Hp & Hpd). unfold raw_of, token_of. rewrite Hk.
  change (number_token (numval (base k) ds) (lead k ++ ds) (l_tline f) (l_tcol f) (l_ws f)) with (int_tok f (numval (base k) ds) (lead k ++ ds)).
  apply reads_n. apply (lex_prefixed f m (base k) (lead k) p ds txt r Hp Hs).
  - eapply Forall_impl; [|exact Hd]. exact Hpd.
  - exact Hat.
  - apply ends_number_lex. exact Hr.
Qed.

(** ** Other variables *)
Lemma special_fwd f w r : at_text f (("$"%ch :: w) ++ r) -> sound (L_special w) ->
  reads f ("$"%ch :: w) (tk4 f T_GlobalVariable (Some ("$"%ch :: w)) 0 []).
Proof.
  intros Hat [Hw|(c & -> & Hc)]; apply reads_n; unfold lex_switch; rewrite (at_cur f _ _ Hat); eqb_consts; rewrite (at_peek f _ _ Hat); unfold consume_global_variable; rewrite (at_peek f _ _ Hat).
  - pose proof (at_adv _ _ _ Hat) as H1. cbn [map In] in Hw.
    repeat (destruct Hw as [<-|Hw]; [cbn [app] in H1 |- *; cbn [hd]; eqb_consts;
      match goal with |- context [is_special_global ?c] => change (is_special_global c) with true end; cbv iota;
      rewrite (at_cur _ _ _ H1); cbn; unfold tkl, tk4; rewrite ?(advance_n_frame 2 f); reflexivity|]). contradiction.
  - pose proof (at_adv _ _ _ Hat) as H1. pose proof (at_adv _ _ _ H1) as H2. cbn [app hd]. eqb_consts.
    change (is_special_global "-"%ch) with false. cbv iota. cbn [advance_n]. rewrite (at_cur _ _ _ H2). reflexivity.
Qed.
Lemma match_fwd f r : at_text f (s2l "$&" ++ r) -> reads f (s2l "$&") (tk4 f T_BackRef (Some (s2l "&")) 0 []).
Proof. intros Hat. change (s2l "$&" ++ r) with ("$"%ch :: "&"%ch :: r) in Hat. apply reads_n. unfold lex_switch. rewrite (at_cur f _ _ Hat). eqb_consts. rewrite (at_peek f _ _ Hat). reflexivity. Qed.
Lemma dval_decimal c : decimal c -> schar c = Z.of_N c /\ Z.of_N (dval c) = (Z.of_N c - 48)%Z /\ isdigit c = true.
Proof.
  intros H. split; [|split; [|apply decimal_digit; exact H]]; unfold decimal in H.
  - unfold schar. destruct (c <? 128) eqn:E; [reflexivity|lia].
  - unfold dval. repeat match goal with |- context [if ?b then _ else _] => destruct b eqn:? end; lia.
Qed.
Lemma numval_from_ge base ds : 1 <= base -> forall acc, acc <= numval_from base acc ds.
Proof. intros Hb. induction ds as [|d ds IH]; intros acc; cbn [numval_from]; [lia|]. eapply N.le_trans; [|apply IH]. replace acc with (acc * 1) at 1 by lia.
  eapply N.le_trans; [apply N.mul_le_mono_l; exact Hb|lia]. Qed.
Lemma nth_loop_fwd ds : forall d f r acc fuel, at_text f (d :: ds ++ r) -> Forall decimal (d :: ds) -> ~ decimal (hd 0 r) ->
  numval_from 10 acc (d :: ds) < 2 ^ 63 -> (length ds < fuel)%nat ->
  nth_ref_loop fuel f (Z.of_N acc) = Ok (Z.of_N (numval_from 10 acc (d :: ds)), advance_n (S (length ds)) f).
Proof.
  induction ds as [|e ds IH]; intros d f r acc fuel Hat Hd Hr Hv Hf; (destruct fuel as [|fuel]; [cbn [length] in Hf; lia|]); cbn [nth_ref_loop]; cbv zeta;
    inversion Hd as [|? ? D1 D2]; subst; destruct (dval_decimal _ D1) as (S1 & S2 & _); rewrite (at_cur _ _ _ Hat), S1;
    replace (Z.of_N acc * 10 + (Z.of_N d - 48))%Z with (Z.of_N (acc * 10 + dval d)) by lia.
  - cbn [numval_from] in Hv. replace (llong_max <? Z.of_N (acc * 10 + dval d))%Z with false
      by (symmetry; apply Z.ltb_ge; change llong_max with (Z.of_N (2 ^ 63 - 1)); apply N2Z.inj_le; apply N.lt_le_pred in Hv; exact Hv).
    pose proof (at_adv _ _ _ Hat) as H1. cbn [app] in H1. rewrite (at_cur_hd _ _ H1).
    destruct (isdigit (hd 0 r)) eqn:E; [exfalso; apply Hr, decimal_digit; exact E|]. reflexivity.
  - change (numval_from 10 acc (d :: e :: ds)) with (numval_from 10 (acc * 10 + dval d) (e :: ds)) in *.
    assert (Hl : acc * 10 + dval d < 2 ^ 63) by (eapply N.le_lt_trans; [apply (numval_from_ge 10 (e :: ds)); discriminate|exact Hv]).
    replace (llong_max <? Z.of_N (acc * 10 + dval d))%Z with false
      by (symmetry; apply Z.ltb_ge; change llong_max with (Z.of_N (2 ^ 63 - 1)); apply N2Z.inj_le; apply N.lt_le_pred in Hl; exact Hl).
    pose proof (at_adv _ _ _ Hat) as H1. cbn [app] in H1. rewrite (at_cur _ _ _ H1).
    inversion D2 as [|? ? D3 D4]; subst. rewrite (proj2 (proj2 (dval_decimal _ D3))).
    rewrite (IH e (advance f) r _ fuel H1 D2 Hr Hv) by (cbn [length] in Hf; lia). reflexivity.
Qed.
Lemma group_fwd f ds r : at_text f (("$"%ch :: ds) ++ r) -> sound (L_group ds) -> ~ decimal (hd 0 r) ->
  reads f ("$"%ch :: ds) (tk4 f T_NthRef None (Z.of_N (numval 10 ds)) []).
Proof.
  intros Hat (Hne & Hd & H0 & Hv) Hr. destruct ds as [|d ds]; [congruence|]. cbn [app hd] in *. apply reads_n. unfold lex_switch. rewrite (at_cur f _ _ Hat). eqb_consts.
  rewrite (at_peek f _ _ Hat). cbn [hd]. inversion Hd as [|? ? D1 D2]; subst.
  assert (E : (d =? "&"%ch) = false /\ between "1"%ch "9"%ch d = true) by (unfold between; unfold decimal in D1; clear - D1 H0; lia).
  destruct E as [-> ->]. unfold plain, consume_nth_ref. pose proof (at_adv _ _ _ Hat) as H1.
  change 0%Z with (Z.of_N 0) at 1. rewrite (nth_loop_fwd ds d (advance f) r 0 _ H1 Hd Hr Hv) by (rewrite (at_fuel _ _ H1); cbn [length]; rewrite app_length; lia).
  cbn [bind]. f_equal. f_equal. f_equal. unfold tkz. change (advance_n (S (length ds)) (advance f)) with (advance_n (S (S (length ds))) f). rewrite (advance_n_frame _ f). reflexivity.
Qed.
Lemma char_fwd f c r : at_text f (["?"%ch; c] ++ r) -> sound (L_char c) -> reads f ["?"%ch; c] (tk4 f T_String (Some [c]) 0 []).
Proof.
  intros Hat (C1 & C2 & C3 & C4). cbn [app] in Hat. pose proof (at_adv _ _ _ Hat) as H1. apply reads_n. unfold lex_switch. rewrite (at_cur f _ _ Hat). eqb_consts.
  rewrite (at_cur _ _ _ H1). replace (isspace c || (c =? 0)) with false by (unfold isspace, between; clear - C1 C2 C4; lia).
  apply N.eqb_neq in C3. rewrite C3. reflexivity.
Qed.

(** ** Other symbols *)
Definition longest_opb (w r : str) : bool := forallb (fun p => (length p <=? length w)%nat || negb (prefixb p (w ++ r))) operators.
Lemma longest_op_b w r : (forall w' r', In w' operators -> w ++ r = w' ++ r' -> (length w' <= length w)%nat) -> longest_opb w r = true.
Proof.
  intros H. apply forallb_forall. intros p Hin.
  destruct (prefixb p (w ++ r)) eqn:E; [|apply orb_true_r].
  destruct (prefixb_true _ _ E) as [r' E']. rewrite (proj2 (Nat.leb_le _ _) (H p r' Hin E')). reflexivity.
Qed.
Lemma symbol_open f c w r p : at_text f (":"%ch :: c :: w ++ r) -> here f p -> apart p (l_ws f) -> ~ In c [":"; """"; "'"; " "]%ch -> isspace c || (c =? 0) = false ->
  lex_switch f = plain (consume_symbol (advance f)).
Proof.
  intros Hat Hh Hap Hc H0. pose proof (at_adv _ _ _ Hat) as H1.
  unfold lex_switch. rewrite (at_cur _ _ _ Hat). eqb_consts. rewrite (at_cur _ _ _ H1).
  change (ty (l_last (advance f))) with (ty (l_last f)). change (l_ws (advance f)) with (l_ws f). rewrite (apart_no f p) by assumption. cbn [In] in Hc.
  assert (N : (c =? ":"%ch) = false /\ (c =? """"%ch) = false /\ (c =? "'"%ch) = false) by (clear - Hc; lia). destruct N as (-> & -> & ->).
  rewrite H0. reflexivity.
Qed.
Lemma operator_fwd f w r p : at_text f ((":"%ch :: w) ++ r) -> sound (L_operator w) -> here f p -> fits p (l_ws f) (L_operator w) r ->
  reads f (":"%ch :: w) (tk4 f T_Symbol (Some w) 0 []).
Proof.
  intros Hat Hw Hh (L & Hx & Hap). apply longest_op_b in L. cbn [sound operators map In] in Hw.
  cbn [app] in Hat. pose proof (at_adv _ _ _ Hat) as H1.
  repeat (destruct Hw as [Hw|Hw]); try contradiction; subst w;
    match type of Hat with at_text _ (_ :: ?w ++ r) => let v := eval vm_compute in w in change (w ++ r) with (v ++ r) in Hat, H1; change w with v in L, Hx |- *; cbn [app] in Hat, H1 end;
    try pose proof (at_adv _ _ _ H1) as H2; try pose proof (at_adv _ _ _ H2) as H3; try pose proof (at_adv _ _ _ H3) as H4;
    apply reads_n;
    match type of H1 with at_text _ (?c :: ?w') => rewrite (symbol_open f c [] w' p Hat Hh Hap); [|cbn; lia|reflexivity] end;
    unfold plain, consume_symbol, gobble; cbn [snd fst].
  all: try (assert (Ha : hd 0 r <> "@"%ch) by (apply Hx; cbn; auto); apply N.eqb_neq in Ha).
  all: repeat (known; eqb_consts; cbn [fst snd app orb]); try (rewrite (at_peek _ _ _ H1); cbn [hd]; eqb_consts; repeat (known; eqb_consts; cbn [fst snd app orb])).
  all: try rewrite Ha; notlonger r L; cbn [orb bind fst snd app]; repeat (known; cbn [app]); reflexivity.
Qed.
Lemma variable_fwd f w r p : at_text f ((":"%ch :: w) ++ r) -> sound (L_variable w) -> here f p -> fits p (l_ws f) (L_variable w) r ->
  reads f (":"%ch :: w) (tk4 f T_Symbol (Some w) 0 []).
Proof.
  intros Hat (s & u & -> & Hs & (c & v & -> & Hc & Hv)) Hh [Hr Hap]. cbn [app] in Hat.
  assert (Hvc : Forall (fun c => is_identifier_char c = true) v) by (eapply Forall_impl; [|exact Hv]; apply ident_char_ok).
  assert (Hna : (c =? "@"%ch) = false) by (clear - Hc; unfold ident_start in Hc; lia).
  apply not_ident_char in Hr. rewrite <- app_assoc in Hat. pose proof (at_adv _ _ _ Hat) as H1.
  apply reads_n. cbn [app] in *.
  destruct Hs as [<-|[<-|[<-|[]]]].
  - change (s2l "@" ++ c :: v ++ r) with ("@"%ch :: c :: v ++ r) in *. pose proof (at_adv _ _ _ H1) as H2.
    rewrite (symbol_open f "@"%ch [] (c :: v ++ r) p Hat Hh Hap) by (cbn; lia || reflexivity). unfold plain, consume_symbol, gobble.
    repeat (known; eqb_consts; cbn [fst snd app orb]). rewrite Hna. cbn [fst snd].
    rewrite (word_loop_fwd (loop_fuel _) _ c v r _ H2 Hvc Hr) by (rewrite (at_fuel _ _ H2); cbn [length]; rewrite app_length; lia).
    cbn [bind app]. change (advance_n (S (length v)) (advance (advance f))) with (advance_n (S (S (S (length v)))) f). rewrite tkl_adv. reflexivity.
  - change (s2l "@@" ++ c :: v ++ r) with ("@"%ch :: "@"%ch :: c :: v ++ r) in *. pose proof (at_adv _ _ _ H1) as H2. pose proof (at_adv _ _ _ H2) as H3.
    rewrite (symbol_open f "@"%ch [] ("@"%ch :: c :: v ++ r) p Hat Hh Hap) by (cbn; lia || reflexivity). unfold plain, consume_symbol, gobble.
    repeat (known; eqb_consts; cbn [fst snd app orb]).
    rewrite (word_loop_fwd (loop_fuel _) _ c v r _ H3 Hvc Hr) by (rewrite (at_fuel _ _ H3); cbn [length]; rewrite app_length; lia).
    cbn [bind app]. change (advance_n (S (length v)) (advance (advance (advance f)))) with (advance_n (S (S (S (S (length v))))) f). rewrite tkl_adv. reflexivity.
  - change (s2l "$" ++ c :: v ++ r) with ("$"%ch :: c :: v ++ r) in *. pose proof (at_adv _ _ _ H1) as H2.
    rewrite (symbol_open f "$"%ch [] (c :: v ++ r) p Hat Hh Hap) by (cbn; lia || reflexivity). unfold plain, consume_symbol, gobble.
    repeat (known; eqb_consts; cbn [fst snd app orb]).
    rewrite (word_loop_fwd (loop_fuel _) _ c v r _ H2 Hvc Hr) by (rewrite (at_fuel _ _ H2); cbn [length]; rewrite app_length; lia).
    cbn [bind app]. change (advance_n (S (length v)) (advance (advance f))) with (advance_n (S (S (S (length v)))) f). rewrite tkl_adv. reflexivity.
Qed.

(** ** Any of them *)
Lemma lexeme_fwd f l r p : at_text f (spelling l ++ r) -> sound l -> here f p -> l_heredocs f = [] -> fits p (l_ws f) l r ->
  reads f (spelling l) (raw_of l (l_tline f) (l_tcol f) (l_ws f)).
Proof.
  intros Hat Hs Hh Hd Hf. destruct l; cbn [spelling raw_of token_of] in *.
  - eapply name_fwd; eauto.
  - eapply keyword_fwd; eauto.
  - eapply int_fwd; eauto.
  - eapply float_fwd; eauto.
  - eapply punct_fwd; eauto.
  - eapply ivar_fwd; eauto.
  - eapply cvar_fwd; eauto.
  - eapply gvar_fwd; eauto.
  - eapply symbol_fwd; eauto.
  - eapply key_fwd; eauto.
  - eapply string_fwd; eauto.
  - eapply newline_fwd; eauto.
  - eapply comment_fwd; eauto.
  - eapply exp_fwd; eauto.
  - eapply radix_fwd; eauto.
  - eapply special_fwd; eauto.
  - eapply match_fwd; eauto.
  - eapply group_fwd; eauto.
  - eapply char_fwd; eauto.
  - eapply operator_fwd; eauto.
  - eapply variable_fwd; eauto.
Qed.

(** Where an element starts, no blank does. *)
Lemma spelling_start l r : sound l -> exists c w, spelling l ++ r = c :: w /\ c <> " "%ch /\ c <> ch_tab /\ c <> ch_bs.
Proof.
  assert (W : forall w x, word w -> exists c y, w ++ x = c :: y /\ c <> " "%ch /\ c <> ch_tab /\ c <> ch_bs).
  { intros w x (c & u & -> & Hc & _). exists c, (u ++ x). split; [reflexivity|]. unfold ident_start in Hc. unfold ch_tab, ch_bs. lia. }
  assert (D : forall ds txt x, decimals ds txt -> exists c y, txt ++ x = c :: y /\ c <> " "%ch /\ c <> ch_tab /\ c <> ch_bs).
  { intros ds txt x Hd. destruct (decimals_digits _ _ Hd) as [Hs Hf]. destruct (separated_head _ _ _ Hs Hf) as (d & ds' & t & E1 & E2 & E3).
    subst txt. exists d, (t ++ x). split; [reflexivity|]. unfold isdigit, between in E3. unfold ch_tab, ch_bs. lia. }
  assert (T : forall (tab : list (str * ttype)) w t x,
    forallb (fun p => match fst p with c :: _ => negb (c =? " "%ch) && negb (c =? ch_tab) && negb (c =? ch_bs) | [] => false end) tab = true ->
    In (w, t) tab -> exists c y, w ++ x = c :: y /\ c <> " "%ch /\ c <> ch_tab /\ c <> ch_bs).
  { intros tab w t x A Hin. rewrite forallb_forall in A. specialize (A _ Hin). cbn [fst] in A. destruct w as [|c w]; [discriminate|].
    exists c, (w ++ x). split; [reflexivity|]. unfold ch_tab, ch_bs in *. lia. }
  destruct l; cbn [sound spelling]; intros H; try rewrite <- !app_assoc.
  - apply W, H.
  - eapply (T reserved); [reflexivity|apply H].
  - eapply D, H.
  - eapply D, H.
  - eapply (T punctuation); [reflexivity|apply H].
  - do 2 eexists. split; [reflexivity|]. repeat split; discriminate.
  - do 2 eexists. split; [reflexivity|]. repeat split; discriminate.
  - do 2 eexists. split; [reflexivity|]. repeat split; discriminate.
  - do 2 eexists. split; [reflexivity|]. repeat split; discriminate.
  - apply W, H.
  - do 2 eexists. split; [reflexivity|]. repeat split; discriminate.
  - do 2 eexists. split; [reflexivity|]. repeat split; discriminate.
  - do 2 eexists. split; [reflexivity|]. repeat split; discriminate.
  - eapply D, H.
  - do 2 eexists. split; [reflexivity|]. repeat split; discriminate.
  - do 2 eexists. split; [reflexivity|]. repeat split; discriminate.
  - do 2 eexists. split; [reflexivity|]. repeat split; discriminate.
  - do 2 eexists. split; [reflexivity|]. repeat split; discriminate.
  - do 2 eexists. split; [reflexivity|]. repeat split; discriminate.
  - do 2 eexists. split; [reflexivity|]. repeat split; discriminate.
  - do 2 eexists. split; [reflexivity|]. repeat split; discriminate.
Qed.

(** ** Blanks *)
Lemma skip_blanks b : blanks b -> forall f x fuel found, at_text f (b ++ x) ->
  hd 0 x <> " "%ch -> hd 0 x <> ch_tab -> hd 0 x <> ch_bs -> (length b < fuel)%nat ->
  skip_ws_loop fuel f found = Ok (found || blank_before b, advance_n (length b) f).
Proof.
  intros Hb. induction Hb as [|b Hb IH|b Hb IH|b Hb IH]; intros f x fuel found Hat H1 H2 H3 Hf; (destruct fuel as [|fuel]; [cbn [length] in Hf; lia|]);
    cbn [length] in Hf; cbn [skip_ws_loop]; cbv zeta.
  - cbn [app] in Hat. rewrite (at_cur_hd _ _ Hat). apply N.eqb_neq in H1, H2, H3. rewrite H1, H2, H3. cbn [orb andb blank_before].
    rewrite orb_false_r. reflexivity.
  - cbn [app] in Hat. rewrite (at_cur _ _ _ Hat). pose proof (at_adv _ _ _ Hat) as Ha. change (" "%ch =? " "%ch) with true. change (" "%ch =? ch_bs) with false. cbn [orb].
    rewrite (IH _ x fuel true Ha) by (auto; lia). rewrite orb_true_r. reflexivity.
  - cbn [app] in Hat. rewrite (at_cur _ _ _ Hat). pose proof (at_adv _ _ _ Hat) as Ha. change (ch_tab =? " "%ch) with false. change (ch_tab =? ch_tab) with true. change (ch_tab =? ch_bs) with false. cbn [orb].
    rewrite (IH _ x fuel true Ha) by (auto; lia). rewrite orb_true_r. reflexivity.
  - cbn [app] in Hat. rewrite (at_cur _ _ _ Hat), (at_peek _ _ _ Hat). pose proof (at_adv _ _ _ Hat) as Ha. pose proof (at_adv _ _ _ Ha) as Ha2. cbn [hd].
    change (ch_bs =? " "%ch) with false. change (ch_bs =? ch_tab) with false. change (ch_bs =? ch_bs) with true. change (ch_nl =? ch_nl) with true. cbn [orb andb].
    rewrite (IH _ x fuel true Ha2) by (auto; lia). rewrite orb_true_r. reflexivity.
Qed.

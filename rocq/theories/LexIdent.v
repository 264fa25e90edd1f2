(** * LexIdent: identifiers and keywords *)
From Coq Require Import Strings.String NArith ZArith Bool Arith List Lia ZifyBool ZifyNat ZifyN.
From Verif Require Import Base Token Spec LexModel LexBasics LexRest LexSwitch LexInv LexFwd.
Import ListNotations.
Open Scope N_scope.

Notation idsfx := is_identifier_char_or_message_suffix.
Definition name_start (c : N) : bool := is_name_start_char c || between "A"%ch "Z"%ch c.

Lemma str_eqb_refl s : str_eqb s s = true.
Proof. induction s as [|c s IH]; [reflexivity|]. cbn [str_eqb]. rewrite N.eqb_refl. exact IH. Qed.
Lemma str_eqb_eq a b : str_eqb a b = true -> a = b.
Proof.
  revert b. induction a as [|c a IH]; intros [|d b] H; try discriminate; [reflexivity|].
  cbn [str_eqb] in H. apply andb_prop in H. destruct H as [H1 H2]. apply N.eqb_eq in H1. f_equal; auto.
Qed.

Lemma at_in_next f (k r : str) c : at_text f (k ++ c :: r) ->
  (l_idx f + length k <? l_size f)%nat = true /\ at_ (l_input f) (l_idx f + length k) = c.
Proof.
  intros [Hw Hr]. pose proof (rest_length f Hw) as H. rewrite Hr, app_length in H. cbn [length] in H.
  split; [apply Nat.ltb_lt; lia|].
  unfold rest in Hr. unfold at_.
  assert (Hi : (l_idx f <= length (l_input f))%nat) by (unfold wf in Hw; lia).
  rewrite <- (firstn_skipn (l_idx f) (l_input f)), Hr.
  rewrite app_nth2; rewrite firstn_length_le by lia; [|lia].
  replace (l_idx f + length k - l_idx f)%nat with (length k + 0)%nat by lia.
  rewrite app_nth2_plus. reflexivity.
Qed.

Lemma match_yes f k r : k <> [] -> at_text f (k ++ r) -> idsfx (hd 0 r) = false -> match_ f k = Some (advance_n (length k) f).
Proof.
  intros Hk Hat Hr. unfold match_. pose proof Hat as [Hw Hre]. pose proof (rest_length f Hw) as H. rewrite Hre, app_length in H.
  unfold rest in Hre. rewrite Hre.
  assert (Hl : (0 < length k)%nat) by (destruct k; [congruence|cbn [length]; lia]).
  replace (l_size f <? l_idx f + length k)%nat with false by lia.
  rewrite firstn_app, Nat.sub_diag, firstn_all, app_nil_r, str_eqb_refl.
  destruct r as [|c r].
  - cbn [length] in H. replace (l_idx f + length k <? l_size f)%nat with false by lia. reflexivity.
  - destruct (at_in_next _ _ _ _ Hat) as [-> ->]. cbn [hd] in Hr. rewrite Hr. reflexivity.
Qed.
Lemma match_some f w k g : at_text f w -> match_ f k = Some g ->
  exists r, w = k ++ r /\ idsfx (hd 0 r) = false /\ g = advance_n (length k) f.
Proof.
  intros Hat H. destruct (match_rest _ _ _ H) as [Hr ->]. pose proof Hat as [Hw Hre].
  exists (rest (advance_n (length k) f)). split; [congruence|]. split; [|reflexivity].
  remember (rest (advance_n (length k) f)) as r eqn:Er. destruct r as [|c r']; [reflexivity|]. cbn [hd].
  assert (Hat' : at_text f (k ++ c :: r')) by (split; [exact Hw|exact Hr]).
  destruct (at_in_next _ _ _ _ Hat') as [E1 E2].
  unfold match_ in H. destruct (_ <? _)%nat; [discriminate|]. destruct (str_eqb _ _); [|discriminate].
  rewrite E1, E2 in H. cbn [andb] in H. destruct (idsfx c); [discriminate|reflexivity].
Qed.

(** Two words of identifier characters that both end where the text has none. *)
Lemma same_word a b x y : a ++ x = b ++ y ->
  Forall (fun c => idsfx c = true) a -> Forall (fun c => idsfx c = true) b ->
  idsfx (hd 0 x) = false -> idsfx (hd 0 y) = false -> a = b.
Proof.
  revert b. induction a as [|c a IH]; intros [|d b] H Ha Hb Hx Hy; [reflexivity| | |].
  - cbn [app] in H. subst x. inversion Hb; subst. cbn [hd] in Hx. congruence.
  - cbn [app] in H. subst y. inversion Ha; subst. cbn [hd] in Hy. congruence.
  - cbn [app] in H. injection H as -> H. f_equal. inversion Ha; inversion Hb; subst. eapply IH; eauto.
Qed.

Lemma keyword_chars : forall k t, In (k, t) keywords -> Forall (fun c => idsfx c = true) k.
Proof.
  intros k t H. assert (A : forallb (fun p => forallb idsfx (fst p)) keywords = true) by reflexivity.
  rewrite forallb_forall in A. specialize (A _ H). cbn [fst] in A. apply Forall_forall. apply forallb_forall. exact A.
Qed.
Lemma keyword_unique : forall k t t', In (k, t) keywords -> In (k, t') keywords -> t = t'.
Proof.
  assert (A : NoDup (map fst keywords)).
  { vm_compute. repeat (constructor; [cbn [In]; intuition discriminate|]). constructor. }
  revert A. generalize keywords. intros l A k t t'. induction l as [|[k0 t0] l IH]; [contradiction|].
  cbn [map] in A. inversion A as [|? ? A1 A2]; subst. cbn [fst] in A1.
  intros [H|H] [H'|H'].
  - congruence.
  - injection H as -> ->. exfalso. apply A1. apply (in_map fst _ _ H').
  - injection H' as -> ->. exfalso. apply A1. apply (in_map fst _ _ H).
  - auto.
Qed.

Lemma match_keyword_none f w ks : at_text f w ->
  (forall k t r, In (k, t) ks -> w = k ++ r -> idsfx (hd 0 r) = false -> False) -> match_keyword f ks = None.
Proof.
  intros Hat. induction ks as [|[k t] ks IH]; intros H; [reflexivity|]. cbn [match_keyword].
  destruct (match_ f k) as [g|] eqn:E.
  - destruct (match_some _ _ _ _ Hat E) as (r & H1 & H2 & _). exfalso. eapply H; eauto. left; reflexivity.
  - apply IH. intros k' t' r Hin. apply (H k' t'). right; exact Hin.
Qed.
Lemma match_keyword_yes f k t r : at_text f (k ++ r) -> In (k, t) keywords -> idsfx (hd 0 r) = false ->
  match_keyword f keywords = Some (t, advance_n (length k) f).
Proof.
  intros Hat Hin Hr.
  assert (Hk : k <> []).
  { intros ->. assert (A : forallb (fun p => negb (str_eqb [] (fst p))) keywords = true) by reflexivity.
    rewrite forallb_forall in A. specialize (A _ Hin). discriminate. }
  destruct (match_keyword f keywords) as [[t' g]|] eqn:E.
  - destruct (match_keyword_spec _ _ _ _ E) as (k' & Hin' & Hm).
    destruct (match_some _ _ _ _ Hat Hm) as (r' & H1 & H2 & ->).
    assert (k = k') by (eapply same_word; eauto using keyword_chars). subst k'.
    rewrite (keyword_unique _ _ _ Hin Hin'). reflexivity.
  - exfalso. pose proof (match_yes f k r Hk Hat Hr) as Hm. revert E Hm. clear - Hin.
    induction keywords as [|[k0 t0] l IH]; [contradiction|]. cbn [match_keyword].
    destruct (match_ f k0) eqn:E0; [discriminate|]. intros E Hm. destruct Hin as [Heq|Hin]; [congruence|auto].
Qed.

Lemma self_in : In (s2l "self", T_SelfKeyword) keywords.
Proof. unfold keywords. repeat (try (left; reflexivity); right). Qed.

(** The first part of the keyword code restores the cursor unless self is a
    receiver. *)
Lemma lex_keyword_no_self f w : at_text f w ->
  (forall r, w = s2l "self" ++ r -> idsfx (hd 0 r) = false -> hd 0 r <> "."%ch /\ (hd 0 r <> ":"%ch \/ hd 0 (tl r) <> ":"%ch)) ->
  lex_keyword f = if n_rem (l_names f) =? 0 then match_keyword f keywords else None.
Proof.
  intros Hat Hself. unfold lex_keyword.
  assert (E : (if negb (is_dot (ty (l_last f))) && negb (is_constant_resolution (ty (l_last f)))
     then match match_ f (s2l "self") with
          | Some f' => if (current_char f' =? "."%ch) || (current_char f' =? ":"%ch) && (peek f' =? ":"%ch)
                       then (Some T_SelfKeyword, f') else (None, rewind 4 f')
          | None => (None, f) end else (None, f)) = (None, f)).
  { destruct (_ && _); [|reflexivity]. destruct (match_ f (s2l "self")) as [g|] eqn:E; [|reflexivity].
    destruct (match_some _ _ _ _ Hat E) as (r & H1 & H2 & ->).
    destruct (Hself r H1 H2) as [H3 H4]. subst w. pose proof (at_adv_n _ _ _ Hat) as Hg.
    rewrite (at_cur_hd _ _ Hg). apply N.eqb_neq in H3. rewrite H3. cbn [orb].
    replace ((hd 0 r =? ":"%ch) && (peek (advance_n (length (s2l "self")) f) =? ":"%ch)) with false.
    - f_equal. apply (advance_rewind f (s2l "self") r); [apply Hat|apply Hat|]. intros Hi. cbn in Hi. intuition discriminate.
    - symmetry. destruct H4 as [H4|H4].
      + apply N.eqb_neq in H4. rewrite H4. reflexivity.
      + destruct r as [|c r]; [reflexivity|]. rewrite (at_peek _ _ _ Hg). apply N.eqb_neq in H4. cbn [tl] in H4. rewrite H4. apply andb_false_r. }
  rewrite E. destruct (n_rem (l_names f) =? 0); [|reflexivity].
  destruct (match_keyword f keywords) as [[t g]|]; reflexivity.
Qed.

(** Letters reach the code after the switch. *)
Lemma lex_switch_word f c w : at_text f (c :: w) -> name_start c = true ->
  (can_be_complex_or_rational (ty (l_last f)) = false \/ isalnum (hd 0 w) = true /\ hd 0 w <> "i"%ch \/ c <> "i"%ch /\ c <> "r"%ch) ->
  lex_switch f = lex_word f.
Proof.
  intros Hat Hc Hir. unfold lex_switch. rewrite (at_cur _ _ _ Hat).
  unfold name_start, is_name_start_char, between in Hc.
  assert (Hcc : (97 <= c <= 122 \/ 65 <= c <= 90 \/ c = 95 \/ 128 <= c)).
  { destruct (c =? 0) eqn:E; cbn [orb] in Hc; lia. }
  clear Hc. rename Hcc into Hc.
  assert (Hk : forall k, ~ (97 <= k <= 122 \/ 65 <= k <= 90 \/ k = 95 \/ 128 <= k) -> (c =? k) = false).
  { intros k Hk. apply N.eqb_neq. intros ->. contradiction. }
  rewrite !Hk by (unfold ch_nl; lia).
  replace (isdigit c) with false by (symmetry; unfold isdigit, between; lia).
  rewrite (at_peek _ _ _ Hat). destruct Hir as [Hl|[[H1 H2]|[H1 H2]]].
  - rewrite Hl. rewrite !andb_false_r, !andb_false_l. reflexivity.
  - apply N.eqb_neq in H2. rewrite H1, H2. cbn [negb]. rewrite !andb_false_r. reflexivity.
  - apply N.eqb_neq in H1, H2. rewrite H1, H2. reflexivity.
Qed.

(** A keyword that is not followed by an identifier character or one of ?!:. *)
Lemma lex_keyword_fwd f k t r : at_text f (k ++ r) -> In (k, t) keywords ->
  idsfx (hd 0 r) = false -> hd 0 r <> ":"%ch -> n_rem (l_names f) = 0 ->
  lex_switch f = Ok (tk f t, advance_n (length k) f, None).
Proof.
  intros Hat Hin Hr Hc Hn.
  assert (Hs : exists c w, k = c :: w /\ name_start c = true /\ (isalnum (hd 0 w) = true /\ hd 0 w <> "i"%ch \/ c <> "i"%ch /\ c <> "r"%ch)).
  { assert (A : forallb (fun p => match fst p with
        | c :: w => name_start c && (isalnum (hd 0 w) && negb (hd 0 w =? "i"%ch) || negb (c =? "i"%ch) && negb (c =? "r"%ch))
        | [] => false end) keywords = true) by reflexivity.
    rewrite forallb_forall in A. specialize (A _ Hin). cbn [fst] in A. destruct k as [|c w]; [discriminate|].
    exists c, w. split; [reflexivity|]. apply andb_prop in A. destruct A as [A1 A2]. split; [exact A1|].
    apply orb_prop in A2. destruct A2 as [A2|A2]; apply andb_prop in A2; destruct A2 as [A2 A3];
      rewrite ?negb_true_iff, ?N.eqb_neq in *; auto. }
  destruct Hs as (c & w & E & Hc1 & Hc2).
  rewrite (lex_switch_word f c (w ++ r)).
  2:{ subst k. exact Hat. }
  2:{ exact Hc1. }
  2:{ right. destruct Hc2 as [[H1 H2]|H]; [left|right; exact H]. destruct w; [discriminate|]. cbn [app hd] in *. auto. }
  unfold lex_word.
  assert (Ek : lex_keyword f = Some (t, advance_n (length k) f)).
  { destruct (str_eqb k (s2l "self")) eqn:Es.
    - apply str_eqb_eq in Es. clear E Hc1 Hc2 c w. subst k.
      assert (t = T_SelfKeyword) by (eapply keyword_unique; [exact Hin|apply self_in]). subst t.
      unfold lex_keyword.
      destruct (_ && _) eqn:E2.
      + rewrite (match_yes f (s2l "self") r) by (auto; discriminate).
        pose proof (at_adv_n _ _ _ Hat) as Hg. rewrite (at_cur_hd _ _ Hg).
        apply N.eqb_neq in Hc. rewrite Hc. cbn [andb]. rewrite orb_false_r.
        destruct (hd 0 r =? "."%ch) eqn:Ed.
        * change (n_rem (l_names (advance_n (length (s2l "self")) f)) =? 0) with (n_rem (l_names f) =? 0). rewrite Hn.
          change (0 =? 0) with true. cbv iota.
          rewrite (match_keyword_none _ r keywords Hg); [reflexivity|].
          intros k' t' r' Hin' -> Hr'. apply N.eqb_eq in Ed.
          assert (A : forallb (fun p => name_start (hd 0 (fst p))) keywords = true) by reflexivity.
          rewrite forallb_forall in A. specialize (A _ Hin'). cbn [fst] in A.
          destruct k' as [|c' k']; [discriminate|]. cbn [app hd] in *. subst c'. discriminate.
        * change 4%nat with (length (s2l "self")).
          rewrite (advance_rewind f (s2l "self") r); [|apply Hat|apply Hat|intros Hi; cbn in Hi; intuition discriminate].
          rewrite Hn. change (0 =? 0) with true. cbv iota. rewrite (match_keyword_yes _ _ _ _ Hat Hin Hr). reflexivity.
      + rewrite Hn. change (0 =? 0) with true. cbv iota. rewrite (match_keyword_yes _ _ _ _ Hat Hin Hr). reflexivity.
    - rewrite (lex_keyword_no_self f (k ++ r) Hat).
      + rewrite Hn. apply match_keyword_yes with (r := r); auto.
      + intros r' H1 H2. exfalso.
        assert (k = s2l "self") by (eapply same_word; [exact H1|eapply keyword_chars; eauto|repeat constructor|exact Hr|exact H2]).
        rewrite H in Es. discriminate. }
  rewrite Ek. pose proof (at_adv_n _ _ _ Hat) as Hg. rewrite (at_cur_hd _ _ Hg).
  apply N.eqb_neq in Hc. rewrite Hc. cbn [andb].
  f_equal. f_equal. f_equal. unfold tk. rewrite (advance_n_frame (length k) f). reflexivity.
Qed.

(** An identifier that is not a keyword. *)
Definition keyword_text (k : str) : Prop := exists t, In (k, t) keywords.

Lemma lex_ident_fwd f c w r : at_text f (c :: w ++ r) -> name_start c = true ->
  Forall (fun c => is_identifier_char c = true) w -> idsfx (hd 0 r) = false ->
  hd 0 r <> "="%ch -> hd 0 r <> ":"%ch ->
  ~ keyword_text (c :: w) -> can_be_complex_or_rational (ty (l_last f)) = false ->
  lex_switch f = Ok (tkl f (if between "A"%ch "Z"%ch c then T_Constant else T_BareName) (c :: w), advance_n (S (length w)) f, None).
Proof.
  intros Hat Hc Hw Hr H1 H2 Hk Hl. rewrite (lex_switch_word f c (w ++ r)) by auto.
  assert (Hall : Forall (fun c => idsfx c = true) (c :: w)).
  { constructor.
    { unfold name_start, is_name_start_char, is_identifier_char_or_message_suffix, is_identifier_char, isalnum, isalpha in *.
      unfold between in *. destruct (c =? 0) eqn:E0; [lia|]. cbn [orb] in *.
      assert (H : 97 <= c <= 122 \/ 65 <= c <= 90 \/ c = 95 \/ 128 <= c) by lia. clear - H. lia. }
    eapply Forall_impl; [|exact Hw]. intros a Ha. unfold is_identifier_char_or_message_suffix. rewrite Ha. reflexivity. }
  assert (Hnone : forall k t r0, In (k, t) keywords -> (c :: w) ++ r = k ++ r0 -> idsfx (hd 0 r0) = false -> False).
  { intros k t r0 Hin He Hr0. apply Hk. exists t.
    replace (c :: w) with k; [exact Hin|]. symmetry. eapply same_word; eauto using keyword_chars. }
  unfold lex_word. rewrite (lex_keyword_no_self f _ Hat).
  2:{ intros r0 He Hr0. exfalso. eapply (Hnone (s2l "self") T_SelfKeyword); eauto using self_in. }
  rewrite (match_keyword_none f _ keywords Hat) by (intros k t r0 Hin He Hr0; eapply (Hnone k t); eauto).
  assert (Hif : forall A (x y : A), (if n_rem (l_names f) =? 0 then x else x) = x) by (intros; destruct (_ =? _); reflexivity).
  rewrite (Hif _ None None). rewrite (at_cur _ _ _ Hat).
  assert (Hid : is_identifier_char (hd 0 r) = false).
  { unfold is_identifier_char_or_message_suffix in Hr. apply orb_false_elim in Hr. apply Hr. }
  assert (Hcn : forall t, consume_bare_name_or_constant f t = Ok (tkl f t (c :: w), advance_n (S (length w)) f)).
  { intros t. unfold consume_bare_name_or_constant. rewrite (consume_word_fwd f c w r) by auto. cbn [bind].
    assert (Hg : at_text (advance_n (S (length w)) f) r) by (apply (at_adv_n f (c :: w) r); exact Hat).
    rewrite (at_cur_hd _ _ Hg).
    assert (Hq : (hd 0 r =? "?"%ch) = false /\ (hd 0 r =? "!"%ch) = false).
    { split; apply N.eqb_neq; intros E; rewrite E in Hr; discriminate. }
    destruct Hq as [-> ->]. apply N.eqb_neq in H1, H2. rewrite H1, H2. cbn [orb].
    f_equal. f_equal. unfold tkl. rewrite (advance_n_frame (S (length w)) f). reflexivity. }
  unfold plain. rewrite !Hcn. unfold name_start in Hc. destruct (is_name_start_char c) eqn:E1.
  - replace (between "A"%ch "Z"%ch c) with false; [reflexivity|].
    symmetry. unfold is_name_start_char, between in *. destruct (c =? 0); [discriminate|]. lia.
  - cbn [orb] in Hc. rewrite Hc. reflexivity.
Qed.

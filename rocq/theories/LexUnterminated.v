(** * LexUnterminated: literals without their closing delimiter *)
From Coq Require Import Strings.String NArith ZArith Bool Arith List Lia ZifyBool ZifyNat ZifyN.
From Verif Require Import Base Token Spec SpecLit LexModel LexBasics LexRest LexInv LexFwd LexString LexQuoted LexArray TokensProofs.
Import ListNotations.
Open Scope N_scope.

Lemma hd_app_hd (b r : str) : hd 0 (b ++ r) = hd (hd 0 r) b.
Proof. destruct b; reflexivity. Qed.

Lemma str_prefix start stop et al : stop <> 0 -> stop <> ch_bs ->
  forall ps n g buf r,
  at_text g (body_text ps ++ r) -> l_stop g = stop -> l_start g = 0 \/ l_start g = start ->
  body_before start stop ps (hd 0 r) ->
  str_loop (length ps + n) g et al buf = str_loop n (advance_n (length (body_text ps)) g) et al (buf ++ body_bytes ps).
Proof.
  intros S1 S2. induction ps as [|p ps IH]; intros n g buf r Hat Hst Hs0 Hok.
  - cbn [body_bytes map concat body_text length]. rewrite app_nil_r. reflexivity.
  - destruct Hok as [Hp Hok]. cbn [body_text map concat] in Hat. fold (body_text ps) in Hat. rewrite <- app_assoc in Hat.
    cbn [length Nat.add str_loop].
    destruct (piece_shape _ _ _ _ Hp) as [[c ->]|[w Hw]].
    + cbn [piece_text app] in Hat. rewrite (at_cur _ _ _ Hat), (at_peek _ _ _ Hat), Hst.
      rewrite hd_app_hd. destruct Hp as (P1 & P2 & P3 & P4 & P5).
      assert (Hh : (c =? "#"%ch) && (hd (hd 0 r) (body_text ps) =? "{"%ch) = false).
      { destruct (c =? "#"%ch) eqn:E; [|reflexivity]. cbn [andb]. apply N.eqb_eq in E. apply N.eqb_neq. auto. }
      rewrite Hh. apply N.eqb_neq in P1, P2, P3, P4. rewrite P1, P2, P4. cbn [andb].
      replace (c =? l_start g) with false by (destruct Hs0 as [->| ->]; auto). cbn [andb].
      rewrite (IH n (advance g) (buf ++ [c]) r) by (first [exact (at_adv _ _ _ Hat)|assumption]).
      cbn [body_bytes body_text map concat piece_bytes piece_text]. fold (body_text ps) (body_bytes ps).
      rewrite <- app_assoc. reflexivity.
    + assert (Hnp : p <> PChar ch_bs) by (intros ->; destruct Hp as (_ & P2 & _); congruence).
      pose proof Hat as Hat0. rewrite Hw in Hat. cbn [app] in Hat. rewrite (at_cur _ _ _ Hat), Hst.
      change (ch_bs =? 0) with false. apply N.eqb_neq in S2. rewrite S2. change (ch_bs =? ch_bs) with true. cbn [negb andb].
      pose proof (at_adv _ _ _ Hat) as Hat1.
      rewrite (escape_fwd (advance g) start stop p w buf (body_text ps ++ r) Hw Hnp)
        by (auto; rewrite hd_app_hd; exact Hp).
      cbn [bind].
      rewrite (IH n (advance_n (length w) (advance g)) (buf ++ piece_bytes p) r).
      * rewrite (advance_1 g), !advance_n_plus.
        cbn [body_bytes body_text map concat]. fold (body_text ps) (body_bytes ps). rewrite <- app_assoc.
        rewrite app_length, Hw. cbn [length].
        replace (1 + length w + length (body_text ps))%nat with (S (length w) + length (body_text ps))%nat by lia.
        do 2 f_equal; lia.
      * apply at_adv_n. exact Hat1.
      * rewrite (advance_1 g), advance_n_plus, advance_n_stop. exact Hst.
      * rewrite (advance_1 g), advance_n_plus, advance_n_start. exact Hs0.
      * exact Hok.
Qed.

Lemma regexp_prefix start stop opts : stop <> 0 -> stop <> ch_bs ->
  forall ps n g buf r,
  at_text g (rbody_text ps ++ r) -> l_stop g = stop -> l_start g = 0 \/ l_start g = start ->
  rbody_before start stop ps (hd 0 r) ->
  regexp_loop (length ps + n) g opts buf = regexp_loop n (advance_n (length (rbody_text ps)) g) opts (buf ++ rbody_bytes stop ps).
Proof.
  intros S1 S2. induction ps as [|p ps IH]; intros n g buf r Hat Hst Hs0 Hok.
  - cbn [rbody_bytes map concat rbody_text length]. rewrite app_nil_r. reflexivity.
  - destruct Hok as [Hp Hok]. cbn [rbody_text map concat] in Hat. fold (rbody_text ps) in Hat. rewrite <- app_assoc in Hat.
    cbn [length Nat.add regexp_loop]. destruct p as [c|c]; cbn [rpiece_text app] in Hat; rewrite (at_cur _ _ _ Hat), Hst.
    + rewrite (at_peek _ _ _ Hat), hd_app_hd. destruct Hp as (P1 & P2 & P3 & P4 & P5).
      assert (Hh : (c =? "#"%ch) && (hd (hd 0 r) (rbody_text ps) =? "{"%ch) = false).
      { destruct (c =? "#"%ch) eqn:E; [|reflexivity]. cbn [andb]. apply N.eqb_eq in E. apply N.eqb_neq. auto. }
      rewrite Hh. apply N.eqb_neq in P1, P2, P3, P4. rewrite P1, P2, P4. cbn [andb].
      replace (c =? l_start g) with false by (destruct Hs0 as [->| ->]; auto). cbn [andb].
      rewrite (IH n (advance g) (buf ++ [c]) r) by (first [exact (at_adv _ _ _ Hat)|assumption]).
      cbn [rbody_bytes rbody_text map concat rpiece_bytes rpiece_text]. fold (rbody_text ps) (rbody_bytes stop ps).
      rewrite <- app_assoc. reflexivity.
    + pose proof S2 as S2'. apply N.eqb_neq in S2'. rewrite S2'. change (ch_bs =? 0) with false. change (ch_bs =? ch_bs) with true.
      cbn [negb andb]. pose proof (at_adv _ _ _ Hat) as H1. rewrite (at_cur _ _ _ H1).
      change (l_stop (advance g)) with (l_stop g). rewrite Hst.
      replace (if (c =? "/"%ch) || (c =? stop) then buf ++ [c] else buf ++ [ch_bs; c]) with (buf ++ rpiece_bytes stop (REsc c))
        by (cbn [rpiece_bytes]; destruct (_ || _); reflexivity).
      rewrite (IH n (advance (advance g)) _ r) by (first [exact (at_adv _ _ _ H1)|assumption]).
      cbn [rbody_bytes rbody_text map concat]. fold (rbody_text ps) (rbody_bytes stop ps). rewrite <- app_assoc. reflexivity.
Qed.

(** A stream that ends in an invalid token. *)
Lemma error_source s c w t0 j g0 k t1 n1 fuel :
  s = c :: w -> c <> 0xEF -> c <> " "%ch -> c <> ch_tab -> c <> ch_bs ->
  lex_switch (set_tokpos (new_lx s) false) = Ok (t0, advance_n j (set_tokpos (new_lx s) false), Some (Lexer g0 k None)) ->
  simple t0 -> next_own g0 k = Ok (t1, n1) -> is_valid (ty t1) = false -> (2 <= fuel)%nat ->
  tokens fuel s = Ok [t0; t1].
Proof.
  intros Es N1 N2 N3 N4 Hsw Hs Hn He Hf.
  destruct fuel as [|[|fuel]]; try lia. unfold tokens. cbn [tokens_loop].
  assert (Hat : at_text (new_lx s) (c :: w)) by (rewrite <- Es; apply at_new).
  rewrite (top_step _ (new_lx s) c w t0 _ _ (top_plain _) Hat) with (7 := Hsw); auto. cbn [bind].
  destruct Hs as (S1 & S2 & S3 & S4 & S5). rewrite S1, S2. cbn [andb].
  replace (if can_follow_collapsible_newline (ty t0) then pop_newlines [] else []) with (@nil token)
    by (destruct (can_follow_collapsible_newline (ty t0)); reflexivity).
  rewrite S4, S5. cbn [negb record_last next_token]. rewrite Hn. cbn [bind].
  assert (H : is_eof (ty t1) = false /\ is_comment (ty t1) = false /\ is_doc (ty t1) = false /\ is_newline (ty t1) = false
     /\ can_follow_collapsible_newline (ty t1) = false /\ is_valid (ty t1) = false)
    by (destruct (ty t1); try discriminate He; repeat split).
  destruct H as (H1 & H2 & H3 & H4 & H5 & H6). rewrite H1. cbn [bind]. rewrite H2, H3, H4, andb_false_r, H5, H1, H6. reflexivity.
Qed.

Lemma opening_first op a b bt et : opening op a b bt et -> forall r, exists c w, op ++ r = c :: w /\
  c <> 0xEF /\ c <> " "%ch /\ c <> ch_tab /\ c <> ch_bs.
Proof.
  intros Ho r. destruct (opening_head _ _ _ _ _ Ho) as (c & w & -> & H). exists c, (w ++ r). auto.
Qed.
Lemma body_before_len ps : (length ps <= length (body_text ps))%nat.
Proof. apply body_len. Qed.

Theorem string_unterminated op a b bt et ps fuel :
  opening op a b bt et -> body_before a b ps 0 -> (2 <= fuel)%nat ->
  exists ts, tokens fuel (op ++ body_text ps) = Ok ts
    /\ shapes ts = [(bt, Some [a]); (T_UnterminatedString, Some (body_bytes ps))].
Proof.
  intros Ho Hok Hf. set (s := op ++ body_text ps). set (h0 := set_tokpos (new_lx s) false).
  assert (Hat : at_text h0 (op ++ body_text ps)) by (apply at_new).
  pose proof (open_fwd h0 op a b bt et _ Ho Hat (in_code_new s) ltac:(discriminate)) as Hsw.
  set (g := advance_n (length op) h0) in *. pose proof (at_adv_n _ _ _ Hat) as Hg. fold g in Hg.
  destruct (opening_ok _ _ _ _ _ Ho) as [(D1 & D2 & D3 & D4) He].
  set (g0 := set_stop_char (set_start_char g (if a =? b then 0 else a)) b).
  set (g1 := set_tokpos g0 false).
  assert (Hg1 : at_text g1 (body_text ps ++ [])) by (rewrite app_nil_r; exact Hg).
  set (g2 := advance_n (length (body_text ps)) g1).
  assert (H1 : str_loop (loop_fuel g1) g1 et true [] = Ok (tkl g2 T_UnterminatedString (body_bytes ps), g2, KStr InProgress et true, None)).
  { rewrite (at_fuel _ _ Hg1), app_nil_r. pose proof (body_len ps).
    replace (S (S (length (body_text ps)))) with (length ps + S (S (length (body_text ps) - length ps)))%nat by lia.
    rewrite (str_prefix a b et true D1 D2 ps _ g1 [] [] Hg1); auto.
    - fold g2. cbn [str_loop app]. rewrite (at_cur_end g2) by (apply at_adv_n; exact Hg1). cbn [N.eqb].
      replace (l_stop g2) with b by (unfold g2; rewrite advance_n_stop; reflexivity).
      apply N.eqb_neq in D1. rewrite D1. reflexivity.
    - cbn. destruct (a =? b); auto. }
  destruct (opening_first _ _ _ _ _ Ho (body_text ps)) as (c & w & Es & N1 & N2 & N3 & N4).
  eexists. split.
  - eapply (error_source s c w); eauto.
    + destruct (opening_simple _ _ _ _ _ Ho) as [Hs _]. exact Hs.
    + unfold next_own. cbn [skip_ws bind build build_str]. fold g0 g1. rewrite H1. reflexivity.
    + reflexivity.
  - reflexivity.
Qed.

Theorem regexp_unterminated op a b ps fuel :
  regexp_opening op a b -> rbody_before a b ps 0 -> (2 <= fuel)%nat ->
  exists ts, tokens fuel (op ++ rbody_text ps) = Ok ts
    /\ shapes ts = [(T_InterpolatedRegexpBegin, Some [a]); (T_UnterminatedRegexp, Some (rbody_bytes b ps))].
Proof.
  intros Ho Hok Hf. set (s := op ++ rbody_text ps). set (h0 := set_tokpos (new_lx s) false).
  assert (Hat : at_text h0 (op ++ rbody_text ps)) by (apply at_new).
  pose proof (regexp_open_fwd h0 op a b _ Ho Hat (in_code_new s) eq_refl) as Hsw.
  set (g := advance_n (length op) h0) in *. pose proof (at_adv_n _ _ _ Hat) as Hg. fold g in Hg.
  destruct (regexp_opening_ok _ _ _ Ho) as (D1 & D2 & D3 & D4).
  set (g0 := set_stop_char (set_start_char g (if a =? b then 0 else a)) b).
  set (g1 := set_tokpos g0 false).
  assert (Hg1 : at_text g1 (rbody_text ps ++ [])) by (rewrite app_nil_r; exact Hg).
  set (g2 := advance_n (length (rbody_text ps)) g1).
  assert (H1 : regexp_loop (loop_fuel g1) g1 [] [] = Ok (tkl g2 T_UnterminatedRegexp (rbody_bytes b ps), g2, KRegexp InProgress [], None)).
  { rewrite (at_fuel _ _ Hg1), app_nil_r. pose proof (rbody_len ps).
    replace (S (S (length (rbody_text ps)))) with (length ps + S (S (length (rbody_text ps) - length ps)))%nat by lia.
    rewrite (regexp_prefix a b [] D1 D2 ps _ g1 [] [] Hg1); auto.
    - fold g2. cbn [regexp_loop app]. rewrite (at_cur_end g2) by (apply at_adv_n; exact Hg1). reflexivity.
    - cbn. destruct (a =? b); auto. }
  assert (Hh : exists c w, s = c :: w /\ c <> 0xEF /\ c <> " "%ch /\ c <> ch_tab /\ c <> ch_bs).
  { unfold s. destruct Ho; do 2 eexists; (split; [reflexivity|]); repeat split; discriminate. }
  destruct Hh as (c & w & Es & N1 & N2 & N3 & N4).
  eexists. split.
  - eapply (error_source s c w); eauto.
    + repeat split.
    + unfold next_own. cbn [skip_ws bind build build_regexp]. fold g0 g1. rewrite H1. reflexivity.
    + reflexivity.
  - reflexivity.
Qed.

(** ** Without escapes *)

Lemma sq_prefix start stop : stop <> 0 -> stop <> ch_bs -> forall bytes n f buf r,
  at_text f (raw_quoted stop bytes ++ r) -> raw_writable start stop bytes ->
  sq_loop (length bytes + n) f start stop 0 buf = sq_loop n (advance_n (length (raw_quoted stop bytes)) f) start stop 0 (buf ++ bytes).
Proof.
  intros S1 S2. induction bytes as [|c bytes IH]; intros n f buf r Hat Hw.
  - cbn [raw_quoted length]. rewrite app_nil_r. reflexivity.
  - inversion Hw as [|? ? [W1 W2] Hw']; subst. cbn [raw_quoted] in Hat. cbn [length Nat.add sq_loop].
    destruct ((c =? stop) || (c =? ch_bs)) eqn:E.
    + cbn [app] in Hat. rewrite (at_cur _ _ _ Hat). pose proof (at_adv _ _ _ Hat) as H1.
      apply N.eqb_neq in S2. rewrite S2. change (ch_bs =? 0) with false. change (ch_bs =? ch_bs) with true. cbn [negb andb].
      rewrite (at_cur _ _ _ H1), E.
      rewrite (IH n (advance (advance f)) (buf ++ [c]) r (at_adv _ _ _ H1) Hw').
      cbn [raw_quoted]. rewrite E. rewrite <- app_assoc. reflexivity.
    + cbn [app] in Hat. rewrite (at_cur _ _ _ Hat). pose proof (at_adv _ _ _ Hat) as H1.
      apply orb_false_elim in E. destruct E as [E1 E2]. rewrite E1, E2. apply N.eqb_neq in W1. rewrite W1. cbn [andb].
      replace ((c =? start) && negb (start =? stop)) with false
        by (symmetry; destruct (c =? start) eqn:Es; [apply N.eqb_eq in Es; rewrite (W2 Es), N.eqb_refl; reflexivity|reflexivity]).
      rewrite (IH n (advance f) (buf ++ [c]) r H1 Hw').
      cbn [raw_quoted]. rewrite E1, E2. cbn [orb]. rewrite <- app_assoc. reflexivity.
Qed.

Lemma single_unterminated f start stop bytes : stop <> 0 -> stop <> ch_bs ->
  at_text f (raw_quoted stop bytes) -> raw_writable start stop bytes ->
  consume_single_quoted_string f start stop =
    let g := advance_n (length (raw_quoted stop bytes)) f in Ok (tkl g T_UnterminatedString [start], g).
Proof.
  intros S1 S2 Hat Hw. unfold consume_single_quoted_string.
  assert (Hat' : at_text f (raw_quoted stop bytes ++ [])) by (rewrite app_nil_r; exact Hat).
  rewrite (at_fuel _ _ Hat). pose proof (raw_len stop bytes).
  replace (S (S (length (raw_quoted stop bytes)))) with (length bytes + S (S (length (raw_quoted stop bytes) - length bytes)))%nat by lia.
  rewrite (sq_prefix start stop S1 S2 bytes _ f [] [] Hat' Hw). cbn [sq_loop].
  rewrite (at_cur_end _ (at_adv_n _ _ _ Hat')). reflexivity.
Qed.

Lemma error_first s c w t0 f0 n0 fuel :
  s = c :: w -> c <> 0xEF -> c <> " "%ch -> c <> ch_tab -> c <> ch_bs ->
  lex_switch (set_tokpos (new_lx s) false) = Ok (t0, f0, n0) -> is_valid (ty t0) = false -> (1 <= fuel)%nat ->
  tokens fuel s = Ok [t0].
Proof.
  intros Es N1 N2 N3 N4 Hsw He Hf.
  destruct fuel as [|fuel]; try lia. unfold tokens. cbn [tokens_loop].
  assert (Hat : at_text (new_lx s) (c :: w)) by (rewrite <- Es; apply at_new).
  rewrite (top_step _ (new_lx s) c w t0 _ _ (top_plain _) Hat) with (7 := Hsw); auto. cbn [bind].
  assert (H : is_eof (ty t0) = false /\ is_comment (ty t0) = false /\ is_doc (ty t0) = false /\ is_newline (ty t0) = false
     /\ can_follow_collapsible_newline (ty t0) = false /\ is_valid (ty t0) = false)
    by (destruct (ty t0); try discriminate He; repeat split).
  destruct H as (H1 & H2 & H3 & H4 & H5 & H6). rewrite H2, H3. cbn [andb]. rewrite H5, H1, H6. reflexivity.
Qed.

Theorem raw_unterminated op a b bytes fuel :
  raw_opening op a b T_String -> raw_writable a b bytes -> (1 <= fuel)%nat ->
  exists ts, tokens fuel (op ++ raw_quoted b bytes) = Ok ts /\ shapes ts = [(T_UnterminatedString, Some [a])].
Proof.
  intros Ho Hw Hf. set (s := op ++ raw_quoted b bytes). set (h := set_tokpos (new_lx s) false).
  assert (Hat : at_text h (op ++ raw_quoted b bytes)) by apply at_new.
  assert (E : exists tok f0 n0, lex_switch h = Ok (tok, f0, n0) /\ shape tok = (T_UnterminatedString, Some [a])).
  { unfold lex_switch. remember T_String as ts eqn:Ets. destruct Ho as [|a b Hd| |a b Hd]; try discriminate Ets.
    - assert (Hat' : at_text h ("'"%ch :: raw_quoted "'"%ch bytes)) by exact Hat.
      rewrite (at_cur _ _ _ Hat'). eqb_consts. pose proof (at_adv _ _ _ Hat') as H1.
      rewrite (single_unterminated (advance h) "'"%ch "'"%ch bytes); auto; try discriminate.
      do 3 eexists. split; reflexivity.
    - cbn [app] in Hat. rewrite (at_cur _ _ _ Hat). eqb_consts.
      pose proof (at_adv _ _ _ Hat) as H1. rewrite (at_cur _ _ _ H1). eqb_consts.
      destruct (delimiters_ok _ _ Hd) as (D1 & D2 & D3 & D4).
      rewrite (percent_fwd (advance h) _ true a b); [|reflexivity|exact Hd|exact (at_peek _ _ _ H1)].
      pose proof (at_adv _ _ _ (at_adv _ _ _ H1)) as H3. change (advance (advance (advance h))) with (advance_n 2 (advance h)) in H3.
      rewrite (single_unterminated _ a b bytes D1 D2 H3 Hw). do 3 eexists. split; reflexivity. }
  destruct E as (tok & f0 & n0 & E1 & E2).
  destruct (raw_opening_head _ _ _ _ Ho) as (c & w & Eo & N1 & N2 & N3 & N4).
  exists [tok]. split; [|cbn [shapes map]; rewrite E2; reflexivity].
  apply (error_first s c (w ++ raw_quoted b bytes) tok f0 n0); auto.
  - unfold s. rewrite Eo. reflexivity.
  - unfold shape in E2. injection E2 as E2 _. rewrite E2. reflexivity.
Qed.

(** ** Word arrays *)

Lemma nested_error s c w t0 j g0 k ts g' k' t1 n1 fuel :
  s = c :: w -> c <> 0xEF -> c <> " "%ch -> c <> ch_tab -> c <> ch_bs ->
  lex_switch (set_tokpos (new_lx s) false) = Ok (t0, advance_n j (set_tokpos (new_lx s) false), Some (Lexer g0 k None)) ->
  nemits g0 k ts g' k' -> Forall simple (t0 :: ts) ->
  next_own g' k' = Ok (t1, n1) -> is_valid (ty t1) = false -> (S (length ts) < fuel)%nat ->
  tokens fuel s = Ok (t0 :: ts ++ [t1]).
Proof.
  intros Es N1 N2 N3 N4 Hsw Hn Hs Ho He Hf.
  set (h0 := set_tokpos (new_lx s) false) in *. set (g := advance_n j h0) in *.
  destruct (nemits_lift _ _ _ _ _ Hn (set_last (set_names g (update_names (l_names g) (ty t0))) t0)) as [t E].
  assert (E0 : emits (Lexer (new_lx s) KBase None) (t0 :: ts)
    (Lexer (set_last (set_last (set_names g (update_names (l_names g) (ty t0))) t0) t) KBase (Some (Lexer g' k' None)))).
  { eapply emits_step; [|exact E].
    apply (top_step _ (new_lx s) c w) with (1 := top_plain _); auto. rewrite Es. apply at_new. }
  destruct (emits_tokens _ _ _ E0 Hs (fuel - S (length ts)) [] false I) as [sk E1]. cbn [length] in E1.
  replace (S (length ts) + (fuel - S (length ts)))%nat with fuel in E1 by lia.
  unfold tokens. rewrite E1. replace (fuel - S (length ts))%nat with (S (fuel - S (S (length ts)))) by lia.
  cbn [tokens_loop next_token]. rewrite Ho. cbn [bind].
  assert (H : is_eof (ty t1) = false /\ is_comment (ty t1) = false /\ is_doc (ty t1) = false /\ is_newline (ty t1) = false
     /\ can_follow_collapsible_newline (ty t1) = false)
    by (destruct (ty t1); try discriminate He; repeat split).
  destruct H as (H1 & H2 & H3 & H4 & H5). rewrite H1. cbn [bind]. rewrite H2, H3, H4, andb_false_r, H5, H1, He.
  cbn [negb]. rewrite app_nil_r. cbn [rev]. rewrite rev_app_distr, rev_involutive. reflexivity.
Qed.

Lemma words_prefix it start stop : stop <> 0 -> stop <> ch_bs -> stop <> "#"%ch ->
  forall ws lead g buf0 r,
  at_text g (lead ++ words_text ws ++ r) -> Forall space lead -> l_stop g = stop -> words_ok it start stop ws ->
  Forall (fun w => snd w <> []) ws ->
  exists ts lead' g' b', nemits g (KWords W_InProgress it start 0 buf0) ts g' (KWords W_InProgress it start 0 b')
    /\ shapes ts = map (fun w => (T_String, Some (word_bytes it (fst w)))) ws
    /\ at_text g' (lead' ++ r) /\ Forall space lead' /\ l_stop g' = stop.
Proof.
  intros S1 S2 S3.
  induction ws as [|[w sep] ws IH]; intros lead g buf0 r Hat Hl Hst Hok Hne.
  - eexists [], lead, g, _. split; [constructor|]. auto.
  - destruct Hok as (Hw & Hwok & Hsep & Hlast & Hok). inversion Hne as [|? ? Hs Hne']; subst. cbn [snd] in Hs.
    cbn [words_text] in Hat. rewrite <- !app_assoc in Hat.
    set (g1 := set_tokpos g false).
    assert (Hat1 : at_text g1 (lead ++ word_text w ++ sep ++ words_text ws ++ r)) by exact Hat.
    pose proof (at_adv_n _ _ _ Hat1) as Hat2. pose proof (at_adv_n _ _ _ Hat2) as Hat3. rewrite advance_n_plus in Hat3.
    set (j := (length lead + length (word_text w))%nat) in *.
    assert (E : exists n, array_loop (loop_fuel g1) g1 W_InProgress it start 0 [] =
                          array_loop (S n) (advance_n j g1) W_InProgress it start 0 (word_bytes it w)).
    { rewrite (at_fuel _ _ Hat1), !app_length. pose proof (word_len w) as Hwl. eexists.
      replace (S (S (length lead + (length (word_text w) + (length sep + (length (words_text ws) + length r))))))%nat
        with (length lead + (length w + S (S (length (word_text w) - length w + (length sep + (length (words_text ws) + length r))))))%nat by lia.
      rewrite (skip_spaces it start lead _ g1 _ Hat1 Hl).
      rewrite (word_fwd it start (l_stop g) S2 S3 w _ _ (sep ++ words_text ws ++ r) [] Hat2).
      - rewrite advance_n_plus. fold j. reflexivity.
      - rewrite advance_n_stop. reflexivity.
      - replace (hd 0 (sep ++ words_text ws ++ r)) with (hd (l_stop g) sep); [exact Hwok|].
        destruct sep as [|c sep]; [congruence|]; reflexivity. }
    destruct E as [n E]. destruct (word_bytes_cons it w Hw) as (b & bs & Eb).
    destruct sep as [|c sep]; [congruence|].
    cbn [app] in Hat3. inversion Hsep as [|? ? Hc Hsep']; subst.
    assert (E2 : array_loop (S n) (advance_n j g1) W_InProgress it start 0 (word_bytes it w) =
      Ok (tkcl (advance_n j g1) T_String (word_bytes it w), advance (advance_n j g1), KWords W_InProgress it start 0 (word_bytes it w), None)).
    { cbn [array_loop]. rewrite (at_cur _ _ _ Hat3). pose proof Hc as Hc'. apply space_isspace in Hc'. rewrite Hc'.
      replace (c =? 0) with false by (unfold space in Hc; lia).
      replace (c =? ch_bs) with false by (unfold space, ch_bs in *; lia). cbn [andb w_in_dynamic]. rewrite Eb. reflexivity. }
    pose proof (at_adv _ _ _ Hat3) as Hat4. rewrite advance_n_S in *.
    set (g2 := set_names (advance_n (S j) g1) (update_names (l_names (advance_n (S j) g1)) T_String)).
    destruct (IH sep g2 (word_bytes it w) r) as (ts & lead' & g' & b' & I1 & I2 & I3); auto.
    { unfold g2. cbn [l_stop set_names]. rewrite advance_n_stop. reflexivity. }
    eexists (_ :: ts), lead', g', b'. split; [|split; [|exact I3]].
    + eapply nemits_cons; [| |exact I1].
      * unfold next_own. cbn [skip_ws bind build build_words]. fold g1. rewrite E, E2. reflexivity.
      * reflexivity.
    + cbn [shapes map fst app]. fold (shapes ts). rewrite I2. reflexivity.
Qed.

Theorem words_unterminated c t it a b lead ws w fuel :
  array_letter c t it -> delimiters a b -> Forall space lead -> words_ok it a b ws -> Forall (fun w => snd w <> []) ws ->
  word_ok it a b w 0 -> (length ws + 2 <= fuel)%nat ->
  exists ts, tokens fuel (["%"%ch; c; a] ++ lead ++ words_text ws ++ word_text w) = Ok ts
    /\ shapes ts = (t, Some [a]) :: map (fun w => (T_String, Some (word_bytes it (fst w)))) ws
                   ++ [(T_UnterminatedWordArray, Some (word_bytes it w))].
Proof.
  intros Hlet Hd Hlead Hok Hne Hw Hf.
  set (body := lead ++ words_text ws ++ word_text w). set (s := ["%"%ch; c; a] ++ body). set (h0 := set_tokpos (new_lx s) false).
  assert (Hat : at_text h0 ("%"%ch :: c :: a :: body)) by apply at_new.
  destruct (delimiters_ok _ _ Hd) as (D1 & D2 & D3 & D4).
  assert (Hsw : lex_switch h0 = Ok (tkl (advance_n 3 h0) t [a], advance_n 3 h0, Some (new_words_lexer (advance_n 3 h0) a b it))).
  { unfold lex_switch. rewrite (at_cur _ _ _ Hat). eqb_consts.
    pose proof (at_adv _ _ _ Hat) as H1. rewrite (at_cur _ _ _ H1).
    destruct Hlet; eqb_consts;
      (rewrite (percent_fwd (advance h0) _ true a b); [reflexivity|reflexivity|exact Hd|exact (at_peek _ _ _ H1)]). }
  assert (Hg : at_text (advance_n 3 h0) body) by (apply (at_adv_n h0 ["%"%ch; c; a] body Hat)).
  set (g0 := set_stop_char (advance_n 3 h0) b).
  destruct (words_prefix it a b D1 D2 D3 ws lead g0 [] (word_text w)) as (ts & lead' & g' & b' & E1 & E2 & E3 & E4 & E5); auto.
  set (g1 := set_tokpos g' false).
  assert (Hat1 : at_text g1 (lead' ++ word_text w ++ [])) by (rewrite app_nil_r; exact E3).
  pose proof (at_adv_n _ _ _ Hat1) as Hat2. pose proof (at_adv_n _ _ _ Hat2) as Hat3. rewrite advance_n_plus in Hat3.
  assert (E : exists g2, array_loop (loop_fuel g1) g1 W_InProgress it a 0 [] =
    Ok (tkl g2 T_UnterminatedWordArray (word_bytes it w), g2, KWords W_InProgress it a 0 (word_bytes it w), None)).
  { eexists. rewrite (at_fuel _ _ Hat1), !app_length. cbn [length]. pose proof (word_len w) as Hwl.
    replace (S (S (length lead' + (length (word_text w) + 0))))%nat
      with (length lead' + (length w + S (S (length (word_text w) - length w))))%nat by lia.
    rewrite (skip_spaces it a lead' _ g1 _ Hat1 E4).
    rewrite (word_fwd it a b D2 D3 w _ _ [] [] Hat2); [|rewrite advance_n_stop; exact E5|exact Hw].
    rewrite advance_n_plus. cbn [array_loop app]. rewrite (at_cur_end _ Hat3). reflexivity. }
  destruct E as [g2 E].
  eexists. split.
  - eapply (nested_error s "%"%ch (c :: a :: body) _ 3 g0 _ ts g' _ _ _ fuel eq_refl ltac:(discriminate) ltac:(discriminate)
      ltac:(discriminate) ltac:(discriminate) Hsw E1).
    + apply simple_shapes. cbn [shapes map]. fold (shapes ts). rewrite E2. constructor; [destruct Hlet; repeat split|].
      apply Forall_map, Forall_forall. intros. repeat split.
    + unfold next_own. cbn [skip_ws bind build build_words]. fold g1. rewrite E. reflexivity.
    + reflexivity.
    + assert (El : length ts = length (shapes ts)) by (unfold shapes; rewrite map_length; reflexivity).
      rewrite El, E2, map_length. lia.
  - cbn [shapes map]. rewrite map_app. fold (shapes ts). rewrite E2. reflexivity.
Qed.

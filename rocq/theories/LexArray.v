(** * LexArray: reading regular expressions and word arrays forward *)
From Coq Require Import Strings.String NArith ZArith Bool Arith List Lia ZifyBool ZifyNat ZifyN.
From Verif Require Import Base Token Spec SpecLit LexModel LexBasics LexRest LexInv LexFwd LexString LexQuoted TokensProofs.
Import ListNotations.
Open Scope N_scope.

(** ** Steps of a nested lexer that nests nothing *)

Inductive nemits : lx -> kind -> list token -> lx -> kind -> Prop :=
| nemits_nil g k : nemits g k [] g k
| nemits_cons g k t g1 k1 ts g2 k2 :
    next_own g k = Ok (t, Lexer g1 k1 None) -> is_eof (ty t) = false -> nemits g1 k1 ts g2 k2 -> nemits g k (t :: ts) g2 k2.

Lemma nemits_lift g k ts g' k' : nemits g k ts g' k' -> forall f,
  exists t, emits (Lexer f KBase (Some (Lexer g k None))) ts (Lexer (set_last f t) KBase (Some (Lexer g' k' None))).
Proof.
  induction 1 as [g k|g k t g1 k1 ts g2 k2 H1 He H2 IH]; intros f.
  - exists (l_last f). replace (set_last f (l_last f)) with f by (destruct f; reflexivity). constructor.
  - destruct (IH (set_last f t)) as [t' E]. exists t'.
    eapply emits_step; [|change (set_last f t') with (set_last (set_last f t) t'); exact E].
    cbn [next_token]. rewrite H1. cbn [bind]. rewrite He. reflexivity.
Qed.

Lemma advance_n_cur k : forall a b, l_cur a = l_cur b -> l_input a = l_input b -> l_size a = l_size b ->
  l_cur (advance_n k a) = l_cur (advance_n k b).
Proof.
  induction k as [|k IH]; intros a b E1 E2 E3; [exact E1|]. cbn [advance_n].
  apply IH; unfold advance, current_char; rewrite ?E1, ?E2, ?E3; destruct (_ =? ch_nl); cbn; congruence.
Qed.

Lemma nested_source s c w t0 j g0 k ts g' k' fuel :
  s = c :: w -> c <> 0xEF -> c <> " "%ch -> c <> ch_tab -> c <> ch_bs ->
  lex_switch (set_tokpos (new_lx s) false) = Ok (t0, advance_n j (set_tokpos (new_lx s) false), Some (Lexer g0 k None)) ->
  nemits g0 k ts g' k' -> finished k' -> l_cur g' = l_cur (advance_n (length s) (new_lx s)) ->
  Forall simple (t0 :: ts) -> (S (length ts) < fuel)%nat ->
  exists t, shape t = (T_Eof, None) /\ tokens fuel s = Ok (t0 :: ts ++ [t]).
Proof.
  intros Es N1 N2 N3 N4 Hsw Hn Hk Hc Hs Hf.
  set (h0 := set_tokpos (new_lx s) false) in *. set (g := advance_n j h0) in *.
  destruct (nemits_lift _ _ _ _ _ Hn (set_last (set_names g (update_names (l_names g) (ty t0))) t0)) as [t E].
  eapply (emits_source s (t0 :: ts)); [|exact Hs|apply top_done; exact Hk| |cbn [length]; exact Hf].
  - eapply emits_step; [|exact E].
    apply (top_step _ (new_lx s) c w) with (1 := top_plain _); auto. rewrite Es. apply at_new.
  - pose proof (at_new s) as Ha. rewrite <- (app_nil_r s) in Ha at 2. apply at_adv_n in Ha. destruct Ha as [_ Ha].
    assert (Hfr : frame h0 g) by apply advance_n_frame.
    split; [unfold wf; cbn [l_size l_input set_cur set_last set_names]; rewrite Hfr; reflexivity|].
    unfold rest in *. cbn [l_cur l_input set_cur set_last set_names]. rewrite Hfr. cbn [l_input set_cur].
    rewrite Hc. rewrite (advance_n_frame _ (new_lx s)) in Ha. exact Ha.
Qed.

(** ** Regular expressions *)

Lemma options_fwd opts : forall fuel f r buf, at_text f (opts ++ r) -> Forall regexp_option opts -> is_regexp_option (hd 0 r) = false ->
  (length opts < fuel)%nat -> options_loop fuel f buf = Ok (buf ++ opts, advance_n (length opts) f).
Proof.
  induction opts as [|c opts IH]; intros fuel f r buf Hat Ho Hr Hf; (destruct fuel as [|fuel]; [lia|]); cbn [options_loop].
  - cbn [app] in Hat. rewrite (at_cur_hd _ _ Hat), Hr, app_nil_r. reflexivity.
  - inversion Ho as [|? ? Hc Ho']; subst. cbn [app] in Hat. rewrite (at_cur _ _ _ Hat).
    assert (E : is_regexp_option c = true).
    { unfold regexp_option in Hc. cbn [s2l In] in Hc. unfold is_regexp_option. apply existsb_exists. exists c.
      split; [|apply N.eqb_refl]. cbn [In]. vm_compute in Hc. intuition. }
    rewrite E. cbn [length] in Hf.
    rewrite (IH fuel (advance f) r (buf ++ [c]) (at_adv _ _ _ Hat) Ho' Hr) by lia. rewrite <- app_assoc. reflexivity.
Qed.

Lemma regexp_loop_fwd start stop opts r : stop <> 0 -> stop <> ch_bs -> stop <> "#"%ch ->
  Forall regexp_option opts -> is_regexp_option (hd 0 r) = false ->
  forall ps fuel g opts0 buf,
  at_text g (rbody_text ps ++ stop :: opts ++ r) -> l_stop g = stop -> l_start g = 0 \/ l_start g = start -> l_depth g = 0%nat ->
  rbody_ok start stop ps -> (length ps < fuel)%nat ->
  regexp_loop fuel g opts0 buf =
    let h := advance_n (S (length (rbody_text ps)) + length opts) g in
    Ok (tkl h T_String (buf ++ rbody_bytes stop ps), h, KRegexp EndToken opts, None).
Proof.
  intros S1 S2 S3 Ho Hr. induction ps as [|p ps IH]; intros fuel g opts0 buf Hat Hst Hs0 Hd Hok Hf;
    (destruct fuel as [|fuel]; [lia|]); cbn [regexp_loop].
  - cbn [rbody_text map concat app] in Hat. rewrite (at_cur _ _ _ Hat), Hst.
    apply N.eqb_neq in S1, S2, S3. rewrite S1, S2, S3. cbn [negb andb].
    replace ((stop =? l_start g) && negb (l_start g =? stop)) with false
      by (symmetry; destruct (stop =? l_start g) eqn:E; [rewrite N.eqb_sym, E; reflexivity|reflexivity]).
    rewrite N.eqb_refl. change (l_depth (advance g)) with (l_depth g). rewrite Hd.
    pose proof (at_adv _ _ _ Hat) as H1. unfold consume_options.
    rewrite (options_fwd opts (loop_fuel (advance g)) (advance g) r [] H1 Ho Hr)
      by (rewrite (at_fuel _ _ H1), app_length; lia).
    cbn [bind app rbody_bytes map concat rbody_text length]. rewrite app_nil_r.
    rewrite (advance_1 g), advance_n_plus. reflexivity.
  - destruct Hok as [Hp Hok]. cbn [rbody_text map concat] in Hat. fold (rbody_text ps) in Hat. rewrite <- app_assoc in Hat.
    cbn [length] in Hf. destruct p as [c|c]; cbn [rpiece_text app] in Hat; rewrite (at_cur _ _ _ Hat), Hst.
    + rewrite (at_peek _ _ _ Hat), hd_app_stop. destruct Hp as (P1 & P2 & P3 & P4 & P5).
      assert (Hh : (c =? "#"%ch) && (hd stop (rbody_text ps) =? "{"%ch) = false).
      { destruct (c =? "#"%ch) eqn:E; [|reflexivity]. cbn [andb]. apply N.eqb_eq in E. apply N.eqb_neq. auto. }
      rewrite Hh. apply N.eqb_neq in P1, P2, P3, P4. rewrite P1, P2, P4. cbn [andb].
      replace (c =? l_start g) with false by (destruct Hs0 as [->| ->]; auto). cbn [andb].
      rewrite (IH fuel (advance g) opts0 (buf ++ [c])) by (first [exact (at_adv _ _ _ Hat)|assumption|lia]).
      cbn [rbody_bytes rbody_text map concat rpiece_bytes rpiece_text]. fold (rbody_text ps) (rbody_bytes stop ps).
      rewrite <- app_assoc. reflexivity.
    + pose proof S2 as S2'. apply N.eqb_neq in S2'. rewrite S2'. change (ch_bs =? 0) with false. change (ch_bs =? ch_bs) with true.
      cbn [negb andb]. pose proof (at_adv _ _ _ Hat) as H1. rewrite (at_cur _ _ _ H1).
      change (l_stop (advance g)) with (l_stop g). rewrite Hst.
      replace (if (c =? "/"%ch) || (c =? stop) then buf ++ [c] else buf ++ [ch_bs; c]) with (buf ++ rpiece_bytes stop (REsc c))
        by (cbn [rpiece_bytes]; destruct (_ || _); reflexivity).
      rewrite (IH fuel (advance (advance g)) opts0) by (first [exact (at_adv _ _ _ H1)|assumption|lia]).
      cbn [rbody_bytes rbody_text map concat]. fold (rbody_text ps) (rbody_bytes stop ps). rewrite <- app_assoc. reflexivity.
Qed.

Lemma rbody_len ps : (length ps <= length (rbody_text ps))%nat.
Proof.
  induction ps as [|p ps IH]; [reflexivity|]. cbn [rbody_text map concat length]. fold (rbody_text ps).
  rewrite app_length. destruct p; cbn [rpiece_text length]; lia.
Qed.

Lemma regexp_opening_ok op a b : regexp_opening op a b -> delimiter_ok a b.
Proof. intros [|a' b' H]; [repeat split; discriminate|apply delimiters_ok; exact H]. Qed.

Lemma regexp_open_fwd h op a b r :
  regexp_opening op a b -> at_text h (op ++ r) -> in_code h -> is_valid (ty (l_last h)) = false ->
  lex_switch h = Ok (tkl (advance_n (length op) h) T_InterpolatedRegexpBegin [a], advance_n (length op) h,
                     Some (new_regexp_lexer (advance_n (length op) h) a b)).
Proof.
  intros Ho Hat (C1 & C2 & C3 & C4 & C5) Hlast. unfold lex_switch.
  destruct Ho as [|a b Hd].
  - assert (Hat' : at_text h ("/"%ch :: r)) by exact Hat. rewrite (at_cur _ _ _ Hat'). eqb_consts.
    change (ty (l_last (advance h))) with (ty (l_last h)). rewrite Hlast. reflexivity.
  - cbn [app] in Hat. rewrite (at_cur _ _ _ Hat). eqb_consts.
    pose proof (at_adv _ _ _ Hat) as H1. rewrite (at_cur _ _ _ H1). eqb_consts.
    rewrite (percent_fwd (advance h) _ true a b); [reflexivity|exact C4|exact Hd|exact (at_peek _ _ _ H1)].
Qed.

(** The regular expression lexer reads [txt] up to the closing delimiter and the
    options as [bytes]. *)
Definition regexp_reads (start stop : N) (txt bytes : str) : Prop := forall opts g,
  at_text g (txt ++ stop :: opts) -> l_stop g = stop -> l_start g = (if start =? stop then 0 else start) -> l_depth g = 0%nat ->
  Forall regexp_option opts ->
  regexp_loop (loop_fuel g) g [] [] =
    let h := advance_n (S (length txt) + length opts) g in Ok (tkl h T_String bytes, h, KRegexp EndToken opts, None).
Lemma rbody_reads start stop ps : delimiter_ok start stop -> rbody_ok start stop ps ->
  regexp_reads start stop (rbody_text ps) (rbody_bytes stop ps).
Proof.
  intros (D1 & D2 & D3 & D4) Hok opts g Hg Hst Hs0 Hd Hopt.
  assert (Hg1 : at_text g (rbody_text ps ++ stop :: opts ++ [])) by (rewrite app_nil_r; exact Hg).
  rewrite (regexp_loop_fwd start stop opts [] D1 D2 D3 Hopt eq_refl ps _ g [] [] Hg1); auto.
  - rewrite Hs0. destruct (start =? stop); auto.
  - rewrite (at_fuel _ _ Hg1), app_length. pose proof (rbody_len ps). lia.
Qed.

Theorem regexp_source_of op a b txt bytes opts fuel :
  regexp_opening op a b -> regexp_reads a b txt bytes -> Forall regexp_option opts -> (4 <= fuel)%nat ->
  exists ts, tokens fuel (op ++ txt ++ b :: opts) = Ok ts
    /\ shapes ts = [(T_InterpolatedRegexpBegin, Some [a]); (T_String, Some bytes);
                    (T_InterpolatedRegexpEnd, match opts with [] => None | _ => Some opts end); (T_Eof, None)].
Proof.
  intros Ho Hok Hopt Hf. set (s := op ++ txt ++ b :: opts). set (h0 := set_tokpos (new_lx s) false).
  assert (Hat : at_text h0 (op ++ txt ++ b :: opts)) by (apply at_new).
  pose proof (regexp_open_fwd h0 op a b _ Ho Hat (in_code_new s) eq_refl) as Hsw.
  set (g := advance_n (length op) h0) in *. pose proof (at_adv_n _ _ _ Hat) as Hg. fold g in Hg.
  destruct (regexp_opening_ok _ _ _ Ho) as (D1 & D2 & D3 & D4).
  set (g0 := set_stop_char (set_start_char g (if a =? b then 0 else a)) b).
  set (g1 := set_tokpos g0 false). set (j := (S (length txt) + length opts)%nat).
  assert (H1 : regexp_loop (loop_fuel g1) g1 [] [] =
     Ok (tkl (advance_n j g1) T_String bytes, advance_n j g1, KRegexp EndToken opts, None)).
  { apply (Hok opts g1 Hg eq_refl eq_refl); [|exact Hopt].
    unfold g1, g0. cbn [l_depth set_tokpos set_stop_char set_start_char]. unfold g. rewrite advance_n_depth. reflexivity. }
  assert (E : exists t0 t1 g', nemits g0 (KRegexp InProgress []) [t0; t1] g' (KRegexp Done opts)
     /\ shape t0 = (T_String, Some bytes) /\ shape t1 = (T_InterpolatedRegexpEnd, match opts with [] => None | _ => Some opts end)
     /\ l_cur g' = l_cur (advance_n j g1)).
  { do 3 eexists. split; [|split; [|split]].
    - eapply nemits_cons; [| |eapply nemits_cons; [| |apply nemits_nil]].
      + unfold next_own. cbn [skip_ws bind build build_regexp]. fold g1. rewrite H1. reflexivity.
      + reflexivity.
      + unfold next_own. cbn [skip_ws bind build build_regexp]. reflexivity.
      + destruct opts; reflexivity.
    - reflexivity.
    - destruct opts; reflexivity.
    - reflexivity. }
  destruct E as (t0 & t1 & g' & E1 & E2 & E3 & E4).
  destruct (regexp_opening_ok _ _ _ Ho) as (_ & _ & _ & _).
  assert (Hh : exists c w, s = c :: w /\ c <> 0xEF /\ c <> " "%ch /\ c <> ch_tab /\ c <> ch_bs).
  { unfold s. destruct Ho; do 2 eexists; (split; [reflexivity|]); repeat split; discriminate. }
  destruct Hh as (c & w & Es & N1 & N2 & N3 & N4).
  destruct (nested_source s c w _ (length op) g0 _ [t0; t1] g' _ fuel Es N1 N2 N3 N4 Hsw E1 (fin_regexp opts)) as (e & T1 & T2).
  - rewrite E4. rewrite (advance_n_cur j g1 g) by reflexivity. unfold g. rewrite advance_n_plus.
    rewrite (advance_n_cur _ h0 (new_lx s)) by reflexivity. do 2 f_equal. unfold s, j. rewrite !app_length. cbn [length]. lia.
  - apply simple_shapes. cbn [shapes map]. rewrite E2, E3. repeat constructor.
  - cbn [length]. lia.
  - eexists. split; [exact T2|]. cbn [shapes map app]. rewrite E2, E3, T1. reflexivity.
Qed.
Theorem regexp_source op a b ps opts fuel :
  regexp_opening op a b -> rbody_ok a b ps -> Forall regexp_option opts -> (4 <= fuel)%nat ->
  exists ts, tokens fuel (op ++ rbody_text ps ++ b :: opts) = Ok ts
    /\ shapes ts = [(T_InterpolatedRegexpBegin, Some [a]); (T_String, Some (rbody_bytes b ps));
                    (T_InterpolatedRegexpEnd, match opts with [] => None | _ => Some opts end); (T_Eof, None)].
Proof. intros Ho Hok. apply regexp_source_of; auto. apply rbody_reads; auto. apply (regexp_opening_ok op). exact Ho. Qed.

(** ** Word arrays *)

Lemma space_isspace c : space c <-> isspace c = true.
Proof. unfold space, isspace, between. lia. Qed.

Lemma skip_spaces it start lead : forall n g r,
  at_text g (lead ++ r) -> Forall space lead -> forall d,
  array_loop (length lead + n) g W_InProgress it start d [] = array_loop n (advance_n (length lead) g) W_InProgress it start d [].
Proof.
  induction lead as [|c lead IH]; intros n g r Hat Hs d; [reflexivity|].
  inversion Hs as [|? ? Hc Hs']; subst. cbn [app] in Hat. cbn [length Nat.add array_loop].
  rewrite (at_cur _ _ _ Hat). pose proof Hc as Hc'. apply space_isspace in Hc'. rewrite Hc'.
  replace (c =? 0) with false by (unfold space in Hc; lia).
  replace (c =? ch_bs) with false by (unfold space, ch_bs in *; lia). cbn [andb w_in_dynamic].
  rewrite (IH n (advance g) r (at_adv _ _ _ Hat) Hs'). reflexivity.
Qed.

Lemma word_fwd it start stop : stop <> ch_bs -> stop <> "#"%ch -> forall w n g r buf,
  at_text g (word_text w ++ r) -> l_stop g = stop -> word_ok it start stop w (hd 0 r) -> forall d,
  array_loop (length w + n) g W_InProgress it start d buf =
  array_loop n (advance_n (length (word_text w)) g) W_InProgress it start d (buf ++ word_bytes it w).
Proof.
  intros S1 S2. induction w as [|p w IH]; intros n g r buf Hat Hst Hok d.
  - cbn [word_bytes map concat word_text length]. rewrite app_nil_r. reflexivity.
  - destruct Hok as [Hp Hok]. cbn [word_text map concat] in Hat. fold (word_text w) in Hat. rewrite <- app_assoc in Hat.
    cbn [length Nat.add array_loop]. destruct p as [c|c]; cbn [wpiece_text app] in Hat; rewrite (at_cur _ _ _ Hat), Hst.
    + destruct Hp as (P1 & P2 & P3 & P4 & P5 & P6). rewrite (at_peek _ _ _ Hat).
      assert (Hh : hd 0 (word_text w ++ r) = hd (hd 0 r) (word_text w)) by (destruct (word_text w); reflexivity).
      rewrite Hh.
      assert (Hi : it && (c =? "#"%ch) && (hd (hd 0 r) (word_text w) =? "{"%ch) = false).
      { destruct it; [|reflexivity]. destruct (c =? "#"%ch) eqn:E; [|reflexivity]. apply N.eqb_eq in E. cbn [andb].
        apply N.eqb_neq. auto. }
      rewrite Hi. apply N.eqb_neq in P1, P2, P3. rewrite P1, P2, P3. cbn [andb].
      destruct (isspace c) eqn:Es; [exfalso; apply P5, space_isspace; exact Es|].
      replace ((c =? start) && negb (start =? stop)) with false
        by (symmetry; destruct (c =? start) eqn:E; [apply N.eqb_eq in E; rewrite (P4 E), N.eqb_refl; reflexivity|reflexivity]).
      rewrite (IH n (advance g) r (buf ++ [c]) (at_adv _ _ _ Hat) Hst Hok).
      cbn [word_bytes word_text map concat wpiece_bytes wpiece_text]. fold (word_text w) (word_bytes it w).
      rewrite <- app_assoc. reflexivity.
    + pose proof S1 as S1'. apply N.eqb_neq in S1'. rewrite S1'. change (ch_bs =? 0) with false. change (ch_bs =? ch_bs) with true.
      cbn [negb andb]. pose proof (at_adv _ _ _ Hat) as H1. rewrite (at_cur _ _ _ H1).
      replace (if c =? " "%ch then buf ++ [c]
               else if it then if c =? "n"%ch then buf ++ [ch_nl] else if c =? "t"%ch then buf ++ [ch_tab] else buf ++ [c]
               else if isspace c then buf ++ [c] else buf ++ [ch_bs; c]) with (buf ++ wpiece_bytes it (WEsc c)).
      * rewrite (IH n (advance (advance g)) r _ (at_adv _ _ _ H1) Hst Hok).
        cbn [word_bytes word_text map concat]. fold (word_text w) (word_bytes it w). rewrite <- app_assoc. reflexivity.
      * cbn [wpiece_bytes]. unfold isspace, between.
        destruct (c =? " "%ch) eqn:E1.
        { apply N.eqb_eq in E1. subst c. destruct it; reflexivity. }
        rewrite orb_false_r. cbn [orb].
        destruct it; [destruct (c =? "n"%ch); [reflexivity|destruct (c =? "t"%ch); reflexivity]|].
        destruct (_ && _); reflexivity.
Qed.

Lemma word_bytes_cons it w : w <> [] -> exists b bs, word_bytes it w = b :: bs.
Proof.
  destruct w as [|p w]; [congruence|]. intros _. unfold word_bytes. cbn [map concat].
  destruct p as [c|c]; cbn [wpiece_bytes]; [eexists _, _; reflexivity|].
  repeat match goal with |- context [if ?b then _ else _] => destruct b end; eexists _, _; reflexivity.
Qed.
Lemma word_len w : (length w <= length (word_text w))%nat.
Proof.
  induction w as [|p w IH]; [reflexivity|]. cbn [word_text map concat length]. fold (word_text w).
  rewrite app_length. destruct p; cbn [wpiece_text length]; lia.
Qed.

Lemma words_nemits it start stop r : stop <> 0 -> stop <> ch_bs -> stop <> "#"%ch -> ~ space stop ->
  forall ws lead g buf0,
  at_text g (lead ++ words_text ws ++ stop :: r) -> Forall space lead -> l_stop g = stop -> words_ok it start stop ws ->
  exists ts g' b', nemits g (KWords W_InProgress it start 0 buf0) ts g' (KWords W_Done it start 0 b')
    /\ shapes ts = map (fun w => (T_String, Some (word_bytes it (fst w)))) ws ++ [(T_RBracket, None)]
    /\ l_cur g' = l_cur (advance_n (length (lead ++ words_text ws ++ [stop])) g).
Proof.
  intros S1 S2 S3 S4.
  assert (Hstop : forall n g r buf, at_text g (stop :: r) -> l_stop g = stop ->
    array_loop (S n) g W_InProgress it start 0 buf =
      match buf with
      | [] => Ok (tkc (advance g) T_RBracket, advance g, KWords W_Done it start 0 buf, None)
      | _ => Ok (tkcl (advance g) T_String buf, advance g, KWords W_EndToken it start 0 buf, None)
      end).
  { intros n g r0 buf Hat Hst. cbn [array_loop]. rewrite (at_cur _ _ _ Hat), Hst.
    apply N.eqb_neq in S1, S2, S3. rewrite S1, S2, S3. cbn [andb].
    destruct (isspace stop) eqn:E; [exfalso; apply S4, space_isspace; exact E|]. rewrite andb_false_r. cbn [andb].
    replace ((stop =? start) && negb (start =? stop)) with false
      by (symmetry; rewrite N.eqb_sym; destruct (start =? stop); reflexivity).
    rewrite N.eqb_refl. reflexivity. }
  induction ws as [|[w sep] ws IH]; intros lead g buf0 Hat Hl Hst Hok.
  - cbn [words_text app] in Hat. set (g1 := set_tokpos g false).
    assert (Hat1 : at_text g1 (lead ++ stop :: r)) by exact Hat.
    pose proof (at_adv_n _ _ _ Hat1) as Hat2.
    assert (E : array_loop (loop_fuel g1) g1 W_InProgress it start 0 [] =
      Ok (tkc (advance (advance_n (length lead) g1)) T_RBracket, advance (advance_n (length lead) g1), KWords W_Done it start 0 [], None)).
    { rewrite (at_fuel _ _ Hat1), app_length. cbn [length].
      replace (S (S (length lead + S (length r))))%nat with (length lead + S (S (S (length r))))%nat by lia.
      rewrite (skip_spaces it start lead _ g1 (stop :: r) Hat1 Hl).
      apply (Hstop _ _ r [] Hat2). rewrite advance_n_stop. exact Hst. }
    eexists [_], _, _. split; [|split].
    + eapply nemits_cons; [| |apply nemits_nil].
      * unfold next_own. cbn [skip_ws bind build build_words]. fold g1. rewrite E. reflexivity.
      * reflexivity.
    + reflexivity.
    + cbn [l_cur set_names words_text app]. rewrite app_length. cbn [length]. rewrite advance_n_S.
      replace (length lead + 1)%nat with (S (length lead)) by lia. apply advance_n_cur; reflexivity.
  - destruct Hok as (Hw & Hwok & Hsep & Hlast & Hok). cbn [words_text] in Hat. rewrite <- !app_assoc in Hat.
    set (g1 := set_tokpos g false).
    assert (Hat1 : at_text g1 (lead ++ word_text w ++ sep ++ words_text ws ++ stop :: r)) by exact Hat.
    pose proof (at_adv_n _ _ _ Hat1) as Hat2. pose proof (at_adv_n _ _ _ Hat2) as Hat3. rewrite advance_n_plus in Hat3.
    set (j := (length lead + length (word_text w))%nat) in *.
    assert (E : exists n, array_loop (loop_fuel g1) g1 W_InProgress it start 0 [] =
                          array_loop (S n) (advance_n j g1) W_InProgress it start 0 (word_bytes it w)).
    { rewrite (at_fuel _ _ Hat1), !app_length. pose proof (word_len w) as Hwl. eexists.
      replace (S (S (length lead + (length (word_text w) + (length sep + (length (words_text ws) + length (stop :: r)))))))%nat
        with (length lead + (length w + S (S (length (word_text w) - length w + (length sep + (length (words_text ws) + length (stop :: r)))))))%nat by lia.
      rewrite (skip_spaces it start lead _ g1 _ Hat1 Hl).
      rewrite (word_fwd it start stop S2 S3 w _ _ (sep ++ words_text ws ++ stop :: r) [] Hat2).
      - rewrite advance_n_plus. fold j. reflexivity.
      - rewrite advance_n_stop. exact Hst.
      - replace (hd 0 (sep ++ words_text ws ++ stop :: r)) with (hd stop sep); [exact Hwok|].
        destruct sep as [|c sep]; [rewrite (Hlast eq_refl)|]; reflexivity. }
    destruct E as [n E]. destruct (word_bytes_cons it w Hw) as (b & bs & Eb).
    destruct sep as [|c sep].
    + rewrite (Hlast eq_refl) in *. cbn [words_text app] in Hat3.
      eexists [_; _], _, _. split; [|split].
      * eapply nemits_cons; [| |eapply nemits_cons; [| |apply nemits_nil]].
        -- unfold next_own. cbn [skip_ws bind build build_words]. fold g1. rewrite E.
           rewrite (Hstop _ _ r _ Hat3) by (rewrite advance_n_stop; exact Hst). rewrite Eb. reflexivity.
        -- reflexivity.
        -- unfold next_own. cbn [skip_ws bind build build_words]. reflexivity.
        -- reflexivity.
      * cbn [shapes map fst app]. rewrite Eb. reflexivity.
      * cbn [l_cur set_names set_tokpos words_text app]. rewrite app_nil_r, !app_length. cbn [length]. rewrite advance_n_S.
        replace (length lead + (length (word_text w) + 1))%nat with (S j) by (unfold j; lia). apply advance_n_cur; reflexivity.
    + cbn [app] in Hat3. inversion Hsep as [|? ? Hc Hsep']; subst.
      assert (E2 : array_loop (S n) (advance_n j g1) W_InProgress it start 0 (word_bytes it w) =
        Ok (tkcl (advance_n j g1) T_String (word_bytes it w), advance (advance_n j g1), KWords W_InProgress it start 0 (word_bytes it w), None)).
      { cbn [array_loop]. rewrite (at_cur _ _ _ Hat3). pose proof Hc as Hc'. apply space_isspace in Hc'. rewrite Hc'.
        replace (c =? 0) with false by (unfold space in Hc; lia).
        replace (c =? ch_bs) with false by (unfold space, ch_bs in *; lia). cbn [andb w_in_dynamic]. rewrite Eb. reflexivity. }
      pose proof (at_adv _ _ _ Hat3) as Hat4. rewrite advance_n_S in *.
      set (g2 := set_names (advance_n (S j) g1) (update_names (l_names (advance_n (S j) g1)) T_String)).
      destruct (IH sep g2 (word_bytes it w)) as (ts & g' & b' & I1 & I2 & I3); auto.
      { unfold g2. cbn [l_stop set_names]. rewrite advance_n_stop. reflexivity. }
      eexists (_ :: ts), _, _. split; [|split].
      * eapply nemits_cons; [| |exact I1].
        -- unfold next_own. cbn [skip_ws bind build build_words]. fold g1. rewrite E, E2. reflexivity.
        -- reflexivity.
      * cbn [shapes map fst app]. rewrite <- I2. reflexivity.
      * rewrite I3. rewrite (advance_n_cur _ g2 (advance_n (S j) g)).
        -- rewrite advance_n_plus. do 2 f_equal. unfold j. cbn [words_text]. rewrite ?app_length; cbn [length]; rewrite ?app_length; cbn [length]; rewrite ?app_length; cbn [length]; lia.
        -- unfold g2. cbn [l_cur set_names]. apply advance_n_cur; reflexivity.
        -- unfold g2. cbn [l_input set_names]. rewrite (advance_n_frame _ g1), (advance_n_frame _ g). reflexivity.
        -- unfold g2. cbn [l_size set_names]. rewrite (advance_n_frame _ g1), (advance_n_frame _ g). reflexivity.
Qed.

Lemma delimiters_nospace a b : delimiters a b -> ~ space b.
Proof.
  intros [| | | |c Hc]; try (unfold space; lia).
  assert (E : forallb (fun c => negb (isspace c)) (s2l "!""$%&'*+,-./:;=?@^_`|~") = true) by reflexivity.
  rewrite forallb_forall in E. specialize (E c Hc). rewrite space_isspace. destruct (isspace c); congruence || discriminate.
Qed.

Theorem words_source c t it a b lead ws fuel :
  array_letter c t it -> delimiters a b -> Forall space lead -> words_ok it a b ws -> (length ws + 3 <= fuel)%nat ->
  exists ts, tokens fuel (["%"%ch; c; a] ++ lead ++ words_text ws ++ [b]) = Ok ts
    /\ shapes ts = (t, Some [a]) :: map (fun w => (T_String, Some (word_bytes it (fst w)))) ws ++ [(T_RBracket, None); (T_Eof, None)].
Proof.
  intros Hlet Hd Hlead Hok Hf.
  set (body := lead ++ words_text ws ++ [b]). set (s := ["%"%ch; c; a] ++ body). set (h0 := set_tokpos (new_lx s) false).
  assert (Hat : at_text h0 ("%"%ch :: c :: a :: body)) by apply at_new.
  destruct (delimiters_ok _ _ Hd) as (D1 & D2 & D3 & D4).
  assert (Hsw : lex_switch h0 = Ok (tkl (advance_n 3 h0) t [a], advance_n 3 h0, Some (new_words_lexer (advance_n 3 h0) a b it))).
  { unfold lex_switch. rewrite (at_cur _ _ _ Hat). eqb_consts.
    pose proof (at_adv _ _ _ Hat) as H1. rewrite (at_cur _ _ _ H1).
    destruct Hlet; eqb_consts;
      (rewrite (percent_fwd (advance h0) _ true a b); [reflexivity|reflexivity|exact Hd|exact (at_peek _ _ _ H1)]). }
  assert (Hg : at_text (advance_n 3 h0) body) by (apply (at_adv_n h0 ["%"%ch; c; a] body Hat)).
  set (g0 := set_stop_char (advance_n 3 h0) b).
  destruct (words_nemits it a b [] D1 D2 D3 (delimiters_nospace _ _ Hd) ws lead g0 []) as (ts & g' & b' & E1 & E2 & E3).
  - exact Hg.
  - exact Hlead.
  - reflexivity.
  - exact Hok.
  - destruct (nested_source s "%"%ch (c :: a :: body) _ 3 g0 _ ts g' _ fuel eq_refl ltac:(discriminate) ltac:(discriminate)
      ltac:(discriminate) ltac:(discriminate) Hsw E1 (fin_words _ _ _ _)) as (e & T1 & T2).
    + rewrite E3. rewrite (advance_n_cur _ g0 (advance_n 3 h0)) by reflexivity. rewrite advance_n_plus.
      rewrite (advance_n_cur _ h0 (new_lx s)) by reflexivity. reflexivity.
    + apply simple_shapes. cbn [shapes map]. fold (shapes ts). rewrite E2. constructor; [destruct Hlet; repeat split|].
      apply Forall_app. split; [|repeat constructor]. apply Forall_map, Forall_forall. intros. repeat split.
    + assert (El : length ts = length (shapes ts)) by (unfold shapes; rewrite map_length; reflexivity).
      rewrite El, E2, app_length, map_length. cbn [length]. lia.
    + eexists. split; [exact T2|]. cbn [shapes map]. rewrite map_app. fold (shapes ts). rewrite E2. cbn [map]. rewrite T1, <- app_assoc. reflexivity.
Qed.

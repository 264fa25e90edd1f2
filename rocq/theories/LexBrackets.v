(** * LexBrackets: brackets inside bracketed literals *)
From Coq Require Import Strings.String NArith ZArith Bool Arith List Lia ZifyBool ZifyNat ZifyN.
From Verif Require Import Base Token Spec SpecLit SpecBrackets LexModel LexBasics LexRest LexInv LexFwd LexString LexQuoted LexArray
  LexUnterminated TokensProofs.
Import ListNotations.
Open Scope N_scope.

Lemma brackets_delimiters a b : brackets a b -> delimiters a b /\ a <> b /\ a <> 0 /\ a <> ch_bs /\ a <> "#"%ch /\ ~ space a.
Proof. intros H; destruct H; (split; [constructor|]); unfold space; repeat split; try discriminate; intros [H|H]; lia. Qed.

Lemma set_depth_adv f d : advance (set_depth f d) = set_depth (advance f) d.
Proof. unfold advance, current_char. cbn [l_cur l_input l_size set_depth]. destruct (_ =? ch_nl); reflexivity. Qed.
Lemma set_depth_adv_n k : forall f d, advance_n k (set_depth f d) = set_depth (advance_n k f) d.
Proof. induction k as [|k IH]; intros f d; [reflexivity|]. cbn [advance_n]. rewrite set_depth_adv. apply IH. Qed.
Lemma set_depth_id f d : l_depth f = d -> set_depth f d = f.
Proof. intros <-. destruct f; reflexivity. Qed.
Lemma at_depth f d r : at_text (set_depth f d) r <-> at_text f r.
Proof. reflexivity. Qed.

(** What one unprotected character does to the depth. *)
Lemma open_cons a b d c cs d' : open_after a b d (c :: cs) = Some d' ->
  exists d1, open_after a b d1 cs = Some d' /\
    ((c = a /\ d1 = S d) \/ (c <> a /\ c = b /\ d = S d1) \/ (c <> a /\ c <> b /\ d1 = d)).
Proof.
  cbn [open_after]. destruct (c =? a) eqn:Ea; [apply N.eqb_eq in Ea; eauto 6|]. apply N.eqb_neq in Ea.
  destruct (c =? b) eqn:Eb; [apply N.eqb_eq in Eb; destruct d as [|d]; [discriminate|]; eauto 8|].
  apply N.eqb_neq in Eb. eauto 8.
Qed.

(** ** Strings with escapes *)

Lemma str_nest a b et al : a <> b -> a <> 0 -> a <> ch_bs -> a <> "#"%ch -> b <> 0 -> b <> ch_bs -> b <> "#"%ch ->
  forall ps n g buf r d',
  at_text g (body_text ps ++ r) -> l_stop g = b -> l_start g = a -> nest_ok a b ps (hd 0 r) ->
  open_after a b (l_depth g) (exposed ps) = Some d' ->
  str_loop (length ps + n) g et al buf =
  str_loop n (set_depth (advance_n (length (body_text ps)) g) d') et al (buf ++ body_bytes ps).
Proof.
  intros A0 A1 A2 A3 B1 B2 B3.
  assert (Ab : (a =? b) = false) by (apply N.eqb_neq; exact A0).
  assert (Ba : (b =? a) = false) by (apply N.eqb_neq; auto).
  induction ps as [|p ps IH]; intros n g buf r d' Hat Hst Hsa Hok Hd.
  - cbn in Hd. injection Hd as Hd. rewrite set_depth_id by (cbn; exact Hd).
    cbn [body_bytes map concat body_text length]. rewrite app_nil_r. reflexivity.
  - destruct Hok as [Hp Hok]. cbn [body_text map concat] in Hat. fold (body_text ps) in Hat. rewrite <- app_assoc in Hat.
    assert (Hord : piece_ok a b p (hd (hd 0 r) (body_text ps)) ->
       (forall c, p = PChar c -> c <> a /\ c <> b) ->
       str_loop (length (p :: ps) + n) g et al buf =
       str_loop n (set_depth (advance_n (length (body_text (p :: ps))) g) d') et al (buf ++ body_bytes (p :: ps))).
    { intros Hpo Hne. change (length (p :: ps) + n)%nat with (length [p] + (length ps + n))%nat.
      rewrite (str_prefix a b et al B1 B2 [p] (length ps + n) g buf (body_text ps ++ r)).
      - rewrite (IH n _ _ r d').
        + cbn [body_text body_bytes map concat]. rewrite !app_nil_r, app_length. fold (body_text ps) (body_bytes ps).
          rewrite advance_n_plus, app_assoc. reflexivity.
        + cbn [body_text map concat]. rewrite app_nil_r. apply at_adv_n. exact Hat.
        + rewrite advance_n_stop. exact Hst.
        + rewrite advance_n_start. exact Hsa.
        + exact Hok.
        + rewrite advance_n_depth. destruct p as [c| | | | | | | | | |]; try exact Hd.
          destruct (Hne c eq_refl) as [N1 N2]. cbn [exposed map concat app open_after] in Hd.
          apply N.eqb_neq in N1, N2. rewrite N1, N2 in Hd. exact Hd.
      - cbn [body_text map concat]. rewrite app_nil_r. exact Hat.
      - exact Hst.
      - right. exact Hsa.
      - cbn [body_before body_text map concat hd]. rewrite hd_app_hd. auto. }
    assert (Hbr : forall c, p = PChar c -> c = a \/ c = b ->
       str_loop (length (p :: ps) + n) g et al buf =
       str_loop n (set_depth (advance_n (length (body_text (p :: ps))) g) d') et al (buf ++ body_bytes (p :: ps))).
    { intros c -> Hc. change (length (PChar c :: ps) + n)%nat with (S (length ps + n)). cbn [piece_text app] in Hat.
      cbn [str_loop]. rewrite (at_cur _ _ _ Hat), Hst, Hsa, Ab.
      assert (C : c <> 0 /\ c <> ch_bs /\ c <> "#"%ch) by (destruct Hc; subst c; auto). destruct C as (C1 & C2 & C3).
      apply N.eqb_neq in C1, C2, C3. rewrite C1, C2, C3. cbn [andb negb].
      change (exposed (PChar c :: ps)) with (c :: exposed ps) in Hd. apply open_cons in Hd. destruct Hd as (d1 & Hd & Hcase).
      destruct Hcase as [[-> ->]|[(N1 & -> & Hd1)|(N1 & N2 & _)]]; [| |destruct Hc; contradiction].
      - rewrite N.eqb_refl. cbn [andb].
        rewrite (IH n _ (buf ++ [a]) r d' (at_adv _ _ _ (proj2 (at_depth _ (S (l_depth g)) _) Hat))); auto.
        cbn [body_text body_bytes map concat piece_text piece_bytes app length]. fold (body_text ps) (body_bytes ps).
        rewrite set_depth_adv, set_depth_adv_n. rewrite <- app_assoc. reflexivity.
      - rewrite Ba, N.eqb_refl. cbn [andb]. change (l_depth (advance g)) with (l_depth g). rewrite Hd1.
        rewrite (IH n (set_depth (advance g) d1) (buf ++ [b]) r d' (at_adv _ _ _ Hat)); auto.
        cbn [body_text body_bytes map concat piece_text piece_bytes app length]. fold (body_text ps) (body_bytes ps).
        rewrite set_depth_adv_n. rewrite <- app_assoc. reflexivity. }
    destruct Hp as [Hp|[Hp|Hp]]; [eauto|eauto|].
    apply Hord; [exact Hp|]. intros c ->. destruct Hp as (_ & _ & P3 & P4 & _). auto.
Qed.

Lemma nest_reads a b ps : brackets a b -> nest_ok a b ps b -> balanced a b (exposed ps) ->
  str_reads a b (body_text ps) (body_bytes ps).
Proof.
  intros Hb Hok Hbal et g r Hat Hst Hs0 Hd.
  destruct (brackets_delimiters a b Hb) as (Hdel & A0 & A1 & A2 & A3 & A4).
  destruct (delimiters_ok _ _ Hdel) as (D1 & D2 & D3 & D4).
  pose proof A0 as Ab. apply N.eqb_neq in Ab. rewrite Ab in Hs0.
  assert (Ba : (b =? a) = false) by (rewrite N.eqb_sym; exact Ab).
  rewrite (at_fuel _ _ Hat), app_length. cbn [length]. pose proof (body_len ps).
  replace (S (S (length (body_text ps) + S (length r)))) with (length ps + S (S (S (length (body_text ps) - length ps + length r))))%nat by lia.
  rewrite (str_nest a b et true A0 A1 A2 A3 D1 D2 D3 ps _ g [] (b :: r) 0%nat Hat Hst Hs0 Hok) by (rewrite Hd; exact Hbal).
  rewrite set_depth_id by (rewrite advance_n_depth; exact Hd).
  cbn [str_loop app]. pose proof (at_adv_n _ _ _ Hat) as Hat2. rewrite (at_cur _ _ _ Hat2), advance_n_stop, advance_n_start, Hst, Hs0.
  apply N.eqb_neq in D1, D2, D3. rewrite D1, D2, D3, Ba, N.eqb_refl. cbn [andb].
  rewrite advance_n_S, advance_n_depth, Hd. reflexivity.
Qed.

Theorem nest_source op a b bt et ps fuel :
  opening op a b bt et -> brackets a b -> nest_ok a b ps b -> balanced a b (exposed ps) -> (4 <= fuel)%nat ->
  exists ts, tokens fuel (op ++ body_text ps ++ [b]) = Ok ts
    /\ shapes ts = (bt, Some [a]) :: content (body_bytes ps) ++ [(et, None); (T_Eof, None)].
Proof. intros Ho Hb Hok Hbal. apply literal_source_of; auto. apply nest_reads; auto. Qed.

(** ** Regular expressions *)

Lemma regexp_nest a b opts : a <> b -> a <> 0 -> a <> ch_bs -> a <> "#"%ch -> b <> 0 -> b <> ch_bs -> b <> "#"%ch ->
  forall ps n g buf r d',
  at_text g (rbody_text ps ++ r) -> l_stop g = b -> l_start g = a -> rnest_ok a b ps (hd 0 r) ->
  open_after a b (l_depth g) (rexposed ps) = Some d' ->
  regexp_loop (length ps + n) g opts buf =
  regexp_loop n (set_depth (advance_n (length (rbody_text ps)) g) d') opts (buf ++ rbody_bytes b ps).
Proof.
  intros A0 A1 A2 A3 B1 B2 B3.
  assert (Ab : (a =? b) = false) by (apply N.eqb_neq; exact A0).
  assert (Ba : (b =? a) = false) by (apply N.eqb_neq; auto).
  induction ps as [|p ps IH]; intros n g buf r d' Hat Hst Hsa Hok Hd.
  - cbn in Hd. injection Hd as Hd. rewrite set_depth_id by (cbn; exact Hd).
    cbn [rbody_bytes map concat rbody_text length]. rewrite app_nil_r. reflexivity.
  - destruct Hok as [Hp Hok]. cbn [rbody_text map concat] in Hat. fold (rbody_text ps) in Hat. rewrite <- app_assoc in Hat.
    assert (Hord : rpiece_ok a b p (hd (hd 0 r) (rbody_text ps)) ->
       (forall c, p = RChar c -> c <> a /\ c <> b) ->
       regexp_loop (length (p :: ps) + n) g opts buf =
       regexp_loop n (set_depth (advance_n (length (rbody_text (p :: ps))) g) d') opts (buf ++ rbody_bytes b (p :: ps))).
    { intros Hpo Hne. change (length (p :: ps) + n)%nat with (length [p] + (length ps + n))%nat.
      rewrite (regexp_prefix a b opts B1 B2 [p] (length ps + n) g buf (rbody_text ps ++ r)).
      - rewrite (IH n _ _ r d').
        + cbn [rbody_text rbody_bytes map concat]. rewrite !app_nil_r, app_length. fold (rbody_text ps) (rbody_bytes b ps).
          rewrite advance_n_plus, app_assoc. reflexivity.
        + cbn [rbody_text map concat]. rewrite app_nil_r. apply at_adv_n. exact Hat.
        + rewrite advance_n_stop. exact Hst.
        + rewrite advance_n_start. exact Hsa.
        + exact Hok.
        + rewrite advance_n_depth. destruct p as [c|c]; try exact Hd.
          destruct (Hne c eq_refl) as [N1 N2]. cbn [rexposed map concat app open_after] in Hd.
          apply N.eqb_neq in N1, N2. rewrite N1, N2 in Hd. exact Hd.
      - cbn [rbody_text map concat]. rewrite app_nil_r. exact Hat.
      - exact Hst.
      - right. exact Hsa.
      - cbn [rbody_before rbody_text map concat hd]. rewrite hd_app_hd. auto. }
    assert (Hbr : forall c, p = RChar c -> c = a \/ c = b ->
       regexp_loop (length (p :: ps) + n) g opts buf =
       regexp_loop n (set_depth (advance_n (length (rbody_text (p :: ps))) g) d') opts (buf ++ rbody_bytes b (p :: ps))).
    { intros c -> Hc. change (length (RChar c :: ps) + n)%nat with (S (length ps + n)). cbn [rpiece_text app] in Hat.
      cbn [regexp_loop]. rewrite (at_cur _ _ _ Hat), Hst, Hsa, Ab.
      assert (C : c <> 0 /\ c <> ch_bs /\ c <> "#"%ch) by (destruct Hc; subst c; auto). destruct C as (C1 & C2 & C3).
      apply N.eqb_neq in C1, C2, C3. rewrite C1, C2, C3. cbn [andb negb].
      change (rexposed (RChar c :: ps)) with (c :: rexposed ps) in Hd. apply open_cons in Hd. destruct Hd as (d1 & Hd & Hcase).
      destruct Hcase as [[-> ->]|[(N1 & -> & Hd1)|(N1 & N2 & _)]]; [| |destruct Hc; contradiction].
      - rewrite N.eqb_refl. cbn [andb].
        rewrite (IH n _ (buf ++ [a]) r d' (at_adv _ _ _ (proj2 (at_depth _ (S (l_depth g)) _) Hat))); auto.
        cbn [rbody_text rbody_bytes map concat rpiece_text rpiece_bytes app length]. fold (rbody_text ps) (rbody_bytes b ps).
        rewrite set_depth_adv, set_depth_adv_n. rewrite <- app_assoc. reflexivity.
      - rewrite Ba, N.eqb_refl. cbn [andb]. change (l_depth (advance g)) with (l_depth g). rewrite Hd1.
        rewrite (IH n (set_depth (advance g) d1) (buf ++ [b]) r d' (at_adv _ _ _ Hat)); auto.
        cbn [rbody_text rbody_bytes map concat rpiece_text rpiece_bytes app length]. fold (rbody_text ps) (rbody_bytes b ps).
        rewrite set_depth_adv_n. rewrite <- app_assoc. reflexivity. }
    destruct Hp as [Hp|[Hp|Hp]]; [eauto|eauto|].
    apply Hord; [exact Hp|]. intros c ->. destruct Hp as (_ & _ & P3 & P4 & _). auto.
Qed.

Lemma rnest_reads a b ps : brackets a b -> rnest_ok a b ps b -> balanced a b (rexposed ps) ->
  regexp_reads a b (rbody_text ps) (rbody_bytes b ps).
Proof.
  intros Hb Hok Hbal opts g Hat Hst Hs0 Hd Hopt.
  destruct (brackets_delimiters a b Hb) as (Hdel & A0 & A1 & A2 & A3 & A4).
  destruct (delimiters_ok _ _ Hdel) as (D1 & D2 & D3 & D4).
  pose proof A0 as Ab. apply N.eqb_neq in Ab. rewrite Ab in Hs0.
  assert (Ba : (b =? a) = false) by (rewrite N.eqb_sym; exact Ab).
  rewrite (at_fuel _ _ Hat), app_length. cbn [length]. pose proof (rbody_len ps).
  replace (S (S (length (rbody_text ps) + S (length opts))))
    with (length ps + S (S (S (length (rbody_text ps) - length ps + length opts))))%nat by lia.
  rewrite (regexp_nest a b [] A0 A1 A2 A3 D1 D2 D3 ps _ g [] (b :: opts) 0%nat Hat Hst Hs0 Hok) by (rewrite Hd; exact Hbal).
  rewrite set_depth_id by (rewrite advance_n_depth; exact Hd).
  pose proof (at_adv_n _ _ _ Hat) as Hat2. set (h := advance_n (length (rbody_text ps)) g) in *.
  assert (Hhd : l_depth h = 0%nat) by (unfold h; rewrite advance_n_depth; exact Hd).
  cbn [regexp_loop app]. rewrite (at_cur _ _ _ Hat2).
  replace (l_stop h) with b by (unfold h; rewrite advance_n_stop; auto).
  replace (l_start h) with a by (unfold h; rewrite advance_n_start; auto).
  apply N.eqb_neq in D1, D2, D3. rewrite D1, D2, D3, Ba, N.eqb_refl. cbn [andb].
  change (l_depth (advance h)) with (l_depth h). rewrite Hhd.
  pose proof (at_adv _ _ _ Hat2) as H1. unfold consume_options. rewrite <- (app_nil_r opts) in H1.
  rewrite (options_fwd opts (loop_fuel (advance h)) (advance h) [] [] H1 Hopt eq_refl)
    by (rewrite (at_fuel _ _ H1), app_length; lia).
  cbn [bind app]. unfold h. rewrite (advance_1 (advance_n _ g)), !advance_n_plus.
  replace (length (rbody_text ps) + 1 + length opts)%nat with (S (length (rbody_text ps)) + length opts)%nat by lia. 
  replace (length (rbody_text ps) + (1 + length opts))%nat with (S (length (rbody_text ps)) + length opts)%nat by lia. reflexivity.
Qed.

Theorem rnest_source op a b ps opts fuel :
  regexp_opening op a b -> brackets a b -> rnest_ok a b ps b -> balanced a b (rexposed ps) -> Forall regexp_option opts -> (4 <= fuel)%nat ->
  exists ts, tokens fuel (op ++ rbody_text ps ++ b :: opts) = Ok ts
    /\ shapes ts = [(T_InterpolatedRegexpBegin, Some [a]); (T_String, Some (rbody_bytes b ps));
                    (T_InterpolatedRegexpEnd, match opts with [] => None | _ => Some opts end); (T_Eof, None)].
Proof. intros Ho Hb Hok Hbal. apply regexp_source_of; auto. apply rnest_reads; auto. Qed.

(** ** Strings without escapes *)

Lemma sq_nest a b : a <> b -> b <> ch_bs ->
  forall ps n f d buf r d',
  at_text f (rbody_text ps ++ r) -> qnest_ok ps -> open_after a b d (rexposed ps) = Some d' ->
  sq_loop (length ps + n) f a b d buf = sq_loop n (advance_n (length (rbody_text ps)) f) a b d' (buf ++ qbody_bytes b ps).
Proof.
  intros A0 B2.
  assert (Ab : (a =? b) = false) by (apply N.eqb_neq; exact A0).
  induction ps as [|p ps IH]; intros n f d buf r d' Hat Hok Hd.
  - cbn in Hd. injection Hd as ->. cbn [qbody_bytes map concat rbody_text length]. rewrite app_nil_r. reflexivity.
  - inversion Hok as [|? ? Hp Hok']; subst. cbn [rbody_text map concat] in Hat. fold (rbody_text ps) in Hat. rewrite <- app_assoc in Hat.
    cbn [length Nat.add sq_loop]. destruct p as [c|c]; cbn [rpiece_text app] in Hat; rewrite (at_cur _ _ _ Hat).
    + destruct Hp as [P1 P2]. apply N.eqb_neq in P1, P2. rewrite P1, P2, Ab. cbn [andb negb].
      change (rexposed (RChar c :: ps)) with (c :: rexposed ps) in Hd. apply open_cons in Hd. destruct Hd as (d1 & Hd & Hcase).
      assert (E : sq_loop (length ps + n) (advance f) a b d1 (buf ++ [c]) =
        sq_loop n (advance_n (length (rbody_text (RChar c :: ps))) f) a b d' (buf ++ qbody_bytes b (RChar c :: ps))).
      { rewrite (IH n (advance f) d1 (buf ++ [c]) r d' (at_adv _ _ _ Hat) Hok' Hd).
        cbn [rbody_text qbody_bytes map concat rpiece_text qpiece_bytes app length]. fold (rbody_text ps) (qbody_bytes b ps).
        rewrite <- app_assoc. reflexivity. }
      destruct Hcase as [[-> ->]|[(N1 & -> & ->)|(N1 & N2 & ->)]].
      * rewrite N.eqb_refl. exact E.
      * apply N.eqb_neq in N1. rewrite N1, N.eqb_refl. exact E.
      * apply N.eqb_neq in N1, N2. rewrite N1, N2. exact E.
    + pose proof B2 as B2'. apply N.eqb_neq in B2'. rewrite B2'. change (ch_bs =? 0) with false. change (ch_bs =? ch_bs) with true.
      cbn [negb andb]. pose proof (at_adv _ _ _ Hat) as H1. rewrite (at_cur _ _ _ H1).
      replace (if (c =? b) || (c =? ch_bs) then buf ++ [c] else buf ++ [ch_bs; c]) with (buf ++ qpiece_bytes b (REsc c))
        by (cbn [qpiece_bytes]; destruct (_ || _); reflexivity).
      rewrite (IH n (advance (advance f)) d _ r d' (at_adv _ _ _ H1) Hok' Hd).
      cbn [rbody_text qbody_bytes map concat]. fold (rbody_text ps) (qbody_bytes b ps). rewrite <- app_assoc. reflexivity.
Qed.

Lemma qnest_reads a b ps : brackets a b -> qnest_ok ps -> balanced a b (rexposed ps) -> sq_reads a b (rbody_text ps) (qbody_bytes b ps).
Proof.
  intros Hb Hok Hbal f r Hat Hr.
  destruct (brackets_delimiters a b Hb) as (Hdel & A0 & A1 & A2 & A3 & A4).
  destruct (delimiters_ok _ _ Hdel) as (D1 & D2 & D3 & D4).
  unfold consume_single_quoted_string. rewrite (at_fuel _ _ Hat), app_length. cbn [length]. pose proof (rbody_len ps).
  replace (S (S (length (rbody_text ps) + S (length r)))) with (length ps + S (S (S (length (rbody_text ps) - length ps + length r))))%nat by lia.
  rewrite (sq_nest a b A0 D2 ps _ f 0 [] (b :: r) 0%nat Hat Hok Hbal).
  pose proof (at_adv_n _ _ _ Hat) as Hat2. cbn [sq_loop app]. rewrite (at_cur _ _ _ Hat2).
  apply N.eqb_neq in D1, D2, A0. rewrite D1, D2, N.eqb_refl, (N.eqb_sym b a), A0. cbn [andb].
  pose proof (at_adv _ _ _ Hat2) as H1. rewrite (at_cur_hd _ _ H1). rewrite advance_n_S in *.
  replace ((hd 0 r =? ":"%ch) && negb (l_ternary (advance_n (S (length (rbody_text ps))) f))) with false; [reflexivity|].
  symmetry. destruct Hr as [Hr|Hr]; [apply N.eqb_neq in Hr; rewrite Hr; reflexivity|].
  rewrite (advance_n_frame _ f). cbn [l_ternary set_cur]. rewrite Hr. apply andb_false_r.
Qed.

Theorem qnest_source c t a b ps fuel :
  raw_letter c t -> brackets a b -> qnest_ok ps -> balanced a b (rexposed ps) -> (2 <= fuel)%nat ->
  exists ts, tokens fuel (["%"%ch; c; a] ++ rbody_text ps ++ [b]) = Ok ts /\ shapes ts = [(t, Some (qbody_bytes b ps)); (T_Eof, None)].
Proof.
  intros Hl Hb Hok Hbal Hf. destruct (brackets_delimiters a b Hb) as (Hdel & A0 & _).
  apply raw_source_of with (a := a) (b := b); auto; [destruct Hl; constructor; exact Hdel|apply qnest_reads; auto|congruence].
Qed.

(** ** Word arrays *)

Lemma open_app a b cs1 : forall cs2 d d', open_after a b d (cs1 ++ cs2) = Some d' ->
  exists d1, open_after a b d cs1 = Some d1 /\ open_after a b d1 cs2 = Some d'.
Proof.
  induction cs1 as [|c cs1 IH]; intros cs2 d d' H; [exists d; auto|]. cbn [app open_after] in *.
  destruct (c =? a); [apply IH; exact H|]. destruct (c =? b); [destruct d; [discriminate|]|]; apply IH; exact H.
Qed.

Lemma word_nest it a b : brackets a b -> forall w n g r buf d d',
  at_text g (word_text w ++ r) -> l_stop g = b -> wnest_ok it a b w (hd 0 r) -> open_after a b d (wexposed w) = Some d' ->
  array_loop (length w + n) g W_InProgress it a d buf =
  array_loop n (advance_n (length (word_text w)) g) W_InProgress it a d' (buf ++ word_bytes it w).
Proof.
  intros Hb. destruct (brackets_delimiters a b Hb) as (Hdel & A0 & A1 & A2 & A3 & A4).
  destruct (delimiters_ok _ _ Hdel) as (D1 & D2 & D3 & D4). pose proof (delimiters_nospace _ _ Hdel) as D5.
  assert (Ab : (a =? b) = false) by (apply N.eqb_neq; exact A0).
  induction w as [|p w IH]; intros n g r buf d d' Hat Hst Hok Hd.
  - cbn in Hd. injection Hd as ->. cbn [word_bytes map concat word_text length]. rewrite app_nil_r. reflexivity.
  - destruct Hok as [Hp Hok]. cbn [word_text map concat] in Hat. fold (word_text w) in Hat. rewrite <- app_assoc in Hat.
    assert (Hord : wpiece_ok it a b p (hd (hd 0 r) (word_text w)) -> (forall c, p = WChar c -> c <> a /\ c <> b) ->
      array_loop (length (p :: w) + n) g W_InProgress it a d buf =
      array_loop n (advance_n (length (word_text (p :: w))) g) W_InProgress it a d' (buf ++ word_bytes it (p :: w))).
    { intros Hpo Hne. change (length (p :: w) + n)%nat with (length [p] + (length w + n))%nat.
      rewrite (word_fwd it a b D2 D3 [p] (length w + n) g (word_text w ++ r) buf).
      - rewrite (IH n _ r _ d d').
        + cbn [word_text word_bytes map concat]. rewrite !app_nil_r, app_length. fold (word_text w) (word_bytes it w).
          rewrite advance_n_plus, app_assoc. reflexivity.
        + cbn [word_text map concat]. rewrite app_nil_r. apply at_adv_n. exact Hat.
        + rewrite advance_n_stop. exact Hst.
        + exact Hok.
        + destruct p as [c|c]; try exact Hd. destruct (Hne c eq_refl) as [N1 N2]. cbn [wexposed map concat app open_after] in Hd.
          apply N.eqb_neq in N1, N2. rewrite N1, N2 in Hd. exact Hd.
      - cbn [word_text map concat]. rewrite app_nil_r. exact Hat.
      - exact Hst.
      - cbn [word_ok word_text map concat hd]. rewrite hd_app_hd. auto. }
    assert (Hbr : forall c, p = WChar c -> c = a \/ c = b ->
      array_loop (length (p :: w) + n) g W_InProgress it a d buf =
      array_loop n (advance_n (length (word_text (p :: w))) g) W_InProgress it a d' (buf ++ word_bytes it (p :: w))).
    { intros c -> Hc. cbn [wpiece_text app] in Hat. cbn [length Nat.add array_loop]. rewrite (at_cur _ _ _ Hat), Hst.
      assert (C : c <> 0 /\ c <> ch_bs /\ c <> "#"%ch /\ ~ space c) by (destruct Hc; subst c; auto). destruct C as (C1 & C2 & C3 & C4).
      apply N.eqb_neq in C1, C2, C3. rewrite C1, C2, C3, Ab. rewrite andb_false_r. cbn [andb negb].
      destruct (isspace c) eqn:Es; [exfalso; apply C4, space_isspace; exact Es|].
      change (wexposed (WChar c :: w)) with (c :: wexposed w) in Hd. apply open_cons in Hd. destruct Hd as (d1 & Hd & Hcase).
      assert (E : array_loop (length w + n) (advance g) W_InProgress it a d1 (buf ++ [c]) =
        array_loop n (advance_n (length (word_text (WChar c :: w))) g) W_InProgress it a d' (buf ++ word_bytes it (WChar c :: w))).
      { rewrite (IH n (advance g) r (buf ++ [c]) d1 d' (at_adv _ _ _ Hat) Hst Hok Hd).
        cbn [word_text word_bytes map concat wpiece_text wpiece_bytes app length]. fold (word_text w) (word_bytes it w).
        rewrite <- app_assoc. reflexivity. }
      destruct Hcase as [[-> ->]|[(N1 & -> & ->)|(N1 & N2 & _)]]; [| |destruct Hc; contradiction].
      - rewrite N.eqb_refl. exact E.
      - apply N.eqb_neq in N1. rewrite N1, N.eqb_refl. exact E. }
    destruct Hp as [Hp|[Hp|Hp]]; [eauto|eauto|].
    apply Hord; [exact Hp|]. intros c ->. destruct Hp as (_ & _ & P3 & P4 & _). split; [|exact P3]. intros ->. exact (A0 (P4 eq_refl)).
Qed.

Lemma nwords_nemits it a b r : brackets a b ->
  forall ws lead g buf0 d,
  at_text g (lead ++ words_text ws ++ b :: r) -> Forall space lead -> l_stop g = b -> nwords_ok it a b ws ->
  open_after a b d (words_exposed ws) = Some 0%nat ->
  exists ts g' b', nemits g (KWords W_InProgress it a d buf0) ts g' (KWords W_Done it a 0 b')
    /\ shapes ts = map (fun w => (T_String, Some (word_bytes it (fst w)))) ws ++ [(T_RBracket, None)]
    /\ l_cur g' = l_cur (advance_n (length (lead ++ words_text ws ++ [b])) g).
Proof.
  intros Hb. destruct (brackets_delimiters a b Hb) as (Hdel & A0 & A1 & A2 & A3 & A4).
  destruct (delimiters_ok _ _ Hdel) as (S1 & S2 & S3 & D4). pose proof (delimiters_nospace _ _ Hdel) as S4.
  assert (Hstop : forall n g r buf, at_text g (b :: r) -> l_stop g = b ->
    array_loop (S n) g W_InProgress it a 0 buf =
      match buf with
      | [] => Ok (tkc (advance g) T_RBracket, advance g, KWords W_Done it a 0 buf, None)
      | _ => Ok (tkcl (advance g) T_String buf, advance g, KWords W_EndToken it a 0 buf, None)
      end).
  { intros n g r0 buf Hat Hst. cbn [array_loop]. rewrite (at_cur _ _ _ Hat), Hst.
    apply N.eqb_neq in S1, S2, S3. rewrite S1, S2, S3. cbn [andb].
    destruct (isspace b) eqn:E; [exfalso; apply S4, space_isspace; exact E|]. rewrite andb_false_r. cbn [andb].
    apply N.eqb_neq in A0. rewrite (N.eqb_sym b a), A0. cbn [andb].
    rewrite N.eqb_refl. reflexivity. }
  induction ws as [|[w sep] ws IH]; intros lead g buf0 d Hat Hl Hst Hok Hd.
  - cbn in Hd. injection Hd as ->. cbn [words_text app] in Hat. set (g1 := set_tokpos g false).
    assert (Hat1 : at_text g1 (lead ++ b :: r)) by exact Hat.
    pose proof (at_adv_n _ _ _ Hat1) as Hat2.
    assert (E : array_loop (loop_fuel g1) g1 W_InProgress it a 0 [] =
      Ok (tkc (advance (advance_n (length lead) g1)) T_RBracket, advance (advance_n (length lead) g1), KWords W_Done it a 0 [], None)).
    { rewrite (at_fuel _ _ Hat1), app_length. cbn [length].
      replace (S (S (length lead + S (length r))))%nat with (length lead + S (S (S (length r))))%nat by lia.
      rewrite (skip_spaces it a lead _ g1 (b :: r) Hat1 Hl).
      apply (Hstop _ _ r [] Hat2). rewrite advance_n_stop. exact Hst. }
    eexists [_], _, _. split; [|split].
    + eapply nemits_cons; [| |apply nemits_nil].
      * unfold next_own. cbn [skip_ws bind build build_words]. fold g1. rewrite E. reflexivity.
      * reflexivity.
    + reflexivity.
    + cbn [l_cur set_names words_text app]. rewrite app_length. cbn [length]. rewrite advance_n_S.
      replace (length lead + 1)%nat with (S (length lead)) by lia. apply advance_n_cur; reflexivity.
  - destruct Hok as (Hw & Hwok & Hsep & Hlast & Hok). cbn [words_text] in Hat. rewrite <- !app_assoc in Hat.
    unfold words_exposed in Hd. cbn [map concat fst] in Hd. fold (words_exposed ws) in Hd.
    apply open_app in Hd. destruct Hd as (d1 & Hd1 & Hd2).
    set (g1 := set_tokpos g false).
    assert (Hat1 : at_text g1 (lead ++ word_text w ++ sep ++ words_text ws ++ b :: r)) by exact Hat.
    pose proof (at_adv_n _ _ _ Hat1) as Hat2. pose proof (at_adv_n _ _ _ Hat2) as Hat3. rewrite advance_n_plus in Hat3.
    set (j := (length lead + length (word_text w))%nat) in *.
    assert (E : exists n, array_loop (loop_fuel g1) g1 W_InProgress it a d [] =
                          array_loop (S n) (advance_n j g1) W_InProgress it a d1 (word_bytes it w)).
    { rewrite (at_fuel _ _ Hat1), !app_length. pose proof (word_len w) as Hwl. eexists.
      replace (S (S (length lead + (length (word_text w) + (length sep + (length (words_text ws) + length (b :: r)))))))%nat
        with (length lead + (length w + S (S (length (word_text w) - length w + (length sep + (length (words_text ws) + length (b :: r)))))))%nat by lia.
      rewrite (skip_spaces it a lead _ g1 _ Hat1 Hl).
      rewrite (word_nest it a b Hb w _ _ (sep ++ words_text ws ++ b :: r) [] d d1 Hat2).
      - rewrite advance_n_plus. fold j. reflexivity.
      - rewrite advance_n_stop. exact Hst.
      - replace (hd 0 (sep ++ words_text ws ++ b :: r)) with (hd b sep); [exact Hwok|].
        destruct sep as [|c sep]; [rewrite (Hlast eq_refl)|]; reflexivity.
      - exact Hd1. }
    destruct E as [n E]. destruct (word_bytes_cons it w Hw) as (b0 & bs & Eb).
    destruct sep as [|c sep].
    + rewrite (Hlast eq_refl) in *. cbn [words_text app] in Hat3. cbn in Hd2. injection Hd2 as ->.
      eexists [_; _], _, _. split; [|split].
      * eapply nemits_cons; [| |eapply nemits_cons; [| |apply nemits_nil]].
        -- unfold next_own. cbn [skip_ws bind build build_words]. fold g1. rewrite E.
           rewrite (Hstop _ _ r _ Hat3) by (rewrite advance_n_stop; exact Hst). rewrite Eb. reflexivity.
        -- reflexivity.
        -- unfold next_own. cbn [skip_ws bind build build_words]. reflexivity.
        -- reflexivity.
      * cbn [shapes map fst app]. rewrite Eb. reflexivity.
      * cbn [l_cur set_names set_tokpos words_text app]. rewrite app_nil_r, !app_length. cbn [length]. rewrite advance_n_S.
        replace (length lead + (length (word_text w) + 1))%nat with (S j) by (unfold j; lia). apply advance_n_cur; reflexivity.
    + cbn [app] in Hat3. inversion Hsep as [|? ? Hc Hsep']; subst.
      assert (E2 : array_loop (S n) (advance_n j g1) W_InProgress it a d1 (word_bytes it w) =
        Ok (tkcl (advance_n j g1) T_String (word_bytes it w), advance (advance_n j g1), KWords W_InProgress it a d1 (word_bytes it w), None)).
      { cbn [array_loop]. rewrite (at_cur _ _ _ Hat3). pose proof Hc as Hc'. apply space_isspace in Hc'. rewrite Hc'.
        replace (c =? 0) with false by (unfold space in Hc; lia).
        replace (c =? ch_bs) with false by (unfold space, ch_bs in *; lia). cbn [andb w_in_dynamic]. rewrite Eb. reflexivity. }
      pose proof (at_adv _ _ _ Hat3) as Hat4. rewrite advance_n_S in *.
      set (g2 := set_names (advance_n (S j) g1) (update_names (l_names (advance_n (S j) g1)) T_String)).
      destruct (IH sep g2 (word_bytes it w) d1) as (ts & g' & b' & I1 & I2 & I3); auto.
      { unfold g2. cbn [l_stop set_names]. rewrite advance_n_stop. reflexivity. }
      eexists (_ :: ts), _, _. split; [|split].
      * eapply nemits_cons; [| |exact I1].
        -- unfold next_own. cbn [skip_ws bind build build_words]. fold g1. rewrite E, E2. reflexivity.
        -- reflexivity.
      * cbn [shapes map fst app]. rewrite <- I2. reflexivity.
      * rewrite I3. rewrite (advance_n_cur _ g2 (advance_n (S j) g)).
        -- rewrite advance_n_plus. do 2 f_equal. unfold j. cbn [words_text]. rewrite ?app_length; cbn [length]; rewrite ?app_length; cbn [length]; rewrite ?app_length; cbn [length]; lia.
        -- unfold g2. cbn [l_cur set_names]. apply advance_n_cur; reflexivity.
        -- unfold g2. cbn [l_input set_names]. rewrite (advance_n_frame _ g1), (advance_n_frame _ g). reflexivity.
        -- unfold g2. cbn [l_size set_names]. rewrite (advance_n_frame _ g1), (advance_n_frame _ g). reflexivity.
Qed.

Theorem nwords_source c t it a b lead ws fuel :
  array_letter c t it -> brackets a b -> Forall space lead -> nwords_ok it a b ws -> balanced a b (words_exposed ws) ->
  (length ws + 3 <= fuel)%nat ->
  exists ts, tokens fuel (["%"%ch; c; a] ++ lead ++ words_text ws ++ [b]) = Ok ts
    /\ shapes ts = (t, Some [a]) :: map (fun w => (T_String, Some (word_bytes it (fst w)))) ws ++ [(T_RBracket, None); (T_Eof, None)].
Proof.
  intros Hlet Hbr Hlead Hok Hbal Hf. destruct (brackets_delimiters a b Hbr) as (Hd & _).
  set (body := lead ++ words_text ws ++ [b]). set (s := ["%"%ch; c; a] ++ body). set (h0 := set_tokpos (new_lx s) false).
  assert (Hat : at_text h0 ("%"%ch :: c :: a :: body)) by apply at_new.
  assert (Hsw : lex_switch h0 = Ok (tkl (advance_n 3 h0) t [a], advance_n 3 h0, Some (new_words_lexer (advance_n 3 h0) a b it))).
  { unfold lex_switch. rewrite (at_cur _ _ _ Hat). eqb_consts.
    pose proof (at_adv _ _ _ Hat) as H1. rewrite (at_cur _ _ _ H1).
    destruct Hlet; eqb_consts;
      (rewrite (percent_fwd (advance h0) _ true a b); [reflexivity|reflexivity|exact Hd|exact (at_peek _ _ _ H1)]). }
  assert (Hg : at_text (advance_n 3 h0) body) by (apply (at_adv_n h0 ["%"%ch; c; a] body Hat)).
  set (g0 := set_stop_char (advance_n 3 h0) b).
  destruct (nwords_nemits it a b [] Hbr ws lead g0 [] 0%nat Hg Hlead eq_refl Hok Hbal) as (ts & g' & b' & E1 & E2 & E3).
  destruct (nested_source s "%"%ch (c :: a :: body) _ 3 g0 _ ts g' _ fuel eq_refl ltac:(discriminate) ltac:(discriminate)
      ltac:(discriminate) ltac:(discriminate) Hsw E1 (fin_words _ _ _ _)) as (e & T1 & T2).
  - rewrite E3. rewrite (advance_n_cur _ g0 (advance_n 3 h0)) by reflexivity. rewrite advance_n_plus.
    rewrite (advance_n_cur _ h0 (new_lx s)) by reflexivity. reflexivity.
  - apply simple_shapes. cbn [shapes map]. fold (shapes ts). rewrite E2. constructor; [destruct Hlet; repeat split|].
    apply Forall_app. split; [|repeat constructor]. apply Forall_map, Forall_forall. intros. repeat split.
  - assert (El : length ts = length (shapes ts)) by (unfold shapes; rewrite map_length; reflexivity).
    rewrite El, E2, app_length, map_length. cbn [length]. lia.
  - eexists. split; [exact T2|]. cbn [shapes map]. rewrite map_app. fold (shapes ts). rewrite E2. cbn [map]. rewrite T1, <- app_assoc. reflexivity.
Qed.

(** * LexFwd: running the lexer forward on a known text *)
From Coq Require Import Strings.String NArith ZArith Bool Arith List Lia ZifyBool ZifyNat ZifyN.
From Verif Require Import Base Token Spec LexModel LexBasics LexRest LexInv.
Import ListNotations.
Open Scope N_scope.

(** The lexer stands before the text [w]. *)
Definition at_text (f : lx) (w : str) : Prop := wf f /\ rest f = w.

Lemma at_new s : at_text (new_lx s) s.
Proof. split; reflexivity. Qed.
Lemma at_cur f c r : at_text f (c :: r) -> current_char f = c.
Proof. intros [Hw Hr]. rewrite current_char_rest, Hr; auto. Qed.
Lemma at_cur_hd f w : at_text f w -> current_char f = hd 0 w.
Proof. intros [Hw Hr]. rewrite current_char_rest, Hr; auto. Qed.
Lemma at_cur_end f : at_text f [] -> current_char f = 0.
Proof. intros [Hw Hr]. rewrite current_char_rest, Hr; auto. Qed.
Lemma at_peek f c r : at_text f (c :: r) -> peek f = hd 0 r.
Proof. intros [Hw Hr]. rewrite peek_rest, Hr; auto. Qed.
Lemma at_adv f c r : at_text f (c :: r) -> at_text (advance f) r.
Proof. intros [Hw Hr]. split; [exact Hw|]. rewrite rest_advance, Hr. reflexivity. Qed.
Lemma at_adv_n f w r : at_text f (w ++ r) -> at_text (advance_n (length w) f) r.
Proof.
  intros [Hw Hr]. split; [apply wf_advance_n; exact Hw|]. rewrite rest_advance_n, Hr.
  clear. induction w; [reflexivity|]. cbn [app length skipn]. exact IHw.
Qed.
Lemma at_in f c r : at_text f (c :: r) -> (l_size f <=? l_idx f)%nat = false.
Proof.
  intros [Hw Hr]. pose proof (rest_length f Hw) as H. rewrite Hr in H. cbn [length] in H. apply Nat.leb_gt. lia.
Qed.
Lemma at_out f : at_text f [] -> (l_size f <=? l_idx f)%nat = true.
Proof.
  intros [Hw Hr]. pose proof (rest_length f Hw) as H. rewrite Hr in H. cbn [length] in H. apply Nat.leb_le. lia.
Qed.
Lemma at_fuel f w : at_text f w -> loop_fuel f = S (S (length w)).
Proof. intros [Hw <-]. unfold loop_fuel. rewrite rest_length by exact Hw. reflexivity. Qed.

Lemma at_names f n w : at_text f w -> at_text (set_names f n) w.
Proof. auto. Qed.
Lemma at_last f t w : at_text f w -> at_text (set_last f t) w.
Proof. auto. Qed.
Lemma at_tokpos f b w : at_text f w -> at_text (set_tokpos f b) w.
Proof. auto. Qed.

(** ** Loops *)

Lemma word_loop_fwd fuel : forall f c w r buf,
  at_text f (c :: w ++ r) -> Forall (fun c => is_identifier_char c = true) w ->
  is_identifier_char (hd 0 r) = false -> (length w < fuel)%nat ->
  word_loop fuel f buf = Ok (buf ++ c :: w, advance_n (S (length w)) f).
Proof.
  induction fuel as [|fuel IH]; intros f c w r buf Hat Hw Hr Hf; [lia|].
  cbn [word_loop]. cbv zeta. rewrite (at_cur _ _ _ Hat).
  pose proof (at_adv _ _ _ Hat) as Hat'.
  destruct Hw as [|d w Hd Hw].
  - cbn [app] in Hat'. rewrite (at_cur_hd _ _ Hat'), Hr. reflexivity.
  - cbn [app] in Hat'. rewrite (at_cur _ _ _ Hat'), Hd. cbn [length] in Hf |- *.
    rewrite (IH _ _ _ _ _ Hat' Hw Hr) by lia.
    rewrite <- app_assoc. reflexivity.
Qed.
Lemma consume_word_fwd f c w r :
  at_text f (c :: w ++ r) -> Forall (fun c => is_identifier_char c = true) w ->
  is_identifier_char (hd 0 r) = false ->
  consume_word f = Ok (c :: w, advance_n (S (length w)) f).
Proof.
  intros Hat Hw Hr. unfold consume_word. rewrite (word_loop_fwd _ f c w r); auto.
  rewrite (at_fuel _ _ Hat). cbn [length]. rewrite app_length. lia.
Qed.

Lemma digit_loop_fwd p fuel : (forall c, p c = true -> c <> "_"%ch) ->
  forall f ds txt r buf,
  separated ds txt -> Forall (fun c => p c = true) ds ->
  at_text f (txt ++ r) -> p (hd 0 r) = false -> hd 0 r <> "_"%ch -> (length txt < fuel)%nat ->
  digit_loop fuel p f buf = Ok (buf ++ ds, advance_n (length txt) f).
Proof.
  intros Hp. induction fuel as [|fuel IH]; intros f ds txt r buf Hs Hd Hat Hr Hu Hf; [lia|].
  cbn [digit_loop]. cbv zeta.
  destruct Hs as [d|d ds txt Hs|d ds txt Hs]; cbn [app] in Hat; inversion Hd as [|? ? Hd1 Hd2]; subst;
    rewrite (at_cur _ _ _ Hat); pose proof (at_adv _ _ _ Hat) as Hat1.
  - rewrite (at_cur_hd _ _ Hat1). apply N.eqb_neq in Hu. rewrite Hu. rewrite (at_cur_hd _ _ Hat1), Hr. reflexivity.
  - assert (Hh : exists e t, txt = e :: t /\ p e = true)
      by (destruct Hs; inversion Hd2; subst; eauto).
    destruct Hh as (e & t & -> & He). cbn [app] in Hat1. rewrite (at_cur _ _ _ Hat1).
    pose proof (Hp e He) as Hn. apply N.eqb_neq in Hn. rewrite Hn, (at_cur _ _ _ Hat1), He.
    change (e :: t ++ r) with ((e :: t) ++ r) in Hat1. cbn [length] in Hf.
    rewrite (IH _ _ _ _ _ Hs Hd2 Hat1 Hr Hu) by (cbn [length]; lia).
    rewrite <- app_assoc. reflexivity.
  - rewrite (at_cur _ _ _ Hat1). change ("_"%ch =? "_"%ch) with true. cbv iota.
    pose proof (at_adv _ _ _ Hat1) as Hat2.
    assert (Hh : exists e t, txt = e :: t /\ p e = true)
      by (destruct Hs; inversion Hd2; subst; eauto).
    destruct Hh as (e & t & -> & He). cbn [app] in Hat2. rewrite (at_cur _ _ _ Hat2), He.
    change (e :: t ++ r) with ((e :: t) ++ r) in Hat2. cbn [length] in Hf.
    rewrite (IH _ _ _ _ _ Hs Hd2 Hat2 Hr Hu) by (cbn [length]; lia).
    rewrite <- app_assoc. reflexivity.
Qed.

(** ** One token at top level *)

Lemma skip_ws_none f w : at_text f w -> (hd 0 w <> " "%ch) -> (hd 0 w <> ch_tab) ->
  (hd 0 w <> ch_bs \/ hd 0 (tl w) <> ch_nl) -> skip_whitespace f = Ok (false, f).
Proof.
  intros Hat H1 H2 H3. unfold skip_whitespace. rewrite (at_fuel _ _ Hat). cbn [skip_ws_loop].
  rewrite (at_cur_hd _ _ Hat).
  apply N.eqb_neq in H1, H2. rewrite H1, H2. cbn [orb].
  destruct w as [|c w]; [reflexivity|]. rewrite (at_peek _ _ _ Hat). cbn [hd tl] in *.
  destruct H3 as [H3|H3]; apply N.eqb_neq in H3; rewrite H3; [reflexivity|rewrite andb_false_r; reflexivity].
Qed.

(** Fields that steer the lexer besides the text: everything but the cursor, the
    token position and the whitespace flag. *)
Lemma build_base_top f c w :
  at_text f (c :: w) -> l_start f = 0 -> l_stop f = 0 -> (c <> 0xEF \/ l_idx f <> 0%nat) ->
  build_base f = lex_switch f.
Proof.
  intros Hat H1 H2 H3. unfold build_base. rewrite (at_in _ _ _ Hat), H1, H2. cbn [negb andb N.eqb].
  change (0 =? 0) with true. cbn [negb andb].
  rewrite (at_cur _ _ _ Hat). destruct H3 as [H3|H3].
  - apply N.eqb_neq in H3. rewrite H3, andb_false_r. reflexivity.
  - apply Nat.eqb_neq in H3. rewrite H3. reflexivity.
Qed.

(** The whole source is one token followed by the end. *)
Lemma tokens_single s f' t fuel :
  lex_switch (set_tokpos (new_lx s) false) = Ok (t, f', None) ->
  s <> [] -> hd 0 s <> " "%ch -> hd 0 s <> ch_tab -> (hd 0 s <> ch_bs \/ hd 0 (tl s) <> ch_nl) -> hd 0 s <> 0xEF ->
  frame (set_tokpos (new_lx s) false) f' -> l_cur f' = pos_of s (length s) ->
  is_comment (ty t) = false -> is_doc (ty t) = false -> is_eof (ty t) = false -> is_valid (ty t) = true ->
  (2 <= fuel)%nat ->
  tokens fuel s = Ok [t; Tok T_Eof None None 0 [] (line_of s (length s)) (col_of s (length s)) false].
Proof.
  intros Hl Hne H1 H2 H3 H4 Hf Hc P1 P2 P3 P4 Hfu.
  destruct fuel as [|[|fuel]]; try lia. unfold tokens. cbn [tokens_loop next_token].
  unfold next_own at 1. cbn [skip_ws]. rewrite (skip_ws_none _ _ (at_new s)) by auto. cbn [bind build].
  destruct s as [|c s]; [congruence|]. cbn [hd] in *.
  rewrite (build_base_top _ c s); [|split; reflexivity|reflexivity|reflexivity|auto].
  rewrite Hl. cbn [bind]. rewrite P1, P2. cbn [andb pop_newlines].
  replace (if can_follow_collapsible_newline (ty t) then [] else []) with (@nil token)
    by (destruct (can_follow_collapsible_newline (ty t)); reflexivity).
  rewrite P3, P4. cbn [negb record_last next_token].
  set (g := set_last _ _).
  assert (Hg : at_text g []).
  { assert (E1 : l_input f' = c :: s) by (rewrite Hf; reflexivity).
    assert (E2 : l_size f' = length (c :: s)) by (rewrite Hf; reflexivity).
    unfold g. split; [unfold wf; cbn [l_size l_input set_last set_names]; congruence|].
    unfold rest. cbn [l_cur l_input set_last set_names].
    rewrite Hc, E1. apply skipn_all. }
  unfold next_own. cbn [skip_ws]. rewrite (skip_ws_none _ _ Hg); try discriminate; [|left; discriminate].
  cbn [bind build]. unfold build_base.
  assert (Hg' : at_text (set_tokpos g false) []) by (apply at_tokpos; exact Hg).
  rewrite (at_out _ Hg'). cbn [bind ty tkc is_comment is_doc is_newline is_eof].
  rewrite andb_false_r.
  change (can_follow_collapsible_newline (ty (tkc (set_tokpos g false) T_Eof))) with false.
  cbn [rev app]. do 3 f_equal. unfold tkc, g. cbn [l_cur set_tokpos set_last set_names l_ws]. rewrite Hc. reflexivity.
Qed.

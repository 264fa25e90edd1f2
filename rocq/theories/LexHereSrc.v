(** * LexHereSrc: a whole source that is one raw heredoc *)
From Coq Require Import Strings.String NArith ZArith Bool Arith List Lia ZifyBool ZifyNat ZifyN.
From Verif Require Import Base Token Spec SpecLit SpecHeredoc LexModel LexBasics LexRest LexFwd LexHereFwd.
Import ListNotations.
Open Scope N_scope.

(** ** Following a newline to the end of the heredocs *)

Lemma advance_to_idx n : forall f i, (l_idx f + n = i)%nat ->
  l_idx (advance_to n f i) = i /\ l_input (advance_to n f i) = l_input f /\ l_size (advance_to n f i) = l_size f
  /\ l_start (advance_to n f i) = l_start f /\ l_stop (advance_to n f i) = l_stop f.
Proof.
  induction n as [|n IH]; intros f i E; cbn [advance_to]; [repeat split; lia|].
  destruct (_ <? _)%nat eqn:C; [|lia]. destruct (IH (advance f) i) as (H1 & H2 & H3 & H4 & H5).
  - pose proof (advance_idx f). lia.
  - rewrite H1, H2, H3, H4, H5. repeat split.
Qed.

Lemma lex_newline f r : at_text f (ch_nl :: r) ->
  lex_switch f = match l_heredocs f with
    | [] => Ok (tk (advance f) T_Newline, advance f, None)
    | i :: _ => Ok (tk (advance f) T_Newline, set_heredocs (advance_to (i - l_idx (advance f)) (advance f) i) [], None)
    end.
Proof. intros Hat. unfold lex_switch. rewrite (at_cur _ _ _ Hat). cbv zeta. reflexivity. Qed.

Lemma lex_heredoc f k d name w : at_text f (s2l "<<" ++ mark k ++ named (Quoted d) name ++ w) -> name_ok (Quoted d) name ->
  token_is_first_on_line f = true -> l_ws f = false ->
  lex_switch f = consume_heredoc (advance (advance f)).
Proof.
  intros Hat Hn H1 H2. change (s2l "<<" ++ mark k ++ named (Quoted d) name ++ w) with ("<"%ch :: "<"%ch :: mark k ++ named (Quoted d) name ++ w) in Hat.
  unfold lex_switch. rewrite (at_cur _ _ _ Hat). cbv zeta.
  pose proof (at_adv _ _ _ Hat) as Hat1. pose proof (at_adv _ _ _ Hat1) as Hat2.
  rewrite (at_cur _ _ _ Hat1). destruct Hn as [Hd _].
  change (l_ws (advance (advance f))) with (l_ws f). change (token_is_first_on_line (advance (advance f))) with (token_is_first_on_line f).
  rewrite H1, H2. cbn [N.eqb negb].
  destruct k; cbn [mark app named s2l] in Hat2.
  - rewrite (at_cur _ _ _ Hat2). destruct Hd as [->|[->| ->]]; reflexivity.
  - change (s2l "-" ++ (d :: name ++ [d]) ++ w) with ("-"%ch :: d :: (name ++ [d]) ++ w) in Hat2.
    rewrite (at_cur _ _ _ Hat2), (at_peek _ _ _ Hat2). cbn [hd]. destruct Hd as [->|[->| ->]]; reflexivity.
  - change (s2l "~" ++ (d :: name ++ [d]) ++ w) with ("~"%ch :: d :: (name ++ [d]) ++ w) in Hat2.
    rewrite (at_cur _ _ _ Hat2), (at_peek _ _ _ Hat2). cbn [hd]. destruct Hd as [->|[->| ->]]; reflexivity.
Qed.

(** ** Steps of tokens() *)

Lemma loop_plain fuel l acc skip t l' : next_token l = Ok (t, l') -> is_comment (ty t) = false -> is_doc (ty t) = false ->
  (skip && is_newline (ty t)) = false -> can_follow_collapsible_newline (ty t) = false -> is_eof (ty t) = false -> is_valid (ty t) = true ->
  tokens_loop (S fuel) l acc skip None = tokens_loop fuel (record_last l' t) (t :: acc) (can_precede_collapsible_newline (ty t)) None.
Proof. intros E H1 H2 H3 H4 H5 H6. cbn [tokens_loop]. rewrite E. cbn [bind]. rewrite H1, H2, H3, H4, H5, H6. reflexivity. Qed.
Lemma loop_end fuel l acc skip t l' : next_token l = Ok (t, l') -> ty t = T_Eof ->
  tokens_loop (S fuel) l acc skip None = Ok (rev (t :: acc)).
Proof. intros E H1. cbn [tokens_loop]. rewrite E. cbn [bind]. rewrite H1. destruct skip; reflexivity. Qed.

(** ** The source *)

Lemma raw_source k name ls t z fuel :
  name_ok (Quoted "'"%ch) name -> Forall one_line ls -> Forall (fun l => ~ stops k name l) ls -> closing k name t ->
  z = [] \/ z = [ch_nl] -> (3 <= fuel)%nat ->
  exists ts, tokens fuel (raw_heredoc k name ls t z) = Ok ts /\
    shapes ts = [(T_String, Some (heredoc_text k ls)); (T_Newline, None); (T_Eof, None)].
Proof.
  intros Hn Hls Hst Ht Hz Hf. destruct fuel as [|[|[|fuel]]]; try lia.
  set (s := raw_heredoc k name ls t z). set (hdr := mark k ++ named (Quoted "'"%ch) name).
  set (r := unlines ls ++ t ++ z).
  assert (Es : s = s2l "<<" ++ hdr ++ ch_nl :: r) by (unfold s, raw_heredoc, hdr, r; rewrite <- !app_assoc; reflexivity).
  set (f0 := set_tokpos (new_lx s) false). set (f2 := advance (advance f0)).
  assert (Hat0 : at_text f0 (s2l "<<" ++ hdr ++ ch_nl :: r)) by (rewrite <- Es; split; reflexivity).
  assert (Hat2 : at_text f2 (hdr ++ ch_nl :: r)).
  { change (s2l "<<" ++ hdr ++ ch_nl :: r) with ("<"%ch :: "<"%ch :: hdr ++ ch_nl :: r) in Hat0.
    apply at_adv in Hat0. apply at_adv in Hat0. exact Hat0. }
  set (g := advance_n (length hdr) f2). assert (Hatg : at_text g (ch_nl :: r)) by (apply at_adv_n; exact Hat2).
  assert (Ig : l_input g = s) by (unfold g; rewrite advance_n_input; reflexivity).
  assert (Ilen : (length s = 2 + length hdr + S (length r))%nat).
  { rewrite Es, !app_length. cbn [length s2l]. cbn. lia. }
  assert (Ix : l_idx g = (2 + length hdr)%nat) by (unfold g, f2; rewrite advance_n_idx, !advance_idx; change (l_idx f0) with 0%nat; lia).
  assert (Hskip : skipn (l_idx g + 0 + 1) s = r).
  { rewrite Ix, Es. replace (2 + length hdr + 0 + 1)%nat with (length (s2l "<<" ++ hdr ++ [ch_nl])) by (rewrite !app_length; cbn; lia).
    replace (s2l "<<" ++ hdr ++ ch_nl :: r) with ((s2l "<<" ++ hdr ++ [ch_nl]) ++ r) by (rewrite <- !app_assoc; reflexivity).
    rewrite skipn_app, skipn_all, Nat.sub_diag. reflexivity. }
  assert (Hc : lex_switch f0 = Ok (tkl g T_String (heredoc_text k ls), set_heredocs g [length s], None)).
  { rewrite (lex_heredoc f0 k "'"%ch name (ch_nl :: r)); auto; [|unfold hdr in Hat0; rewrite <- app_assoc in Hat0; exact Hat0].
    fold f2. pose proof (consume_heredoc_fwd f2 k (Quoted "'"%ch) name (ch_nl :: r) ls t z (l_idx g + 0 + 1)) as X.
    cbv zeta in X. fold hdr in X. fold g in X. rewrite X; auto.
    - change (l_heredocs f2) with (@nil nat).
      replace (l_idx g + 0 + 1 + length (unlines ls ++ t) + length (firstn 1 z))%nat with (length s); [reflexivity|].
      rewrite Ix, Ilen. unfold r. rewrite !app_length. destruct Hz as [->| ->]; cbn [firstn length]; lia.
    - unfold hdr in Hat2. rewrite <- app_assoc in Hat2. exact Hat2.
    - exact I.
    - unfold body_at. replace (l_heredocs g) with (@nil nat) by (unfold g; rewrite advance_n_heredocs; reflexivity).
      exists [], r. cbn [app length]. repeat split. intros [].
    - destruct Hz as [->| ->]; [left; reflexivity|right; eexists; reflexivity]. }
  assert (Ehd : exists w, s = "<"%ch :: w) by (rewrite Es; eexists; reflexivity). destruct Ehd as [w Ehd].
  unfold tokens. erewrite loop_plain; cycle 1.
  { cbn [next_token]. unfold next_own at 1. cbn [skip_ws].
    rewrite (skip_ws_none _ _ (at_new s)) by (rewrite Ehd; try (left; discriminate); discriminate). cbn [bind build].
    fold f0. rewrite (build_base_top f0 "<"%ch w); [|rewrite <- Ehd; split; reflexivity|reflexivity|reflexivity|left; discriminate].
    rewrite Hc. reflexivity. }
  all: try reflexivity.
  cbn [record_last]. set (h := set_last _ _). assert (Hh : at_text h (ch_nl :: r)) by (destruct Hatg; split; assumption).
  assert (S1 : l_start h = 0 /\ l_stop h = 0).
  { assert (A : forall m u, l_start (advance_n m u) = l_start u /\ l_stop (advance_n m u) = l_stop u).
    { induction m as [|m IH]; intros u; [auto|]. cbn [advance_n]. destruct (IH (advance u)) as [-> ->]. auto. }
    unfold h. cbn [set_last set_names set_heredocs l_start l_stop]. unfold g. destruct (A (length hdr) f2) as [-> ->]. split; reflexivity. }
  erewrite loop_plain; cycle 1.
  { cbn [next_token]. unfold next_own at 1. cbn [skip_ws]. rewrite (skip_ws_none _ _ Hh); try discriminate; [|left; discriminate]. cbn [bind build].
    rewrite (build_base_top _ ch_nl r); [|apply at_tokpos; exact Hh|apply S1|apply S1|left; discriminate].
    rewrite (lex_newline _ r) by (apply at_tokpos; exact Hh).
    change (l_heredocs (set_tokpos h false)) with [length s]. reflexivity. }
  all: try reflexivity.
  cbn [record_last]. set (e := set_last _ _).
  assert (He : at_text e []).
  { destruct (advance_to_idx (length s - l_idx (advance (set_tokpos h false))) (advance (set_tokpos h false)) (length s)) as (H1 & H2 & H3 & _).
    - pose proof (advance_idx (set_tokpos h false)) as Ea. rewrite Ea. cbn [set_tokpos l_cur].
      unfold h. cbn [set_last set_names set_heredocs l_cur]. rewrite Ix. lia.
    - split; [unfold wf, e; cbn [set_last set_names set_heredocs l_size l_input]; rewrite H2, H3; exact (proj1 Hh)|].
      unfold rest, e. cbn [set_last set_names set_heredocs l_input l_cur]. rewrite H1, H2.
      replace (l_input (advance (set_tokpos h false))) with s by (symmetry; exact Ig). apply skipn_all. }
  erewrite loop_end; cycle 1.
  { cbn [next_token]. unfold next_own. cbn [skip_ws]. rewrite (skip_ws_none _ _ He); try discriminate; [|left; discriminate]. cbn [bind build].
    unfold build_base. rewrite (at_out (set_tokpos e false)) by (apply at_tokpos; exact He). reflexivity. }
  { reflexivity. }
  eexists. split; [reflexivity|]. reflexivity.
Qed.

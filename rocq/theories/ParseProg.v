(** * ParseProg: statements and scopes

    Proofs about the parser on the programs of SpecProg.  No code is modelled here. *)
From Coq Require Import Strings.String NArith ZArith Bool Arith List Lia.
From Verif Require Import Base Token Node ParserBase ParserModel ParseHoare SpecExpr SpecProg ParsePratt.
Import ListNotations.
Open Scope N_scope.
Open Scope list_scope.

Definition after (s : pstate) (a r : list token) (l : list str) : pstate :=
  PState (rev a ++ p_prev s) r (p_precs s) (p_depth s) l (p_file s).
Lemma moved_after s a r : moved s a r = after s a r (p_locals s).
Proof. reflexivity. Qed.
Lemma after_after s a r l b r' l' : after (after s a r l) b r' l' = after s (a ++ b) r' l'.
Proof. unfold after. cbn [p_prev p_precs p_depth p_locals p_file]. rewrite rev_app_distr, app_assoc. reflexivity. Qed.

Lemma sep_follows t : is_separator t = true -> follows t = true /\ bin_level t = 0 /\ is_end_of_line t = true.
Proof. destruct t; try discriminate; auto. Qed.

(** What a statement begins with. *)
Definition sstarts (t : ttype) : bool :=
  starts t || match t with
              | T_DefKeyword | T_ClassKeyword | T_ModuleKeyword | T_WhileKeyword | T_UntilKeyword => true
              | _ => false end.
Lemma stmt_head l st : stmt_ok l st -> exists t r, stmt_text st = t :: r /\ sstarts (ty t) = true.
Proof.
  unfold sstarts. destruct st; cbn [stmt_ok stmt_text]; intros H.
  - destruct (text_cons e) as (t & r & E). exists t, r. split; [exact E|]. rewrite (text_starts e t r); auto. apply H.
  - destruct H as (H & _). do 2 eexists. split; [reflexivity|]. unfold starts, is_leaf. rewrite H. reflexivity.
  - destruct H as (H & _). do 2 eexists. split; [reflexivity|]. rewrite H. reflexivity.
  - destruct H as ([H|H] & _); do 2 eexists; (split; [reflexivity|]); rewrite H; reflexivity.
  - destruct H as ([H|H] & _); do 2 eexists; (split; [reflexivity|]); rewrite H; reflexivity.
  - destruct H as (H & _). do 2 eexists. split; [reflexivity|]. rewrite H. reflexivity.
Qed.
Definition bstarts (t : ttype) : bool := sstarts t || match t with T_EndKeyword | T_RCurlyBrace | T_Eof => true | _ => false end.
Lemma block_head l b e r : block_ok l b -> bstarts (ty e) = true ->
  exists t r', block_text b ++ e :: r = t :: r' /\ bstarts (ty t) = true.
Proof.
  destruct b as [|st sep b]; cbn [block_ok block_text app]; intros H He; [eauto|].
  destruct H as (H & _). destruct (stmt_head l st H) as (t & r' & E & Ht). rewrite E. cbn [app].
  do 2 eexists. split; [reflexivity|]. unfold bstarts. rewrite Ht. reflexivity.
Qed.
Lemma bstarts_eol t : bstarts t = true -> is_end_of_line t = false.
Proof. unfold bstarts, sstarts, starts. destruct t; try discriminate; reflexivity. Qed.
Lemma validate_ok s t l : p_rest s = t :: l -> bstarts (ty t) || is_separator (ty t) = true -> validate_current_token s = POk tt s.
Proof.
  intros E H. unfold validate_current_token, bind, cur. rewrite (current_eq _ _ _ E).
  unfold bstarts, sstarts, starts in H. destruct (ty t); try discriminate; reflexivity.
Qed.
Lemma skip_one s t u l : p_rest s = t :: u :: l -> is_end_of_line (ty t) = true -> is_end_of_line (ty u) = false ->
  skip_newlines s = POk tt (moved s [t] (u :: l)).
Proof.
  intros E H1 H2. unfold skip_newlines. rewrite E. cbn [skip_eol]. rewrite H1. cbn [skip_eol]. rewrite H2. reflexivity.
Qed.
Lemma next_one s t u l : p_rest s = t :: u :: l -> is_separator (ty t) = true -> is_end_of_line (ty u) = false ->
  next_expression s = POk tt (moved s [t] (u :: l)).
Proof.
  intros E H1 H2. unfold next_expression, bind, cty. rewrite (current_eq _ _ _ E).
  replace (is_end_of_expression (ty t)) with true by (destruct (ty t); try discriminate; reflexivity). cbn [negb].
  apply skip_one; auto.
Qed.

(** ** One statement *)
Definition SMain (n : nat) (st : stmt) : Prop :=
  forall s u r d, p_rest s = stmt_text st ++ u :: r -> (weight (p_rest s) < n)%nat -> is_separator (ty u) = true ->
    p_depth s = 0 :: d -> stmt_ok (p_locals s) st ->
    exists v, node_stree v = stmt_meaning (p_locals s) st /\
      parse_expression n LOWEST IA_CURLY_AND_BLOCK s =
      POk v (after s (stmt_text st) (u :: r) (stmt_locals (p_locals s) st)).

(** [parse_expression] with the beginning and the rounds of its loop given. *)
Lemma parse_via m ia s t l f v0 s0 k v s1 u r :
  p_rest s = t :: l -> is_end_of_line (ty t) = false ->
  null_denotation (parse_expression m) (m + m + 2) (ty t) = Some f ->
  f (with_precs s (LOWEST :: p_precs s)) = POk v0 s0 ->
  rounds (parse_expression m) (m + m + 2) LOWEST ia v0 s0 k v s1 -> (k <= m + m)%nat ->
  p_rest s1 = u :: r -> is_separator (ty u) = true -> p_precs s1 = LOWEST :: p_precs s -> node_is_symbol_key v = false ->
  parse_expression (S m) LOWEST ia s = POk v (with_precs s1 (p_precs s)).
Proof.
  intros E Ht N0 F0 K0 Hk E1 Hu P1 Hv. cbn [parse_expression]. unfold expression_body.
  rewrite (bind_eq _ _ skip_newlines _ s tt s); [|apply (skip_newlines_start s t l); auto].
  rewrite (bind_eq _ _ (push_prec LOWEST) _ s tt (with_precs s (LOWEST :: p_precs s))); [|reflexivity].
  rewrite (bind_eq _ _ cty _ (with_precs s (LOWEST :: p_precs s)) (ty t) (with_precs s (LOWEST :: p_precs s)));
    [|unfold cty; unfold current; cbn [with_precs p_rest]; rewrite E; reflexivity].
  rewrite N0. rewrite (bind_eq _ _ f _ _ _ _ F0).
  pose proof (rounds_mloop _ _ _ _ _ _ _ _ _ K0 (S (m + m + 1 - k))) as Q.
  replace (k + S (m + m + 1 - k))%nat with (m + m + 2)%nat in Q by lia.
  destruct (sep_follows _ Hu) as (Hf & Hb & _).
  rewrite (bind_eq _ _ (mloop (m + m + 2) _ _) _ s0 v s1).
  - unfold bind, pop_prec. rewrite P1. reflexivity.
  - rewrite Q. cbn [mloop]. unfold bind.
    rewrite (step_stops _ _ LOWEST ia v s1 u r E1 Hf Hv); [reflexivity|]. rewrite Hb. apply N.le_refl.
Qed.

Lemma named_leaf l t : is_name (ty t) = true -> named t -> leaf l t = N_Identifier t (bound l t).
Proof. intros H (nm & E & _). unfold leaf, bound, name_of. rewrite E. destruct (ty t); try discriminate; reflexivity. Qed.
Lemma identifier_run s t l : p_rest s = t :: l -> is_name (ty t) = true -> named t ->
  parse_identifier s = POk (leaf (p_locals s) t) (moved s [t] l).
Proof.
  intros E H Hn. rewrite (named_leaf _ _ H Hn). destruct Hn as (nm & Hn & Hz).
  unfold parse_identifier, bind, cur. rewrite (current_eq _ _ _ E), Hn.
  unfold is_local, bind, get_locals, ret. rewrite (advance_eq _ _ _ E), (cstr_id _ Hz). unfold bound, name_of. rewrite Hn. reflexivity.
Qed.
Lemma expr_main n e : expr_ok e -> Main n e.
Proof. intros (H1 & H2 & H3). apply expressions_parsed; [exact H1|]. apply ruby_parser_grouped; assumption. Qed.

Lemma plain_stree v : plain v = true -> node_stree v = ST_value (node_tree v).
Proof. destruct v; try discriminate; reflexivity. Qed.

Lemma stmt_value n e : SMain n (S_value e).
Proof.
  intros s u r d E W Hu Hd Hok. cbn [stmt_text stmt_ok stmt_meaning stmt_locals] in *.
  destruct (sep_follows _ Hu) as (Hf & Hb & _).
  destruct (expr_main n e Hok LOWEST IA_CURLY_AND_BLOCK s r u E W) as (v & (G1 & G2 & G3) & X); auto.
  - apply ledge_low, Hok.
  - apply redge_low, Hb.
  - rewrite Hb. apply N.le_refl.
  - exists v. rewrite (plain_stree _ G2), G1. split; [reflexivity|exact X].
Qed.

Lemma ledge_rhs e : well_formed e -> on_left is_and_or e = false -> ledge (fun l => ASSIGNMENT_RHS <? l) e = true.
Proof.
  induction e as [t|o e IH c|t e IH|l IHl t r IHr]; cbn [well_formed on_left]; intros H K; try reflexivity.
  unfold ledge. cbn [left_edge]. apply orb_false_iff in K. apply andb_true_iff. destruct H as (Ht & Hl & _), K as [K1 K2].
  split; [|apply IHl; auto]. destruct (ty t); try discriminate Ht; try discriminate K1; reflexivity.
Qed.

Lemma weight_cons t l : weight (t :: l) = ((if is_end_of_line (ty t) then 1 else 2) + weight l)%nat.
Proof. reflexivity. Qed.
Lemma name_eol t : is_name t = true -> is_end_of_line t = false.
Proof. destruct t; try discriminate; reflexivity. Qed.

Lemma add_local_run s nm : ~ In 0 nm -> add_local nm s = POk tt (after s [] (p_rest s) (nm :: p_locals s)).
Proof. intros H. unfold add_local, bind, get_locals, set_locals. rewrite (cstr_id _ H). reflexivity. Qed.

Lemma stmt_assign n name q e : SMain n (S_assign name q e).
Proof.
  intros s u r d E W Hu Hd (Hn & Hnm & Hq & He & Hl). cbn [stmt_text stmt_meaning stmt_locals] in *.
  destruct n as [|m]; [clear - W; lia|]. cbn [app] in E.
  destruct (sep_follows _ Hu) as (Hf & Hb & _).
  set (s0 := with_precs s (LOWEST :: p_precs s)).
  set (s1 := moved s0 [name] (q :: text e ++ u :: r)).
  set (lc := match ty name with T_BareName => name_of name :: p_locals s | _ => p_locals s end).
  set (s2 := after s0 [name; q] (text e ++ u :: r) lc).
  assert (W2 : (weight (p_rest s2) < m)%nat).
  { unfold s2. cbn [after p_rest]. rewrite E, !weight_cons, (name_eol _ Hn), Hq in W. clear - W. cbn [is_end_of_line] in W. lia. }
  destruct (expr_main m e He ASSIGNMENT_RHS IA_CURLY_AND_BLOCK s2 r u eq_refl W2) as (v & (G1 & G2 & G3) & X).
  { apply ledge_rhs; [apply He|exact Hl]. } { exact Hf. } { apply redge_low, Hb. } { rewrite Hb. apply N.le_0_l. }
  set (s3 := moved s2 (text e) (u :: r)) in *.
  set (lhs := leaf (p_locals s) name) in *.
  exists (N_Assignment q lhs v). split; [cbn [node_stree]; rewrite G1; reflexivity|].
  assert (L : lhs = N_Identifier name (bound (p_locals s) name)) by (apply named_leaf; assumption).
  rewrite (parse_via m IA_CURLY_AND_BLOCK s name (q :: text e ++ u :: r) parse_identifier lhs s1 1 (N_Assignment q lhs v) s3 u r).
  - unfold s3, s2. rewrite moved_after, after_after. reflexivity.
  - exact E.
  - apply name_eol, Hn.
  - destruct (ty name); try discriminate; reflexivity.
  - apply (identifier_run s0 name (q :: text e ++ u :: r)); auto.
  - eapply rounds_S; [apply rounds_0|]. unfold expression_step. rewrite (bind_eq _ _ cur _ s1 q s1); [|reflexivity].
    rewrite Hq. change (is_valid T_Equal) with true. cbn [negb].
    rewrite (bind_eq _ _ (higher_precedence q lhs LOWEST IA_CURLY_AND_BLOCK) _ s1 true s1).
    2:{ unfold higher_precedence. rewrite L. cbn [node_is_symbol_key]. unfold get_precedence. rewrite Hq. reflexivity. }
    cbn [negb]. rewrite (bind_eq _ _ peek _ s1 (nth 1 (p_rest s1) no_token) s1); [|reflexivity].
    unfold left_denotation. rewrite Hq.
    change ((LOWEST =? ARRAY) || (LOWEST =? HASH) || (LOWEST =? BARE_CALL_ARG) || (LOWEST =? CALL_ARG)) with false. cbv iota zeta.
    assert (Z : parse_assignment_expression (parse_expression m) (m + m + 2) true lhs s1 = POk (N_Assignment q lhs v) s3).
    { unfold parse_assignment_expression. rewrite (bind_eq _ _ cur _ s1 q s1); [|reflexivity]. rewrite L.
      rewrite (bind_eq _ _ (add_assignment_locals _) _ s1 tt (after s1 [] (q :: text e ++ u :: r) lc)).
      2:{ cbn [add_assignment_locals]. unfold identifier_add_to_locals, lc.
          destruct Hnm as (nm & Hnm & Hz). unfold name_of. rewrite Hnm.
          destruct (ty name); try discriminate Hn; try reflexivity.
          unfold bind, literal_string. rewrite Hnm. cbn [ret]. unfold ret. rewrite (add_local_run s1 nm Hz). reflexivity. }
      rewrite (bind_eq _ _ advance _ (after s1 [] (q :: text e ++ u :: r) lc) tt s2); [|reflexivity].
      rewrite (bind_eq _ _ (parse_assignment_expression_value _ _ _ _) _ s2 v s3); [reflexivity|].
      unfold parse_assignment_expression_value. rewrite (bind_eq _ _ cur _ s2 (current s2) s2); [|reflexivity].
      unfold pexpr. rewrite (bind_eq _ _ _ _ _ _ _ X).
      rewrite (bind_eq _ _ (cur_is T_Comma) _ s3 false s3).
      2:{ unfold cur_is. rewrite (current_eq s3 u r eq_refl). clear - Hu. destruct (ty u); try discriminate; reflexivity. }
      cbn [andb]. clear - G2. destruct v; try discriminate; reflexivity. }
    rewrite (bind_eq _ _ _ _ _ _ _ Z).
    rewrite (bind_eq _ _ pop_prec _ s3 tt (with_precs s3 (p_precs s))); [|reflexivity].
    rewrite (bind_eq _ _ (push_prec LOWEST) _ _ tt s3); reflexivity.
  - clear - W2. lia.
  - reflexivity.
  - exact Hu.
  - reflexivity.
  - reflexivity.
Qed.

(** ** Bodies *)
Definition body_step (expr : N -> iter_allow -> M node) (rescue : option (token -> list node -> M node))
  (is_end : ttype -> bool) (t : token) (acc : list node) : M (list node + token * list node) :=
  c <- cty ;;
  if is_eof c || is_end c then pop_depth ;;; ret (inr (t, acc))
  else
    let otherwise :=
      e <- expr LOWEST IA_CURLY_AND_BLOCK ;;
      c <- cty ;;
      if is_end c then pop_depth ;;; ret (inr (t, acc ++ [e]))
      else next_expression ;;; ret (inl (acc ++ [e])) in
    match rescue with
    | Some f =>
        if ttype_eqb c T_RescueKeyword || ttype_eqb c T_EnsureKeyword then
          b <- f t acc ;;
          rewind ;;;
          ret (inr (t, [b]))
        else otherwise
    | None => otherwise
    end.
Definition is_fin (t : ttype) : bool := match t with T_EndKeyword | T_RCurlyBrace => true | _ => false end.
Definition BLoop (m : nat) (b : block) : Prop :=
  forall k resc is_end s e r t acc d, p_rest s = block_text b ++ e :: r -> (weight (p_rest s) < m)%nat ->
    is_fin (ty e) = true -> is_end (ty e) = true -> (forall x, is_end x = true -> is_fin x = true) ->
    p_depth s = 0 :: d -> block_ok (p_locals s) b -> (length (block_text b) < k)%nat ->
    exists vs, map node_stree vs = block_meaning (p_locals s) b /\
      mloop k (body_step (parse_expression m) resc is_end t) acc s =
      POk (t, acc ++ vs) (with_depth (after s (block_text b) (e :: r) (block_locals (p_locals s) b)) d).

Lemma not_fin is_end t : (forall x, is_end x = true -> is_fin x = true) -> is_fin t = false -> is_end t = false.
Proof. intros H K. destruct (is_end t) eqn:E; [|reflexivity]. apply H in E. congruence. Qed.
Lemma sstarts_not t : sstarts t = true ->
  is_fin t = false /\ is_eof t = false /\ ttype_eqb t T_RescueKeyword = false /\ ttype_eqb t T_EnsureKeyword = false.
Proof. unfold sstarts, starts. destruct t; try discriminate; auto. Qed.

Lemma weight_app a b : weight (a ++ b) = (weight a + weight b)%nat.
Proof. induction a; [reflexivity|]. cbn [app]. rewrite !weight_cons, IHa. lia. Qed.
Lemma fin_bstarts t : is_fin t = true -> bstarts t = true.
Proof. destruct t; try discriminate; reflexivity. Qed.

Lemma loop_nil m : BLoop m B_nil.
Proof.
  intros k resc is_end s e r t acc d E W He1 He2 Hx Hd Hok Hk. cbn [block_text block_locals block_meaning app length] in *.
  exists []. split; [reflexivity|]. destruct k as [|k]; [clear - Hk; lia|]. cbn [mloop].
  rewrite (bind_eq _ _ (body_step _ _ _ _ _) _ s (inr (t, acc)) (with_depth s d)).
  - rewrite app_nil_r. unfold ret. destruct s. cbn in E |- *. subst. reflexivity.
  - unfold body_step. rewrite (bind_eq _ _ cty _ s (ty e) s); [|unfold cty; rewrite (current_eq _ _ _ E); reflexivity].
    rewrite He2, orb_true_r. unfold bind, pop_depth, bind, depth_stack. rewrite Hd. reflexivity.
Qed.
Lemma loop_cons m st sep b : SMain m st -> BLoop m b -> BLoop m (B_cons st sep b).
Proof.
  intros HS HB k resc is_end s e r t acc d E W He1 He2 Hx Hd (Ho1 & Ho2 & Ho3) Hk.
  cbn [block_text block_locals block_meaning] in *. rewrite <- app_assoc in E. cbn [app] in E.
  destruct (stmt_head _ _ Ho1) as (h & tl & Eh & Hh).
  destruct k as [|k]; [clear - Hk; lia|].
  destruct (HS s sep (block_text b ++ e :: r) d E W Ho2 Hd Ho1) as (v & V1 & V2).
  set (s1 := after s (stmt_text st) (sep :: block_text b ++ e :: r) (stmt_locals (p_locals s) st)) in *.
  set (s2 := after s (stmt_text st ++ [sep]) (block_text b ++ e :: r) (stmt_locals (p_locals s) st)).
  assert (W2 : (weight (p_rest s2) < m)%nat).
  { unfold s2. cbn [after p_rest]. rewrite E, weight_app, weight_cons in W. clear - W. destruct (is_end_of_line (ty sep)); lia. }
  destruct (HB k resc is_end s2 e r t (acc ++ [v]) d eq_refl W2 He1 He2 Hx Hd Ho3) as (vs & M1 & M2).
  { rewrite app_length in Hk. cbn [length] in Hk. clear - Hk. lia. }
  exists (v :: vs). cbn [map]. rewrite V1, M1. split; [reflexivity|]. cbn [mloop].
  destruct (sstarts_not _ Hh) as (F1 & F2 & F3 & F4).
  rewrite (bind_eq _ _ (body_step _ _ _ _ _) _ s (inl (acc ++ [v])) s2).
  - rewrite M2, <- app_assoc. cbn [app]. f_equal. unfold s2. rewrite after_after, <- app_assoc. reflexivity.
  - unfold body_step.
    rewrite (bind_eq _ _ cty _ s (ty h) s).
    2:{ unfold cty. rewrite Eh in E. cbn [app] in E. rewrite (current_eq _ _ _ E); reflexivity. }
    rewrite F2, (not_fin _ _ Hx F1). cbn [orb]. cbv zeta.
    assert (Z : (e0 <- parse_expression m LOWEST IA_CURLY_AND_BLOCK ;; c <- cty ;;
      (if is_end c then pop_depth ;;; ret (inr (t, acc ++ [e0])) else next_expression ;;; ret (inl (acc ++ [e0])))) s
      = POk (inl (acc ++ [v])) s2).
    { rewrite (bind_eq _ _ _ _ _ _ _ V2). rewrite (bind_eq _ _ cty _ s1 (ty sep) s1); [|reflexivity].
      rewrite (not_fin is_end (ty sep) Hx); [|clear - Ho2; destruct (ty sep); try discriminate; reflexivity].
      destruct (block_head _ b e r Ho3 (fin_bstarts _ He1)) as (x & y & Exy & Hxs).
      rewrite (bind_eq _ _ next_expression _ s1 tt s2).
      - reflexivity.
      - unfold s1, s2. rewrite Exy. rewrite (next_one _ sep x y); [|reflexivity|exact Ho2|exact (bstarts_eol _ Hxs)].
        rewrite moved_after, after_after. reflexivity. }
    destruct resc; [rewrite F3, F4; cbn [orb]|]; exact Z.
Qed.

(** A body, with a separator in front of it or behind one. *)
Lemma body_run m b resc is_end s pre e r :
  BLoop m b -> p_rest s = pre ++ block_text b ++ e :: r -> (weight (p_rest s) < m)%nat ->
  (pre = [] \/ exists sep, pre = [sep] /\ is_separator (ty sep) = true) ->
  is_fin (ty e) = true -> is_end (ty e) = true -> (forall x, is_end x = true -> is_fin x = true) ->
  block_ok (p_locals s) b ->
  exists t vs, map node_stree vs = block_meaning (p_locals s) b /\
    body_with (parse_expression m) (m + m + 2) resc LOWEST is_end s =
    POk (t, vs) (after s (pre ++ block_text b) (e :: r) (block_locals (p_locals s) b)).
Proof.
  intros HB E W Hpre He1 He2 Hx Hok.
  set (s0 := with_depth s (0 :: p_depth s)).
  set (s1 := with_depth (after s pre (block_text b ++ e :: r) (p_locals s)) (0 :: p_depth s)).
  assert (W1 : (weight (p_rest s1) < m)%nat).
  { unfold s1. cbn [after with_depth p_rest]. rewrite E, weight_app in W. clear - W. lia. }
  assert (K : (length (block_text b) < m + m + 2)%nat).
  { assert (Q : forall l, (length l <= weight l)%nat).
    { induction l as [|a l IH]; [cbn; lia|]. rewrite weight_cons. cbn [length]. clear - IH. destruct (is_end_of_line (ty a)); lia. }
    specialize (Q (block_text b ++ e :: r)). rewrite app_length in Q. unfold s1 in W1. cbn [after with_depth p_rest] in W1. clear - Q W1. lia. }
  set (t := current s0).
  destruct (HB (m + m + 2)%nat resc is_end s1 e r t [] (p_depth s) eq_refl W1 He1 He2 Hx eq_refl Hok K) as (vs & M1 & M2).
  exists t, vs. split; [exact M1|]. unfold body_with.
  rewrite (bind_eq _ _ (push_depth 0) _ s tt s0); [|reflexivity].
  rewrite (bind_eq _ _ cur _ s0 t s0); [|reflexivity].
  destruct (block_head _ b e r Hok (fin_bstarts _ He1)) as (x & y & Exy & Hxs).
  assert (E0 : exists h tl, p_rest s0 = h :: tl /\ bstarts (ty h) || is_separator (ty h) = true).
  { destruct Hpre as [->|(sep & -> & Hs)]; cbn [app] in E.
    - rewrite Exy in E. exists x, y. split; [exact E|]. rewrite Hxs. reflexivity.
    - eexists. eexists. split; [exact E|]. rewrite Hs, orb_true_r. reflexivity. }
  destruct E0 as (h & tl & E0 & H0).
  rewrite (bind_eq _ _ validate_current_token _ s0 tt s0); [|apply (validate_ok s0 h tl); auto].
  rewrite (bind_eq _ _ skip_newlines _ s0 tt s1).
  - change (mloop (m + m + 2) (body_step (parse_expression m) resc is_end t) [] s1 = POk (t, vs) (after s (pre ++ block_text b) (e :: r) (block_locals (p_locals s) b))).
    rewrite M2. cbn [app]. f_equal. unfold s1, with_depth, after. cbn [p_prev p_precs p_depth p_locals p_file p_rest].
    rewrite rev_app_distr, <- app_assoc. reflexivity.
  - destruct Hpre as [->|(sep & -> & Hs)]; cbn [app] in E.
    + rewrite (skip_newlines_start s0 x y).
      * unfold s0, s1, with_depth, after. cbn [p_prev p_precs p_depth p_locals p_file p_rest rev app]. rewrite <- E. reflexivity.
      * unfold s0. cbn [with_depth p_rest]. congruence.
      * apply bstarts_eol, Hxs.
    + rewrite (skip_one s0 sep x y).
      * unfold s1. rewrite Exy. reflexivity.
      * unfold s0. cbn [with_depth p_rest]. congruence.
      * apply sep_follows, Hs.
      * apply bstarts_eol, Hxs.
Qed.

(** ** Parameters *)
Definition arg_node (t : token) : node := N_Arg t (Some (name_of t)) false false false None.
Lemma last_arg_node ts : last_arg (map arg_node ts) = None \/ exists t, last_arg (map arg_node ts) = Some (arg_node t).
Proof.
  unfold last_arg. rewrite <- map_rev. destruct (rev ts) as [|t l]; [left; reflexivity|right; exists t; reflexivity].
Qed.
Lemma single_arg expr fuel k ctx ia s ts t u l :
  p_rest s = t :: u :: l -> ty t = T_BareName -> named t -> ttype_eqb (ty u) T_Equal = false ->
  def_single_arg expr fuel (S k) ctx ia (map arg_node ts) s =
  POk (map arg_node (ts ++ [t])) (after s [t] (u :: l) (name_of t :: p_locals s)).
Proof.
  intros E Ht (nm & Hn & Hz) Hu. cbn [def_single_arg]. unfold args_have_keyword.
  rewrite (bind_eq _ _ cur _ s t s); [|unfold cur; rewrite (current_eq _ _ _ E); reflexivity].
  assert (Z : match last_arg (map arg_node ts) with
       | Some (N_ForwardArgs _) => throw_error t "anything after arg forwarding (...) shorthand"
       | _ => ret tt
       end = ret tt) by (destruct (last_arg_node ts) as [->|(a & ->)]; reflexivity).
  rewrite Z. rewrite (bind_eq _ _ (ret tt) _ s tt s); [|reflexivity]. rewrite Ht.
  assert (Z2 : match last_arg (map arg_node ts) with Some (N_KeywordArg _ _ _) => true | _ => false end = false)
    by (destruct (last_arg_node ts) as [->|(a & ->)]; reflexivity).
  rewrite Z2. rewrite (bind_eq _ _ (literal_string t) _ s nm s); [|unfold literal_string; rewrite Hn; reflexivity].
  rewrite (bind_eq _ _ advance _ s tt (moved s [t] (u :: l))); [|apply advance_eq, E].
  rewrite (bind_eq _ _ (add_local nm) _ _ _ _ (add_local_run _ nm Hz)).
  unfold name_of. rewrite Hn. set (s1 := after s [t] (u :: l) (nm :: p_locals s)).
  rewrite (bind_eq _ _ (cur_is T_Equal) _ _ false s1).
  - rewrite map_app. cbn [map]. unfold arg_node, name_of. rewrite Hn. reflexivity.
  - rewrite moved_after, after_after. change (cur_is T_Equal s1 = POk false s1). unfold cur_is. rewrite (current_eq s1 u l eq_refl), Hu. reflexivity.
Qed.

Lemma params_loop (F : list node -> M (list node + list node)) :
  (forall ts s o t u l, p_rest s = o :: t :: u :: l -> ty o = T_Comma -> ty t = T_BareName -> named t ->
     ttype_eqb (ty u) T_Equal = false ->
     F (map arg_node ts) s = POk (inl (map arg_node (ts ++ [t]))) (after s [o; t] (u :: l) (name_of t :: p_locals s))) ->
  (forall acc s u l, p_rest s = u :: l -> ty u <> T_Comma -> F acc s = POk (inr acc) s) ->
  forall ps k ts s c l, p_rest s = params_text ps ++ c :: l -> params_fit T_Comma ps -> ty c <> T_Comma ->
    ttype_eqb (ty c) T_Equal = false -> (length ps < k)%nat ->
    mloop k F (map arg_node ts) s =
    POk (map arg_node (ts ++ map snd ps)) (after s (params_text ps) (c :: l) (params_names ps ++ p_locals s)).
Proof.
  intros H1 H2. induction ps as [|(o & t) ps IH]; intros k ts s c l E Hf Hc He Hk.
  - destruct k as [|k]; [clear - Hk; lia|]. cbn [mloop]. rewrite (bind_eq _ _ _ _ s _ _ (H2 (map arg_node ts) s c l E Hc)).
    unfold ret. cbn [map]. rewrite app_nil_r. unfold after. cbn [params_text flat_map rev app params_names map] in *.
    rewrite <- E. destruct s; reflexivity.
  - destruct k as [|k]; [clear - Hk; lia|]. destruct Hf as (Ho & Ht & Hn & Hf).
    cbn [params_text flat_map fst snd app] in E.
    assert (X : exists u l', params_text ps ++ c :: l = u :: l' /\ ttype_eqb (ty u) T_Equal = false).
    { destruct ps as [|(o' & t') ps']; [exists c, l; auto|]. destruct Hf as (Ho' & _).
      do 2 eexists. split; [reflexivity|]. cbn [fst]. rewrite Ho'. reflexivity. }
    destruct X as (u & l' & X & Xe).
    change (flat_map (fun p => [fst p; snd p]) ps) with (params_text ps) in E. rewrite X in E.
    cbn [mloop]. rewrite (bind_eq _ _ _ _ s _ _ (H1 ts s o t u l' E Ho Ht Hn Xe)).
    rewrite (IH k (ts ++ [t]) (after s [o; t] (u :: l') (name_of t :: p_locals s)) c l).
    + rewrite after_after, <- app_assoc. cbn [map app snd after p_locals]. f_equal.
      unfold params_names. cbn [map rev snd]. rewrite <- app_assoc. reflexivity.
    + symmetry. exact X.
    + exact Hf.
    + exact Hc.
    + exact He.
    + cbn [length] in Hk. clear - Hk. lia.
Qed.

Lemma def_args_run expr fuel s o t ps c l :
  p_rest s = t :: params_text ps ++ c :: l -> params_fit T_LParen ((o, t) :: ps) -> ty c = T_RParen -> (length ps < fuel)%nat ->
  parse_def_args expr fuel [] s =
  POk (map arg_node (t :: map snd ps)) (after s (t :: params_text ps) (c :: l) (params_names ((o, t) :: ps) ++ p_locals s)).
Proof.
  intros E (_ & Ht & Hn & Hf) Hc Hk. unfold parse_def_args, parse_def_single_arg. destruct fuel as [|fuel]; [clear - Hk; lia|].
  assert (X : exists u l', params_text ps ++ c :: l = u :: l' /\ ttype_eqb (ty u) T_Equal = false).
  { destruct ps as [|(o' & t') ps']; [exists c, l; rewrite Hc; auto|]. destruct Hf as (Ho' & _).
    do 2 eexists. split; [reflexivity|]. cbn [fst]. rewrite Ho'. reflexivity. }
  destruct X as (u & l' & X & Xe). rewrite X in E.
  rewrite (bind_eq _ _ _ _ s _ _ (single_arg expr (S fuel) fuel Ctx_Method IA_CURLY_AND_BLOCK s [] t u l' E Ht Hn Xe)).
  cbn [app map]. change [arg_node t] with (map arg_node [t]).
  rewrite (params_loop _) with (ps := ps) (c := c) (l := l).
  - rewrite after_after. cbn [app map after p_locals]. f_equal. unfold params_names. cbn [map rev snd]. rewrite <- app_assoc. reflexivity.
  - clear. intros ts s o t u l E Ho Ht Hn Hu.
    rewrite (bind_eq _ _ (cur_is T_Comma) _ s true s); [|unfold cur_is; rewrite (current_eq _ _ _ E), Ho; reflexivity].
    rewrite (bind_eq _ _ advance _ s tt (moved s [o] (t :: u :: l))); [|apply advance_eq, E].
    rewrite (bind_eq _ _ _ _ _ _ _ (single_arg expr (S fuel) fuel Ctx_Method IA_CURLY_AND_BLOCK (moved s [o] (t :: u :: l)) ts t u l eq_refl Ht Hn Hu)).
    rewrite moved_after, after_after. reflexivity.
  - clear. intros acc s u l E Hu.
    rewrite (bind_eq _ _ (cur_is T_Comma) _ s false s); [reflexivity|].
    unfold cur_is. rewrite (current_eq _ _ _ E). destruct (ty u); try reflexivity. congruence.
  - symmetry. exact X.
  - exact Hf.
  - congruence.
  - rewrite Hc. reflexivity.
  - exact Hk.
Qed.

Lemma iter_args_run expr fuel s o t ps c l :
  p_rest s = t :: params_text ps ++ c :: l -> params_fit T_Pipe ((o, t) :: ps) -> ty c = T_Pipe -> (length ps < fuel)%nat ->
  parse_iter_args expr fuel [] s =
  POk (map arg_node (t :: map snd ps)) (after s (t :: params_text ps) (c :: l) (params_names ((o, t) :: ps) ++ p_locals s)).
Proof.
  intros E (_ & Ht & Hn & Hf) Hc Hk. unfold parse_iter_args, parse_def_single_arg. destruct fuel as [|fuel]; [clear - Hk; lia|].
  assert (X : exists u l', params_text ps ++ c :: l = u :: l' /\ ttype_eqb (ty u) T_Equal = false).
  { destruct ps as [|(o' & t') ps']; [exists c, l; rewrite Hc; auto|]. destruct Hf as (Ho' & _).
    do 2 eexists. split; [reflexivity|]. cbn [fst]. rewrite Ho'. reflexivity. }
  destruct X as (u & l' & X & Xe). rewrite X in E.
  rewrite (bind_eq _ _ (cur_is T_Semicolon) _ s false s); [|unfold cur_is; rewrite (current_eq _ _ _ E), Ht; reflexivity].
  rewrite (bind_eq _ _ _ _ s _ _ (single_arg expr (S fuel) fuel Ctx_Block IA_CURLY_AND_BLOCK s [] t u l' E Ht Hn Xe)).
  cbn [app map]. change [arg_node t] with (map arg_node [t]).
  set (s1 := after s [t] (u :: l') (name_of t :: p_locals s)).
  set (s2 := after s (t :: params_text ps) (c :: l) (params_names ((o, t) :: ps) ++ p_locals s)).
  rewrite (bind_eq _ _ (mloop (S fuel) _ _) _ s1 (map arg_node (t :: map snd ps)) s2).
  - rewrite (bind_eq _ _ (cur_is T_Semicolon) _ s2 false s2); [reflexivity|].
    unfold cur_is. rewrite (current_eq s2 c l eq_refl), Hc. reflexivity.
  - rewrite (params_loop _) with (ps := ps) (c := c) (l := l).
    + unfold s1, s2. rewrite after_after. cbn [app map after p_locals]. f_equal. unfold params_names. cbn [map rev snd]. rewrite <- app_assoc. reflexivity.
    + clear. intros ts s o t u l E Ho Ht Hn Hu.
      rewrite (bind_eq _ _ (cur_is T_Comma) _ s true s); [|unfold cur_is; rewrite (current_eq _ _ _ E), Ho; reflexivity].
      rewrite (bind_eq _ _ advance _ s tt (moved s [o] (t :: u :: l))); [|apply advance_eq, E].
      rewrite (bind_eq _ _ cur _ _ t (moved s [o] (t :: u :: l))); [|reflexivity]. rewrite Ht. cbn [ttype_eqb].
      change (ttype_eqb T_BareName T_Pipe) with false. cbv iota.
      rewrite (bind_eq _ _ _ _ _ _ _ (single_arg expr (S fuel) fuel Ctx_Block IA_CURLY_AND_BLOCK (moved s [o] (t :: u :: l)) ts t u l eq_refl Ht Hn Hu)).
      rewrite moved_after, after_after. reflexivity.
    + clear. intros acc s u l E Hu.
      rewrite (bind_eq _ _ (cur_is T_Comma) _ s false s); [reflexivity|].
      unfold cur_is. rewrite (current_eq _ _ _ E). destruct (ty u); try reflexivity. congruence.
    + symmetry. exact X.
    + exact Hf.
    + congruence.
    + rewrite Hc. reflexivity.
    + exact Hk.
Qed.

Lemma length_weight l : (length l <= weight l)%nat.
Proof. induction l as [|a l IH]; [cbn; lia|]. rewrite weight_cons. cbn [length]. destruct (is_end_of_line (ty a)); lia. Qed.
Lemma params_weight ps : (length ps + length ps <= weight (params_text ps))%nat.
Proof.
  pose proof (length_weight (params_text ps)) as H. enough (length (params_text ps) = length ps + length ps)%nat by lia. clear.
  unfold params_text. induction ps as [|p ps IH]; [reflexivity|]. cbn [flat_map app length]. rewrite IH. lia.
Qed.
Lemma param_names_of ts : map param_name (map arg_node ts) = map name_of ts.
Proof. rewrite map_map. reflexivity. Qed.

(** ** Methods *)
Lemma expect_run t msg s c l : p_rest s = c :: l -> ty c = t -> expect t msg s = POk tt s.
Proof.
  intros E H. unfold expect, bind, cty. rewrite (current_eq _ _ _ E), H.
  replace (ttype_eqb t t) with true by (destruct t; reflexivity). reflexivity.
Qed.

Lemma advance_after s a c l L : advance (after s a (c :: l) L) = POk tt (after s (a ++ [c]) l L).
Proof. rewrite (advance_eq (after s a (c :: l) L) c l eq_refl), moved_after, after_after. reflexivity. Qed.
Lemma expect_after t msg s a c l L : ty c = t -> expect t msg (after s a (c :: l) L) = POk tt (after s a (c :: l) L).
Proof. intros H. apply (expect_run _ _ _ c l); auto. Qed.
Lemma cur_is_after t s a c l L : cur_is t (after s a (c :: l) L) = POk (ttype_eqb (ty c) t) (after s a (c :: l) L).
Proof. reflexivity. Qed.

Lemma def_rest_run m nm ps close sep b f s r :
  BLoop m b -> p_rest s = params_text ps ++ close ++ sep :: block_text b ++ f :: r -> (weight (p_rest s) < m)%nat ->
  params_ok T_LParen T_RParen ps close -> is_separator (ty sep) = true -> p_locals s = [] ->
  block_ok (params_names ps) b -> ty f = T_EndKeyword ->
  exists t vs l, map node_stree vs = block_meaning (params_names ps) b /\
    parse_def_rest (parse_expression m) (m + m + 2) nm s =
    POk (map arg_node (map snd ps), (t, vs)) (after s (params_text ps ++ close ++ sep :: block_text b ++ [f]) r l).
Proof.
  intros HB E W Hps Hsep Hl Hb Hf.
  set (s1 := after s (params_text ps ++ close) (sep :: block_text b ++ f :: r) (params_names ps)).
  assert (W1 : (weight (p_rest s1) < m)%nat).
  { unfold s1. cbn [after p_rest]. rewrite E, !weight_app in W. clear - W. lia. }
  destruct (body_run m b (Some (rescue_in_body (parse_expression m) (m + m + 2))) (fun t => ttype_eqb t T_EndKeyword) s1 [sep] f r)
    as (t & vs & V1 & V2); auto.
  { right. eauto. } { rewrite Hf. reflexivity. } { rewrite Hf. reflexivity. } { intros x. destruct x; try discriminate; reflexivity. }
  exists t, vs, (block_locals (params_names ps) b). split; [exact V1|].
  unfold parse_def_rest.
  rewrite (bind_eq _ _ cty _ s (ty (current s)) s); [|reflexivity].
  rewrite (bind_eq _ _ (if ttype_eqb _ _ then _ else _) _ s (map arg_node (map snd ps)) s1).
  - rewrite (bind_eq _ _ (cur_is T_Equal) _ s1 false s1).
    2:{ unfold s1. rewrite cur_is_after. clear - Hsep. destruct (ty sep); try discriminate; reflexivity. }
    cbv iota. unfold parse_body_rescue_to, parse_body_rescue.
    set (s2 := after s (params_text ps ++ close ++ sep :: block_text b) (f :: r) (block_locals (params_names ps) b)).
    assert (V3 : after s1 ([sep] ++ block_text b) (f :: r) (block_locals (p_locals s1) b) = s2).
    { unfold s1, s2. rewrite after_after, <- app_assoc. reflexivity. }
    rewrite V3 in V2.
    rewrite (bind_eq _ _ (bind _ _) _ s1 (t, vs) (after s (params_text ps ++ close ++ sep :: block_text b ++ [f]) r (block_locals (params_names ps) b))).
    + reflexivity.
    + rewrite (bind_eq _ _ _ _ _ _ _ V2). unfold s2.
      rewrite (bind_eq _ _ _ _ _ _ _ (expect_after T_EndKeyword _ _ _ f _ _ Hf)).
      rewrite (bind_eq _ _ _ _ _ _ _ (advance_after _ _ _ _ _)). unfold ret. f_equal.
      rewrite <- !app_assoc. reflexivity.
  - unfold params_ok in Hps. destruct ps as [|(o & t0) ps].
    + destruct Hps as (_ & ->). cbn [params_text flat_map app] in E. rewrite (current_eq _ _ _ E).
      clear - E Hsep Hl. replace (ttype_eqb (ty sep) T_LParen) with false by (destruct (ty sep); try discriminate; reflexivity).
      replace (can_be_first_arg_of_def (ty sep)) with false by (destruct (ty sep); try discriminate; reflexivity).
      unfold ret, s1, after. cbn. rewrite <- E, <- Hl. destruct s; reflexivity.
    + destruct Hps as (Hp & c & -> & Hc).
      cbn [params_text flat_map app fst snd] in E. change (flat_map (fun p => [fst p; snd p]) ps) with (params_text ps) in E.
      destruct Hp as (Ho & Hp). rewrite (current_eq _ _ _ E), Ho.
      change (ttype_eqb T_LParen T_LParen) with true. cbv iota.
      set (l1 := t0 :: params_text ps ++ c :: sep :: block_text b ++ f :: r).
      rewrite (bind_eq _ _ advance _ s tt (moved s [o] l1)); [|apply advance_eq, E].
      assert (Ht0 : ty t0 = T_BareName) by apply Hp.
      rewrite (bind_eq _ _ (cur_is T_RParen) _ _ false (moved s [o] l1)).
      2:{ unfold cur_is. rewrite (current_eq (moved s [o] l1) t0 _ eq_refl), Ht0. reflexivity. }
      rewrite (bind_eq _ _ (parse_def_args _ _ _) _ _ _ _
        (def_args_run (parse_expression m) (m + m + 2) (moved s [o] l1) o t0 ps c (sep :: block_text b ++ f :: r) eq_refl (conj Ho Hp) Hc
          ltac:(rewrite E, !weight_cons, weight_app in W; pose proof (params_weight ps) as Q; clear - W Q; lia))).
      rewrite moved_after, after_after.
      rewrite (bind_eq _ _ _ _ _ _ _ (expect_after T_RParen _ _ _ c _ _ Hc)).
      rewrite (bind_eq _ _ _ _ _ _ _ (advance_after _ _ _ _ _)).
      unfold s1, ret. cbn [app map snd p_locals after]. rewrite Hl, app_nil_r. reflexivity.
Qed.

Lemma with_locals_run {A} L (m : M A) s a x y L' :
  m (after s [] (p_rest s) L) = POk a (after s x y L') -> with_locals L m s = POk a (after s x y (p_locals s)).
Proof.
  intros H. unfold with_locals.
  rewrite (bind_eq _ _ get_locals _ s (p_locals s) s); [|reflexivity].
  rewrite (bind_eq _ _ (set_locals L) _ s tt (after s [] (p_rest s) L)); [|reflexivity].
  rewrite (bind_eq _ _ m _ _ _ _ H). reflexivity.
Qed.

Lemma stmt_def n k nm ps close sep b f : (forall m, BLoop m b) -> SMain n (S_def k nm ps close sep b f).
Proof.
  intros HB s u r d E W Hu Hd (Hk & Hn & Hnm & Hps & Hsep & Hb & Hf).
  cbn [stmt_text stmt_meaning stmt_locals] in *. destruct n as [|m]; [clear - W; lia|]. cbn [app] in E.
  set (rest := params_text ps ++ close ++ sep :: block_text b ++ f :: u :: r).
  assert (E' : p_rest s = k :: nm :: rest).
  { rewrite E. unfold rest. rewrite <- !app_assoc. cbn [app]. rewrite <- !app_assoc. reflexivity. }
  clear E. rename E' into E.
  assert (W1 : (weight rest < m)%nat).
  { rewrite E, !weight_cons, Hk, Hn in W. clear - W. cbn [is_end_of_line] in W. lia. }
  set (s0 := with_precs s (LOWEST :: p_precs s)).
  set (s2 := after s0 [k; nm] rest (p_locals s)).
  destruct (def_rest_run m (name_of nm) ps close sep b f (after s2 [] rest []) (u :: r) (HB m) eq_refl W1 Hps Hsep eq_refl Hb Hf)
    as (t & vs & l & V1 & V2).
  rewrite after_after in V2. cbn [app] in V2.
  set (all := k :: nm :: params_text ps ++ close ++ sep :: block_text b ++ [f]).
  set (v := N_Def k None (name_of nm) (map arg_node (map snd ps)) (t, vs)).
  exists v. split.
  { unfold v. cbn [node_stree]. rewrite param_names_of, map_map, V1. reflexivity. }
  set (s3 := after s0 all (u :: r) (p_locals s)).
  rewrite (parse_via m IA_CURLY_AND_BLOCK s k (nm :: rest) (parse_def (parse_expression m) (m + m + 2)) v s3 0 v s3 u r); auto.
  - rewrite Hk. reflexivity.
  - rewrite Hk. reflexivity.
  - fold s0. unfold parse_def.
    rewrite (bind_eq _ _ cur _ s0 k s0); [|unfold cur; rewrite (current_eq s0 k (nm :: rest) E); reflexivity].
    rewrite (bind_eq _ _ advance _ s0 tt (after s0 [k] (nm :: rest) (p_locals s))); [|apply (advance_eq s0 k (nm :: rest) E)].
    rewrite (bind_eq _ _ (parse_def_name _) _ _ (None, name_of nm) s2).
    + cbn [fst snd]. rewrite (bind_eq _ _ _ _ s2 _ _ (with_locals_run [] _ s2 _ _ _ _ V2)).
      unfold ret, s2. rewrite after_after. reflexivity.
    + unfold parse_def_name.
      rewrite (bind_eq _ _ cur _ _ nm (after s0 [k] (nm :: rest) (p_locals s))); [|reflexivity].
      assert (X : exists x y, rest = x :: y /\ is_dot (ty x) || is_constant_resolution (ty x) = false).
      { clear - Hps Hsep. unfold rest, params_ok in *. destruct ps as [|(o & t0) ps].
        - destruct Hps as (_ & ->). do 2 eexists. split; [reflexivity|]. destruct (ty sep); try discriminate; reflexivity.
        - do 2 eexists. split; [reflexivity|]. destruct Hps as ((Ho & _) & _). cbn [fst]. rewrite Ho. reflexivity. }
      destruct X as (x & y & Ex & Hx).
      rewrite (bind_eq _ _ peek _ _ x (after s0 [k] (nm :: rest) (p_locals s))); [|rewrite Ex; reflexivity].
      cbv zeta. rewrite Hx, Hn. rewrite (bind_eq _ _ (ret None) _ _ None (after s0 [k] (nm :: rest) (p_locals s))); [|reflexivity].
      rewrite (bind_eq _ _ parse_method_name _ _ (name_of nm) s2); [reflexivity|].
      unfold parse_method_name. rewrite (bind_eq _ _ cur _ _ nm (after s0 [k] (nm :: rest) (p_locals s))); [|reflexivity].
      rewrite Hn. destruct Hnm as (str & Hs & _). unfold name_of. 
      rewrite (bind_eq _ _ (literal_string nm) _ _ str (after s0 [k] (nm :: rest) (p_locals s))); [|unfold literal_string; rewrite Hs; reflexivity].
      rewrite Hs. rewrite (bind_eq _ _ _ _ _ _ _ (advance_after _ _ _ _ _)). reflexivity.
  - apply rounds_0.
  - clear. lia.
Qed.

(** ** Classes and modules *)
Lemma scope_name_run m s n sep r : p_rest s = n :: sep :: r -> (weight (p_rest s) < m)%nat -> ty n = T_Constant -> named n ->
  is_separator (ty sep) = true -> p_locals s = [] ->
  parse_class_or_module_name (parse_expression m) s = POk (leaf [] n) (after s [n] (sep :: r) []).
Proof.
  intros E W Hn Hnm Hs Hl. destruct (sep_follows _ Hs) as (Hf & Hb & _).
  destruct Hnm as (str & Hstr & Hz).
  destruct (expressions_parsed (E_leaf n)) with (n := m) (p := LESS_GREATER) (ia := IA_CURLY_AND_BLOCK) (s := s) (r := r) (u := sep)
    as (v & (G1 & G2 & G3) & X); auto.
  - cbn [well_formed]. rewrite Hn. split; [reflexivity|]. intros _. eauto.
  - rewrite Hb. apply N.le_0_l.
  - unfold parse_class_or_module_name. rewrite (bind_eq _ _ cur _ s n s); [|unfold cur; rewrite (current_eq _ _ _ E); reflexivity].
    unfold pexpr. rewrite (bind_eq _ _ _ _ _ _ _ X). cbv zeta.
    cbn [meaning] in G1. rewrite Hl in G1. 
    assert (V : v = leaf [] n).
    { clear - G1 G2 Hn. unfold leaf in *. rewrite Hn in *. destruct v; try discriminate G2; cbn [node_tree] in G1; unfold both, either in G1; congruence. }
    rewrite V. unfold leaf. rewrite Hn. cbv iota. change (ttype_eqb T_Constant T_Constant) with true. cbv iota.
    unfold ret. rewrite moved_after, Hl. reflexivity.
Qed.

Lemma leaf_key l n : node_is_symbol_key (leaf l n) = false.
Proof. unfold leaf. destruct (ty n); reflexivity. Qed.

Lemma stmt_scope n k nm sep b f : (forall m, BLoop m b) -> SMain n (S_scope k nm sep b f).
Proof.
  intros HB s u r d E W Hu Hd (Hk & Hn & Hnm & Hsep & Hb & Hf).
  cbn [stmt_text stmt_meaning stmt_locals] in *. destruct n as [|m]; [clear - W; lia|]. cbn [app] in E.
  rewrite <- app_assoc in E. cbn [app] in E.
  set (rest := sep :: block_text b ++ f :: u :: r) in *.
  assert (W1 : (weight (nm :: rest) < m)%nat).
  { rewrite E, !weight_cons in W. rewrite weight_cons. clear - W Hk. destruct Hk as [H|H]; rewrite H in W; cbn [is_end_of_line] in W; lia. }
  assert (W2 : (weight rest < m)%nat) by (rewrite weight_cons in W1; clear - W1; lia).
  set (s0 := with_precs s (LOWEST :: p_precs s)).
  set (s1 := after s0 [k] (nm :: rest) (p_locals s)).
  set (s2 := after s1 [nm] rest []).
  pose proof (scope_name_run m (after s1 [] (nm :: rest) []) nm sep (block_text b ++ f :: u :: r) eq_refl W1 Hn Hnm Hsep eq_refl) as X.
  rewrite after_after in X. cbn [app] in X. fold rest in X. fold s2 in X.
  destruct (body_run m b (Some (rescue_in_body (parse_expression m) (m + m + 2))) (fun t => ttype_eqb t T_EndKeyword) s2 [sep] f (u :: r))
    as (t & vs & V1 & V2); auto.
  { right. eauto. } { rewrite Hf. reflexivity. } { rewrite Hf. reflexivity. } { intros x. destruct x; try discriminate; reflexivity. }
  unfold s2 in V2 at 2. rewrite after_after in V2. cbn [app] in V2.
  set (all := nm :: sep :: block_text b ++ [f]).
  set (s3 := after s0 (k :: all) (u :: r) (p_locals s)).
  assert (A : ((nm :: sep :: block_text b) ++ [f] = all)) by reflexivity.
  assert (N0 : ttype_eqb (ty nm) T_LeftShift = false) by (rewrite Hn; reflexivity).
  assert (Adv : advance s0 = POk tt s1) by (apply (advance_eq s0 k (nm :: rest) E)).
  assert (Cur : cur s0 = POk k s0) by (unfold cur; rewrite (current_eq s0 k (nm :: rest) E); reflexivity).
  destruct Hk as [Hk|Hk]; rewrite Hk.
  - set (v := N_Class k (leaf [] nm) (N_Nil k) (t, vs)).
    exists v. split; [unfold v; cbn [node_stree]; rewrite V1; reflexivity|].
    rewrite (parse_via m IA_CURLY_AND_BLOCK s k (nm :: rest) (parse_class (parse_expression m) (m + m + 2)) v s3 0 v s3 u r); auto.
    + rewrite Hk. reflexivity.
    + rewrite Hk. reflexivity.
    + fold s0. unfold parse_class. rewrite (bind_eq _ _ _ _ _ _ _ Cur).
      rewrite (bind_eq _ _ peek _ s0 nm s0); [|unfold peek; change (p_rest s0) with (p_rest s); rewrite E; reflexivity].
      rewrite N0. rewrite (bind_eq _ _ _ _ _ _ _ Adv).
      rewrite (with_locals_run [] _ s1 v all (u :: r) (block_locals [] b)).
      * unfold s1. rewrite after_after. reflexivity.
      * change (p_rest s1) with (nm :: rest). rewrite (bind_eq _ _ _ _ _ _ _ X).
        rewrite (bind_eq _ _ (cur_is T_LessThan) _ s2 false s2).
        2:{ unfold s2, rest. rewrite cur_is_after. clear - Hsep. destruct (ty sep); try discriminate; reflexivity. }
        cbv iota. rewrite (bind_eq _ _ (ret (N_Nil k)) _ s2 (N_Nil k) s2); [|reflexivity].
        unfold parse_body_rescue_to, parse_body_rescue. rewrite (bind_eq _ _ _ _ _ _ _ V2).
        rewrite (bind_eq _ _ _ _ _ _ _ (expect_after T_EndKeyword _ _ _ f _ _ Hf)).
        rewrite (bind_eq _ _ _ _ _ _ _ (advance_after _ _ _ _ _)). reflexivity.
    + apply rounds_0.
    + clear. lia.
  - set (v := N_Module k (leaf [] nm) (t, vs)).
    exists v. split; [unfold v; cbn [node_stree]; rewrite V1; reflexivity|].
    rewrite (parse_via m IA_CURLY_AND_BLOCK s k (nm :: rest) (parse_module (parse_expression m) (m + m + 2)) v s3 0 v s3 u r); auto.
    + rewrite Hk. reflexivity.
    + rewrite Hk. reflexivity.
    + fold s0. unfold parse_module. rewrite (bind_eq _ _ _ _ _ _ _ Cur). rewrite (bind_eq _ _ _ _ _ _ _ Adv).
      rewrite (with_locals_run [] _ s1 v all (u :: r) (block_locals [] b)).
      * unfold s1. rewrite after_after. reflexivity.
      * change (p_rest s1) with (nm :: rest). rewrite (bind_eq _ _ _ _ _ _ _ X).
        unfold parse_body_rescue_to, parse_body_rescue. rewrite (bind_eq _ _ _ _ _ _ _ V2).
        rewrite (bind_eq _ _ _ _ _ _ _ (expect_after T_EndKeyword _ _ _ f _ _ Hf)).
        rewrite (bind_eq _ _ _ _ _ _ _ (advance_after _ _ _ _ _)). reflexivity.
    + apply rounds_0.
    + clear. lia.
Qed.

(** ** Loops *)
Lemma stmt_loop n k e sep b f : (forall m, BLoop m b) -> SMain n (S_loop k e sep b f).
Proof.
  intros HB s u r d E W Hu Hd (Hk & He & Hsep & Hb & Hf).
  cbn [stmt_text stmt_meaning stmt_locals] in *. destruct n as [|m]; [clear - W; lia|]. cbn [app] in E.
  rewrite <- app_assoc in E. cbn [app] in E. rewrite <- app_assoc in E. cbn [app] in E.
  set (rest := block_text b ++ f :: u :: r) in *.
  set (s0 := with_precs s (LOWEST :: p_precs s)).
  set (s1 := after s0 [k] (text e ++ sep :: rest) (p_locals s)).
  assert (W1 : (weight (p_rest s1) < m)%nat).
  { unfold s1. cbn [after p_rest]. rewrite E, !weight_cons in W. clear - W Hk. destruct Hk as [H|H]; rewrite H in W; cbn [is_end_of_line] in W; lia. }
  destruct (sep_follows _ Hsep) as (Hfl & Hbl & Heol).
  destruct (expr_main m e He LOWEST IA_CURLY_ONLY s1 rest sep eq_refl W1) as (c & (G1 & G2 & G3) & X); auto.
  { apply ledge_low, He. } { apply redge_low, Hbl. } { rewrite Hbl. apply N.le_refl. }
  unfold s1 in X at 2. rewrite moved_after, after_after in X. cbn [app after p_locals] in X.
  set (s2 := after s0 (k :: text e ++ [sep]) rest (p_locals s)).
  assert (W2 : (weight (p_rest s2) < m)%nat).
  { unfold s1 in W1. unfold s2. cbn [after p_rest] in *. rewrite weight_app, weight_cons in W1. clear - W1. lia. }
  destruct (body_run m b None (fun t => ttype_eqb t T_EndKeyword) s2 [] f (u :: r)) as (t & vs & V1 & V2); auto.
  { rewrite Hf. reflexivity. } { rewrite Hf. reflexivity. } { intros x. destruct x; try discriminate; reflexivity. }
  unfold s2 in V2 at 2. rewrite after_after in V2. cbn [app] in V2.
  change (p_locals s2) with (p_locals s) in V1, V2.
  set (all := k :: text e ++ sep :: block_text b ++ [f]).
  set (s3 := after s0 all (u :: r) (block_locals (p_locals s) b)).
  set (v := match ty k with T_WhileKeyword => N_While k c (t, vs) true | _ => N_Until k c (t, vs) true end).
  exists v. split.
  { unfold v. destruct Hk as [-> | ->]; cbn [node_stree]; rewrite G1, V1; reflexivity. }
  rewrite (parse_via m IA_CURLY_AND_BLOCK s k (text e ++ sep :: rest) (parse_while (parse_expression m) (m + m + 2)) v s3 0 v s3 u r); auto.
  - destruct Hk as [-> | ->]; reflexivity.
  - destruct Hk as [-> | ->]; reflexivity.
  - fold s0. unfold parse_while.
    rewrite (bind_eq _ _ cur _ s0 k s0); [|unfold cur; rewrite (current_eq s0 k (text e ++ sep :: rest) E); reflexivity].
    rewrite (bind_eq _ _ advance _ s0 tt s1); [|apply (advance_eq s0 k (text e ++ sep :: rest) E)].
    rewrite (bind_eq _ _ _ _ _ _ _ X). cbv zeta.
    replace (match_condition c) with c by (clear - G2; destruct c; try discriminate; reflexivity).
    rewrite (bind_eq _ _ _ _ _ _ _ (cur_is_after T_DoKeyword _ _ _ _ _)).
    replace (ttype_eqb (ty sep) T_DoKeyword) with false by (clear - Hsep; destruct (ty sep); try discriminate; reflexivity).
    assert (Hfin : is_fin (ty f) = true) by (rewrite Hf; reflexivity).
    destruct (block_head _ b f (u :: r) Hb (fin_bstarts _ Hfin)) as (x & y & Exy & Hxs).
    rewrite (bind_eq _ _ next_expression _ _ tt s2).
    2:{ unfold s2, rest. rewrite Exy. rewrite (next_one _ sep x y); [|reflexivity|exact Hsep|exact (bstarts_eol _ Hxs)].
        rewrite moved_after, after_after. reflexivity. }
    unfold parse_body_to. rewrite (bind_eq _ _ _ _ _ _ _ V2).
    rewrite (bind_eq _ _ _ _ _ _ _ (expect_after T_EndKeyword _ _ _ f _ _ Hf)).
    rewrite (bind_eq _ _ _ _ _ _ _ (advance_after _ _ _ _ _)). unfold s3, all, v.
    replace ((k :: (text e ++ [sep]) ++ block_text b) ++ [f]) with (k :: text e ++ sep :: block_text b ++ [f])
      by (cbn [app]; rewrite <- !app_assoc; reflexivity).
    destruct Hk as [Hk | Hk]; rewrite Hk; reflexivity.
  - apply rounds_0.
  - clear. lia.
  - unfold v. destruct Hk as [-> | ->]; reflexivity.
Qed.

(** ** Blocks given to calls *)
Lemma iter_head_run m fuel t0 bd ps close sep rest s o :
  p_rest s = o :: params_text ps ++ close ++ sep :: rest -> params_ok T_Pipe T_Pipe ps close ->
  is_separator (ty sep) = true -> (weight (p_rest s) < fuel)%nat ->
  parse_iter_head (parse_expression m) fuel (N_Identifier t0 bd) s =
  POk (match ps with [] => false | _ => true end, map arg_node (map snd ps))
    (after s (o :: params_text ps ++ close) (sep :: rest) (params_names ps ++ p_locals s)).
Proof.
  intros E Hps Hsep W. unfold parse_iter_head. cbn [can_accept_a_block has_block_pass].
  rewrite (bind_eq _ _ advance _ s tt (moved s [o] (params_text ps ++ close ++ sep :: rest))); [|apply advance_eq, E].
  rewrite moved_after. unfold params_ok in Hps. destruct ps as [|(d & t) ps].
  - destruct Hps as (_ & ->). cbn [params_text flat_map app] in *.
    rewrite (bind_eq _ _ cty _ _ (ty sep) (after s [o] (sep :: rest) (p_locals s))); [|reflexivity].
    clear - Hsep. destruct (ty sep); try discriminate; reflexivity.
  - destruct Hps as (Hp & c & -> & Hc).
    cbn [params_text flat_map app fst snd] in E |- *. change (flat_map (fun p => [fst p; snd p]) ps) with (params_text ps) in *.
    pose proof Hp as (Ho & Ht & _).
    set (l1 := t :: params_text ps ++ c :: sep :: rest).
    rewrite (bind_eq _ _ cty _ _ (ty d) (after s [o] (d :: l1) (p_locals s))); [|reflexivity]. rewrite Ho.
    change (ttype_eqb T_Pipe T_PipePipe) with false. change (ttype_eqb T_Pipe T_Pipe) with true. cbv iota.
    rewrite (bind_eq _ _ _ _ _ _ _ (advance_after _ _ _ _ _)). unfold l1 at 1.
    rewrite (bind_eq _ _ _ _ _ _ _ (cur_is_after T_Pipe _ _ _ _ _)). rewrite Ht.
    change (ttype_eqb T_BareName T_Pipe) with false. cbv iota.
    rewrite (bind_eq _ _ _ _ _ _ _
        (iter_args_run (parse_expression m) fuel (after s ([o] ++ [d]) l1 (p_locals s)) d t ps c (sep :: rest) eq_refl Hp Hc
          ltac:(rewrite E, !weight_cons, weight_app in W; pose proof (params_weight ps) as Q; clear - W Q; lia))).
    rewrite after_after.
    rewrite (bind_eq _ _ _ _ _ _ _ (expect_after T_Pipe _ _ _ c _ _ Hc)).
    rewrite (bind_eq _ _ _ _ _ _ _ (advance_after _ _ _ _ _)). reflexivity.
Qed.

Lemma stmt_iter n nm o ps close sep b f : (forall m, BLoop m b) -> SMain n (S_iter nm o ps close sep b f).
Proof.
  intros HB s u r d E W Hu Hd (Hn & Hnm & Ho & Hps & Hsep & Hb).
  cbn [stmt_text stmt_meaning stmt_locals] in *. destruct n as [|m]; [clear - W; lia|]. cbn [app] in E.
  set (rest := block_text b ++ f :: u :: r).
  set (mid := params_text ps ++ close ++ sep :: rest).
  assert (E' : p_rest s = nm :: o :: mid).
  { rewrite E. unfold mid, rest. rewrite <- !app_assoc. cbn [app]. rewrite <- !app_assoc. reflexivity. }
  clear E. rename E' into E.
  assert (Hn' : is_name (ty nm) = true) by (rewrite Hn; reflexivity).
  assert (W1 : (weight (o :: mid) < m)%nat).
  { rewrite E, !weight_cons, Hn in W. rewrite weight_cons. clear - W. cbn [is_end_of_line] in W. lia. }
  set (s0 := with_precs s (LOWEST :: p_precs s)).
  set (s1 := after s0 [nm] (o :: mid) (p_locals s)).
  set (lhs := leaf (p_locals s) nm).
  assert (L : lhs = N_Identifier nm (bound (p_locals s) nm)) by (apply named_leaf; assumption).
  assert (Ho' : (ty o = T_DoKeyword \/ ty o = T_LCurlyBrace) /\ is_fin (ty f) = true /\
                ty f = (if ttype_eqb (ty o) T_LCurlyBrace then T_RCurlyBrace else T_EndKeyword)).
  { destruct Ho as [(Y1 & Y2)|(Y1 & Y2 & Y3)]; rewrite Y1, Y2; auto. }
  destruct Ho' as (Ho1 & Hfin & Hfo).
  set (curly := ttype_eqb (ty o) T_LCurlyBrace) in *.
  set (s2 := after s1 (o :: params_text ps ++ close) (sep :: rest) (params_names ps ++ p_locals s)).
  assert (W2 : (weight (p_rest s2) < m)%nat).
  { unfold s2. cbn [after p_rest]. unfold mid in W1. rewrite weight_cons, !weight_app in W1. clear - W1. lia. }
  destruct (body_run m b (Some (rescue_in_body (parse_expression m) (m + m + 2)))
     (fun t => ttype_eqb t (if curly then T_RCurlyBrace else T_EndKeyword)) s2 [sep] f (u :: r)) as (t & vs & V1 & V2); auto.
  { right. eauto. } { rewrite Hfo. destruct curly; reflexivity. } { intros x. destruct curly, x; try discriminate; reflexivity. }
  unfold s2 in V2 at 2. rewrite after_after in V2. change (p_locals s2) with (params_names ps ++ p_locals s) in V1, V2.
  set (all := o :: params_text ps ++ close ++ sep :: block_text b ++ [f]).
  set (s3 := after s0 (nm :: all) (u :: r) (p_locals s)).
  set (v := N_Iter o lhs (match ps with [] => false | _ => true end) (map arg_node (map snd ps)) (t, vs)).
  assert (Z : parse_iter_expression (parse_expression m) (m + m + 2) lhs s1 = POk v s3).
  { unfold parse_iter_expression. rewrite (bind_eq _ _ cur _ s1 o s1); [|reflexivity].
    rewrite (bind_eq _ _ prev _ s1 (hd no_token (p_prev s1)) s1); [|reflexivity]. cbv zeta. fold curly.
    replace (curly && _) with false by (rewrite L, andb_false_r; reflexivity). cbv iota.
    rewrite (bind_eq _ _ get_locals _ s1 (p_locals s) s1); [|reflexivity].
    rewrite (with_locals_run (p_locals s) _ s1 v all (u :: r) (block_locals (params_names ps ++ p_locals s) b)).
    - unfold s1. rewrite after_after. reflexivity.
    - change (after s1 [] (p_rest s1) (p_locals s)) with s1. rewrite L.
      rewrite (bind_eq _ _ _ _ _ _ _ (iter_head_run m (m + m + 2) nm (bound (p_locals s) nm) ps close sep rest s1 o eq_refl Hps Hsep
        ltac:(change (weight (o :: mid) < m + m + 2)%nat; clear - W1; lia))).
      change (p_locals s1) with (p_locals s). fold s2. cbn [fst snd].
      unfold parse_iter_body, parse_body_rescue_to, parse_body_rescue. rewrite (bind_eq _ _ _ _ _ _ _ V2).
      rewrite (bind_eq _ _ (if curly then _ else _) _ _ tt (after s1 ((o :: params_text ps ++ close) ++ [sep] ++ block_text b) (f :: u :: r)
         (block_locals (params_names ps ++ p_locals s) b))).
      2:{ destruct curly; apply expect_after; exact Hfo. }
      rewrite (bind_eq _ _ _ _ _ _ _ (advance_after _ _ _ _ _)). unfold ret, v, all. rewrite L. f_equal.
      f_equal. cbn [app]. rewrite <- !app_assoc. reflexivity. }
  exists v. split.
  { unfold v. cbn [node_stree]. rewrite param_names_of, map_map, V1. reflexivity. }
  rewrite (parse_via m IA_CURLY_AND_BLOCK s nm (o :: mid) parse_identifier lhs s1 1 v s3 u r); auto.
  - apply name_eol, Hn'.
  - rewrite Hn. reflexivity.
  - exact (identifier_run s0 nm (o :: mid) E Hn' Hnm).
  - eapply rounds_S; [apply rounds_0|]. unfold expression_step. rewrite (bind_eq _ _ cur _ s1 o s1); [|reflexivity].
    replace (is_valid (ty o)) with true by (destruct Ho1 as [-> | ->]; reflexivity). cbn [negb].
    rewrite (bind_eq _ _ (higher_precedence o lhs LOWEST IA_CURLY_AND_BLOCK) _ s1 true s1).
    2:{ unfold higher_precedence. rewrite L. cbn [node_is_symbol_key]. unfold get_precedence.
        destruct Ho as [(Y1 & Y2)|(Y1 & Y2 & Y3)]; rewrite Y1; cbv iota zeta.
        - change (ITER_BLOCK =? ITER_BLOCK) with true. cbv iota. unfold bind, depth_stack. change (p_depth s1) with (p_depth s). rewrite Hd. reflexivity.
        - change (ITER_CURLY =? ITER_BLOCK) with false. change (ITER_CURLY =? ITER_CURLY) with true. cbv iota.
          cbn [is_callable]. rewrite Y3. unfold ret. f_equal. destruct (ty nm); try discriminate; reflexivity. }
    cbn [negb]. rewrite (bind_eq _ _ peek _ s1 (nth 1 (p_rest s1) no_token) s1); [|reflexivity].
    assert (LD : left_denotation (parse_expression m) (m + m + 2) o (nth 1 (p_rest s1) no_token) lhs LOWEST =
                 Some (parse_iter_expression (parse_expression m) (m + m + 2))).
    { unfold left_denotation. destruct Ho1 as [-> | ->]; reflexivity. }
    rewrite LD. rewrite (bind_eq _ _ _ _ _ _ _ Z).
    rewrite (bind_eq _ _ pop_prec _ s3 tt (with_precs s3 (p_precs s))); [|reflexivity].
    rewrite (bind_eq _ _ (push_prec LOWEST) _ _ tt s3); reflexivity.
  - clear - W1. lia.
Qed.

(** ** Every statement and body *)
Scheme stmt_ind2 := Induction for stmt Sort Prop with block_ind2 := Induction for block Sort Prop.
Combined Scheme program_ind from stmt_ind2, block_ind2.
Lemma all_parsed : (forall st n, SMain n st) /\ (forall b m, BLoop m b).
Proof.
  apply program_ind; intros.
  - apply stmt_value.
  - apply stmt_assign.
  - apply stmt_def; assumption.
  - apply stmt_scope; assumption.
  - apply stmt_loop; assumption.
  - apply stmt_iter; assumption.
  - apply loop_nil.
  - apply loop_cons; auto.
Qed.

(** ** The whole program *)
Definition top_step (n : nat) (acc : list node) : M (list node + list node) :=
  c <- cty ;;
  if is_eof c then ret (inr acc)
  else
    e <- parse_expression n LOWEST IA_CURLY_AND_BLOCK ;;
    validate_current_token ;;;
    next_expression ;;;
    ret (inl (acc ++ [e])).
Lemma top_loop n : forall b k s e acc d, p_rest s = block_text b ++ [e] -> (weight (p_rest s) < n)%nat -> ty e = T_Eof ->
  p_depth s = 0 :: d -> block_ok (p_locals s) b -> (length (block_text b) < k)%nat ->
  exists vs, map node_stree vs = block_meaning (p_locals s) b /\
    mloop k (top_step n) acc s = POk (acc ++ vs) (after s (block_text b) [e] (block_locals (p_locals s) b)).
Proof.
  induction b as [|st sep b IH]; intros k s e acc d E W He Hd Hok Hk; (destruct k as [|k]; [clear - Hk; lia|]); cbn [mloop].
  - exists []. split; [reflexivity|]. cbn [block_text app] in E. unfold top_step at 1.
    rewrite (bind_eq _ _ (bind _ _) _ s (inr acc) s).
    + rewrite app_nil_r. unfold ret, after. cbn [block_text rev app block_locals]. rewrite <- E. destruct s; reflexivity.
    + rewrite (bind_eq _ _ cty _ s T_Eof s); [reflexivity|]. unfold cty. rewrite (current_eq _ _ _ E), He. reflexivity.
  - destruct Hok as (Ho1 & Ho2 & Ho3). cbn [block_text block_locals block_meaning] in *.
    rewrite <- app_assoc in E. cbn [app] in E.
    destruct (stmt_head _ _ Ho1) as (h & tl & Eh & Hh).
    destruct (proj1 all_parsed st n s sep (block_text b ++ [e]) d E W Ho2 Hd Ho1) as (v & V1 & V2).
    set (s1 := after s (stmt_text st) (sep :: block_text b ++ [e]) (stmt_locals (p_locals s) st)) in *.
    set (s2 := after s (stmt_text st ++ [sep]) (block_text b ++ [e]) (stmt_locals (p_locals s) st)).
    assert (W2 : (weight (p_rest s2) < n)%nat).
    { unfold s2. cbn [after p_rest]. rewrite E, weight_app, weight_cons in W. clear - W. destruct (is_end_of_line (ty sep)); lia. }
    destruct (IH k s2 e (acc ++ [v]) d eq_refl W2 He Hd Ho3) as (vs & M1 & M2).
    { rewrite app_length in Hk. cbn [length] in Hk. clear - Hk. lia. }
    exists (v :: vs). cbn [map]. rewrite V1, M1. split; [reflexivity|].
    destruct (sstarts_not _ Hh) as (F1 & F2 & _).
    rewrite (bind_eq _ _ (top_step _ _) _ s (inl (acc ++ [v])) s2).
    + rewrite M2, <- app_assoc. cbn [app]. f_equal. unfold s2. rewrite after_after, <- app_assoc. reflexivity.
    + unfold top_step. rewrite (bind_eq _ _ cty _ s (ty h) s).
      2:{ unfold cty. rewrite Eh in E. cbn [app] in E. rewrite (current_eq _ _ _ E); reflexivity. }
      rewrite F2. rewrite (bind_eq _ _ _ _ _ _ _ V2).
      rewrite (bind_eq _ _ validate_current_token _ s1 tt s1).
      2:{ apply (validate_ok s1 sep (block_text b ++ [e]) eq_refl). rewrite Ho2, orb_true_r. reflexivity. }
      assert (He' : bstarts (ty e) = true) by (rewrite He; reflexivity).
      destruct (block_head _ b e [] Ho3 He') as (x & y & Exy & Hxs).
      rewrite (bind_eq _ _ next_expression _ s1 tt s2); [reflexivity|].
      unfold s1, s2. rewrite Exy. rewrite (next_one _ sep x y); [|reflexivity|exact Ho2|exact (bstarts_eol _ Hxs)].
      rewrite moved_after, after_after. reflexivity.
Qed.

Lemma meaning_not_other l st : stmt_meaning l st <> ST_other.
Proof. destruct st; cbn [stmt_meaning]; try discriminate; destruct (ty kw); discriminate. Qed.
Lemma block_meaning_ok : forall b l, Forall (fun m => m <> ST_other) (block_meaning l b).
Proof. induction b; intros l; cbn [block_meaning]; constructor; auto. apply meaning_not_other. Qed.

Lemma statements_of t vs : Forall (fun m => m <> ST_other) (map node_stree vs) -> statements (block_or_only (t, vs)) = vs.
Proof.
  destruct vs as [|v [|w vs]]; try reflexivity. cbn [map]. intros H. inversion H as [|x y Hx Hy]; subst.
  unfold block_or_only. cbn [snd fst]. destruct v; try reflexivity. destruct Hx. reflexivity.
Qed.

Lemma programs_parsed_only : forall file b eof,
  block_ok [] b -> ty eof = T_Eof ->
  exists t vs s, parse_tokens file (block_text b ++ [eof]) = POk (block_or_only (t, vs)) s /\
    map node_stree vs = block_meaning [] b /\
    p_rest s = [eof] /\ p_locals s = block_locals [] b.
Proof.
  intros file b eof Hok He. unfold parse_tokens. set (toks := block_text b ++ [eof]). set (n := parse_fuel toks).
  set (s := initial_state file toks).
  assert (W : (weight (p_rest s) < n)%nat).
  { change (weight toks < 2 * length toks + 2)%nat. clear. induction toks as [|a l IH]; [cbn; lia|].
    rewrite weight_cons. cbn [length]. destruct (is_end_of_line (ty a)); lia. }
  assert (He' : bstarts (ty eof) = true) by (rewrite He; reflexivity).
  destruct (block_head [] b eof [] Hok He') as (x & y & Exy & Hxs). fold toks in Exy.
  destruct (top_loop n b (S n) s eof [] [] eq_refl W He eq_refl Hok) as (vs & M1 & M2).
  { pose proof (length_weight toks) as Q. unfold toks in Q at 1. rewrite app_length in Q. change (weight toks < n)%nat in W. clear - Q W. lia. }
  exists x, vs, (after s (block_text b) [eof] (block_locals [] b)). split; [|split; [|split; reflexivity]].
  - unfold ParserModel.tree. rewrite (bind_eq _ _ skip_newlines _ s tt s); [|apply (skip_newlines_start s x y); [exact Exy|apply bstarts_eol, Hxs]].
    rewrite (bind_eq _ _ cur _ s x s); [|unfold cur; rewrite (current_eq s x y Exy); reflexivity].
    rewrite (bind_eq _ _ validate_current_token _ s tt s); [|apply (validate_ok s x y Exy); rewrite Hxs; reflexivity].
    rewrite (bind_eq _ _ skip_newlines _ s tt s); [|apply (skip_newlines_start s x y); [exact Exy|apply bstarts_eol, Hxs]].
    rewrite (bind_eq _ _ (mloop (S n) _ _) _ s vs _ M2). reflexivity.
  - exact M1.
Qed.
Theorem programs_parsed : forall file b eof,
  block_ok [] b -> ty eof = T_Eof ->
  exists v s, parse_tokens file (block_text b ++ [eof]) = POk v s /\
    map node_stree (statements v) = block_meaning [] b /\
    p_rest s = [eof] /\ p_locals s = block_locals [] b.
Proof.
  intros file b eof Hok He. destruct (programs_parsed_only file b eof Hok He) as (t & vs & s & H1 & H2 & H3).
  exists (block_or_only (t, vs)), s. split; [exact H1|]. split; [|exact H3].
  rewrite statements_of; [exact H2|]. rewrite H2. apply block_meaning_ok.
Qed.

(** * ParsePratt: operator expressions are parsed as they bind

    Proofs about [parse_expression] on the expressions of SpecExpr.  No code is
    modelled here. *)
From Coq Require Import Strings.String NArith ZArith Bool Arith List Lia.
From Verif Require Import Base Token Node ParserBase ParserModel ParseHoare SpecExpr.
Import ListNotations.
Open Scope N_scope.
Open Scope list_scope.

(** ** The parser's table *)
Definition bin_level (t : ttype) : N :=
  match t with
  | T_StarStar => EXPONENT
  | T_Star | T_Slash | T_Percent => PRODUCT
  | T_Plus | T_Minus => SUM
  | T_LeftShift | T_RightShift => BITWISE_SHIFT
  | T_Ampersand => BITWISE_AND
  | T_Pipe | T_Caret => BITWISE_OR
  | T_GreaterThan | T_GreaterThanOrEqual | T_LessThan | T_LessThanOrEqual | T_Comparison => LESS_GREATER
  | T_EqualEqual | T_EqualEqualEqual | T_NotEqual => EQUALITY
  | T_AmpersandAmpersand => LOGICAL_AND
  | T_PipePipe => LOGICAL_OR
  | T_AndKeyword | T_OrKeyword => COMPOSITION
  | _ => 0
  end.
Definition un_level (t : ttype) : N :=
  match t with T_Minus => UNARY_MINUS | T_NotKeyword => LOGICAL_NOT | _ => UNARY_PLUS end.
Definition to_left (t : ttype) : side := ToLeft.
Definition parser_grouped : expr -> bool := grouped bin_level un_level to_left.
Definition redge := right_edge bin_level un_level.
Definition ledge := left_edge bin_level.

(** Tokens that may follow an expression here. *)
Definition follows (t : ttype) : bool :=
  is_binary t || match t with T_RParen | T_Eof | T_Newline | T_Semicolon => true | _ => false end.

Lemma follow_precedence t v : follows (ty t) = true -> get_precedence t (Some v) = bin_level (ty t).
Proof.
  unfold follows, get_precedence, is_first_arg_of_call_without_parens. destruct (ty t); try discriminate; intros _;
    try reflexivity; cbn [can_be_first_arg_of_implicit_call bin_level]; rewrite andb_false_r; reflexivity.
Qed.
Lemma unary_precedence t : is_unary (ty t) = true -> get_precedence t None = un_level (ty t).
Proof. unfold get_precedence. destruct (ty t); try discriminate; reflexivity. Qed.

(** ** Nodes of these expressions *)
Definition plain (n : node) : bool :=
  match n with
  | N_Fixnum _ _ | N_Float _ _ _ | N_Bignum _ _ | N_NilSexp _ | N_True _ | N_False _ | N_Self _ | N_Identifier _ _
  | N_UnaryOp _ _ _ | N_Not _ _ | N_InfixOp _ _ _ _ | N_LogicalAnd _ _ _ | N_LogicalOr _ _ _ => true
  | _ => false
  end.
Lemma plain_key n : plain n = true -> node_is_symbol_key n = false.
Proof. destruct n; try discriminate; reflexivity. Qed.
Lemma make_and_tree t l r : node_tree (make_and t l r) = both (node_tree l) (node_tree r).
Proof.
  destruct l; try reflexivity. cbn [make_and node_tree]. unfold both. cbn [conjuncts]. rewrite app_assoc. reflexivity.
Qed.
Lemma make_or_tree t l r : node_tree (make_or t l r) = either (node_tree l) (node_tree r).
Proof.
  destruct l; try reflexivity. cbn [make_or node_tree]. unfold either. cbn [disjuncts]. rewrite app_assoc. reflexivity.
Qed.
Lemma make_and_plain t l r : plain (make_and t l r) = true.
Proof. destruct l; reflexivity. Qed.
Lemma make_or_plain t l r : plain (make_or t l r) = true.
Proof. destruct l; reflexivity. Qed.
Lemma make_and_number t l r : is_numeric (make_and t l r) = false.
Proof. destruct l; reflexivity. Qed.
Lemma make_or_number t l r : is_numeric (make_or t l r) = false.
Proof. destruct l; reflexivity. Qed.

(** ** Moving over tokens *)
Definition moved (s : pstate) (a r : list token) : pstate :=
  PState (rev a ++ p_prev s) r (p_precs s) (p_depth s) (p_locals s) (p_file s).
Definition with_precs (s : pstate) (ps : list N) : pstate :=
  PState (p_prev s) (p_rest s) ps (p_depth s) (p_locals s) (p_file s).
Definition with_depth (s : pstate) (d : list N) : pstate :=
  PState (p_prev s) (p_rest s) (p_precs s) d (p_locals s) (p_file s).

Lemma text_solid e : well_formed e -> Forall (fun t => is_end_of_line (ty t) = false /\ is_eof (ty t) = false) (text e).
Proof.
  induction e as [t|o e IH c|t e IH|l IHl t r IHr]; cbn [well_formed text]; intros H.
  - constructor; [|constructor]. destruct H as [H _]. destruct (ty t); try discriminate; auto.
  - destruct H as (Ho & Hc & He). constructor; [rewrite Ho; auto|]. apply Forall_app. split; [auto|].
    constructor; [rewrite Hc; auto|constructor].
  - destruct H as (Ht & He & _). constructor; [destruct (ty t); try discriminate; auto|auto].
  - destruct H as (Ht & Hl & Hr & _). apply Forall_app. split; [auto|].
    constructor; [destruct (ty t); try discriminate; auto|auto].
Qed.
Lemma text_cons e : exists t l, text e = t :: l.
Proof.
  induction e as [t|o e IH c|t e IH|l IHl t r IHr]; cbn [text]; eauto.
  destruct IHl as (u & l' & ->). cbn. eauto.
Qed.
Definition starts (t : ttype) : bool := is_leaf t || is_unary t || ttype_eqb t T_LParen.
Lemma text_starts e t l : well_formed e -> text e = t :: l -> starts (ty t) = true.
Proof.
  unfold starts. revert t l. induction e as [u|o e IH c|u e IH|a IHl u r IHr]; intros t l; cbn [well_formed text]; intros H E.
  - injection E as <- <-. destruct H as [-> _]. reflexivity.
  - injection E as <- _. destruct H as [-> _]. apply orb_true_r.
  - injection E as <- _. destruct H as [-> _]. rewrite orb_true_r. reflexivity.
  - destruct H as (_ & H & _). destruct (text_cons a) as (v & l' & Ea). rewrite Ea in E. injection E as <- _. eauto.
Qed.
Lemma weight_text e r : well_formed e -> weight (text e ++ r) = (2 * length (text e) + weight r)%nat.
Proof.
  intros H. pose proof (text_solid e H) as K. induction K as [|t l [Ht _] _ IH]; [reflexivity|].
  cbn [app weight length]. unfold weight1. rewrite Ht, IH. lia.
Qed.

Lemma skip_newlines_start s t l : p_rest s = t :: l -> is_end_of_line (ty t) = false -> skip_newlines s = POk tt s.
Proof.
  intros E H. unfold skip_newlines. destruct s as [a b c d e f]. cbn in *. subst b. cbn [skip_eol]. rewrite H. reflexivity.
Qed.

(** ** Rounds of the loop *)
Section Loop.
Variable expr : N -> iter_allow -> M node.
Variable fuel : nat.
Inductive rounds (p : N) (ia : iter_allow) : node -> pstate -> nat -> node -> pstate -> Prop :=
| rounds_0 : forall v s, rounds p ia v s 0 v s
| rounds_S : forall v s k v1 s1 v2 s2, rounds p ia v s k v1 s1 ->
    expression_step expr fuel p ia v1 s1 = POk (inl v2) s2 -> rounds p ia v s (S k) v2 s2.

Lemma rounds_mloop p ia v s k v' s' : rounds p ia v s k v' s' -> forall n,
  mloop (k + n) (expression_step expr fuel p ia) v s = mloop n (expression_step expr fuel p ia) v' s'.
Proof.
  induction 1 as [|v s k v1 s1 v2 s2 H IH E]; intros n; [reflexivity|].
  replace (S k + n)%nat with (k + S n)%nat by lia. rewrite IH. cbn [mloop]. unfold bind. rewrite E. reflexivity.
Qed.

(** The beginning of [parse_expression] at [s] comes to the loop with [v] at [s']. *)
Definition reaches (p : N) (ia : iter_allow) (s : pstate) (k : nat) (v : node) (s' : pstate) : Prop :=
  exists f v0 s0, null_denotation expr fuel (ty (current s)) = Some f /\ f s = POk v0 s0 /\ rounds p ia v0 s0 k v s'.
End Loop.

Definition good (locals : list str) (e : SpecExpr.expr) (v : node) : Prop :=
  node_tree v = meaning locals e /\ plain v = true /\ is_numeric v = number e.
Definition Main (n : nat) (e : SpecExpr.expr) : Prop :=
  forall p ia s r u, p_rest s = text e ++ u :: r -> (weight (p_rest s) < n)%nat ->
    ledge (fun l => p <? l) e = true -> follows (ty u) = true -> redge (fun x => bin_level (ty u) <=? x) e = true ->
    bin_level (ty u) <= p ->
    exists v, good (p_locals s) e v /\ parse_expression n p ia s = POk v (moved s (text e) (u :: r)).
Definition Spine (m : nat) (e : SpecExpr.expr) : Prop :=
  forall p ia s r u ps, p_rest s = text e ++ u :: r -> (weight (p_rest s) < S m)%nat -> p_precs s = p :: ps ->
    ledge (fun l => p <? l) e = true -> follows (ty u) = true -> redge (fun x => bin_level (ty u) <=? x) e = true ->
    exists v k, good (p_locals s) e v /\ (k <= length (text e))%nat /\
      reaches (parse_expression m) (m + m + 2) p ia s k v (moved s (text e) (u :: r)).

Lemma step_stops expr fuel p ia v s u r : p_rest s = u :: r -> follows (ty u) = true -> node_is_symbol_key v = false ->
  bin_level (ty u) <= p -> expression_step expr fuel p ia v s = POk (inr v) s.
Proof.
  intros E Hf Hv Hp. unfold expression_step, bind, cur. unfold current. rewrite E. cbn [hd].
  destruct (is_valid (ty u)) eqn:V; [|reflexivity]. cbn [negb].
  unfold higher_precedence. rewrite Hv, (follow_precedence _ _ Hf).
  assert (H : (bin_level (ty u) =? ITER_BLOCK) = false /\ (bin_level (ty u) =? ITER_CURLY) = false).
  { unfold follows in Hf. destruct (ty u); try discriminate; auto. }
  destruct H as [-> ->]. replace (p <? bin_level (ty u)) with false by (symmetry; apply N.ltb_ge, Hp). reflexivity.
Qed.

Lemma main_of_spine m e : well_formed e -> Spine m e -> Main (S m) e.
Proof.
  intros Hw H p ia s r u E W L F R P.
  destruct (text_cons e) as (t & l & Et).
  assert (Hs : is_end_of_line (ty t) = false) by (pose proof (text_solid e Hw) as K; rewrite Et in K; inversion K; tauto).
  destruct (H p ia (with_precs s (p :: p_precs s)) r u (p_precs s) E W eq_refl L F R) as (v & k & G & Hk & f & v0 & s0 & N0 & F0 & K0).
  exists v. split; [exact G|]. cbn [parse_expression]. unfold expression_body.
  unfold bind at 1. rewrite (skip_newlines_start s t (l ++ u :: r)); [|rewrite E, Et; reflexivity|exact Hs].
  unfold bind at 1, push_prec at 1. unfold bind at 1, cty at 1.
  change (PState (p_prev s) (p_rest s) (p :: p_precs s) (p_depth s) (p_locals s) (p_file s)) with (with_precs s (p :: p_precs s)).
  rewrite N0. unfold bind at 1. rewrite F0. unfold bind at 1.
  assert (B : (k < m + m + 2)%nat).
  { rewrite E, (weight_text e _ Hw) in W. cbn [weight] in W. lia. }
  pose proof (rounds_mloop _ _ _ _ _ _ _ _ _ K0 (S (m + m + 1 - k))) as Q.
  replace (k + S (m + m + 1 - k))%nat with (m + m + 2)%nat in Q by lia. rewrite Q. cbn [mloop]. unfold bind at 1.
  destruct G as (G1 & G2 & G3).
  rewrite (step_stops _ _ _ _ v _ u r); [reflexivity|auto using plain_key..].
Qed.

Lemma cstr_id s : ~ In 0 s -> cstr s = s.
Proof.
  induction s as [|c s IH]; [reflexivity|]. cbn [cstr In]. intros H. destruct (c =? 0) eqn:E; [apply N.eqb_eq in E; tauto|].
  rewrite IH; tauto.
Qed.

Lemma spine_leaf m t : well_formed (E_leaf t) -> Spine m (E_leaf t).
Proof.
  intros [Hl Hn] p ia s r u ps E W P L F R. cbn [text app] in E.
  exists (leaf (p_locals s) t), 0%nat.
  assert (G : good (p_locals s) (E_leaf t) (leaf (p_locals s) t)).
  { unfold good, leaf. cbn [meaning number]. unfold leaf. destruct (ty t); try discriminate; auto. }
  split; [exact G|]. split; [cbn; lia|].
  unfold reaches. cbn [text]. 
  assert (C : current s = t) by (unfold current; rewrite E; reflexivity). rewrite C.
  assert (U : match ty u with T_Complex | T_Rational | T_RationalComplex => False | _ => True end)
    by (unfold follows in F; destruct (ty u); try discriminate; exact I).
  unfold leaf.
  destruct (ty t) eqn:T; try discriminate;
  cbn [null_denotation]; do 3 eexists; (split; [reflexivity|]); (split; [|apply rounds_0]);
  unfold parse_identifier, parse_bool, parse_nil, parse_self, parse_lit, bind, cur; rewrite C;
  try (destruct Hn as (nm & Hn & Hz); [reflexivity|]; rewrite Hn);
  rewrite ?T; unfold is_local, get_locals, advance, bind, ret, cty, literal_string;
  rewrite ?E; cbn [p_rest p_locals p_prev hd current]; rewrite ?Hn, ?(cstr_id _ Hz); 
  try reflexivity; unfold ret, current; cbn [hd p_rest]; destruct (ty u); try destruct U; reflexivity.
Qed.

Lemma bind_eq A B (m : M A) (k : A -> M B) s a s' : m s = POk a s' -> bind m k s = k a s'.
Proof. intros E. unfold bind. rewrite E. reflexivity. Qed.
Lemma advance_eq s t l : p_rest s = t :: l -> advance s = POk tt (moved s [t] l).
Proof. intros E. unfold advance. rewrite E. reflexivity. Qed.
Lemma current_eq s t l : p_rest s = t :: l -> current s = t.
Proof. intros E. unfold current. rewrite E. reflexivity. Qed.
Lemma moved_moved s a r b r' : moved (moved s a r) b r' = moved s (a ++ b) r'.
Proof. unfold moved. cbn [p_prev p_precs p_depth p_locals p_file]. rewrite rev_app_distr, app_assoc. reflexivity. Qed.
Ltac runc := match goal with |- bind ?m ?k ?s = _ => first [rewrite (bind_eq _ _ m k s _ _ eq_refl) | erewrite (bind_eq _ _ m k s)] end.

Lemma starts_ok t : starts t = true ->
  is_eof t = false /\ ttype_eqb t T_RParen = false /\ is_end_of_line t = false /\
  (match t with T_Invalid | T_InvalidUnicodeEscape | T_InvalidCharacterEscape | T_UnterminatedRegexp
   | T_UnterminatedString | T_UnterminatedWordArray => False | _ => type_value t <> None end).
Proof. unfold starts. destruct t; try discriminate; intros _; repeat split; discriminate. Qed.
Lemma validate_start s t l : p_rest s = t :: l -> starts (ty t) = true -> validate_current_token s = POk tt s.
Proof.
  intros E H. unfold validate_current_token, bind, cur. rewrite (current_eq _ _ _ E).
  unfold starts in H. destruct (ty t); try discriminate; reflexivity.
Qed.

Lemma ledge_low e : well_formed e -> ledge (fun l => 0 <? l) e = true.
Proof.
  induction e as [t|o e IH c|t e IH|l IHl t r IHr]; cbn [well_formed]; intros H; try reflexivity.
  unfold ledge. cbn [left_edge]. apply andb_true_iff. destruct H as (Ht & Hl & _). split; [|apply IHl, Hl].
  destruct (ty t); try discriminate; reflexivity.
Qed.
Lemma redge_low e x : x = 0 -> redge (fun y => x <=? y) e = true.
Proof.
  intros ->. unfold redge. induction e as [t|o e IH c|t e IH|l IHl t r IHr]; cbn [right_edge]; try reflexivity;
    apply andb_true_iff; (split; [apply N.leb_le, N.le_0_l|auto]).
Qed.

Lemma spine_paren m o e c : well_formed (E_paren o e c) -> Main m e -> Spine m (E_paren o e c).
Proof.
  intros (Ho & Hc & He) HM p ia s r u ps E W P L F R. cbn [text] in *.
  rewrite <- app_comm_cons, <- app_assoc in E. cbn [app] in E.
  destruct (text_cons e) as (t & l & Et). pose proof (text_starts e t l He Et) as Hst.
  destruct (starts_ok _ Hst) as (S1 & S2 & S3 & S4).
  set (s1 := moved s [o] (text e ++ c :: u :: r)).
  assert (E1 : p_rest s1 = t :: l ++ c :: u :: r) by (unfold s1; cbn [moved p_rest]; rewrite Et; reflexivity).
  set (s2 := with_depth s1 (0 :: p_depth s1)).
  assert (W1 : (weight (p_rest s2) < m)%nat).
  { unfold s2, s1. cbn [with_depth moved p_rest]. rewrite E in W. cbn [weight] in W. unfold weight1 in W at 1.
    rewrite Ho in W. cbn [is_end_of_line] in W. lia. }
  destruct (HM LOWEST IA_CURLY_AND_BLOCK s2 (u :: r) c eq_refl W1) as (v & G & X).
  - apply ledge_low, He.
  - rewrite Hc. reflexivity.
  - apply redge_low. rewrite Hc. reflexivity.
  - rewrite Hc. cbn. lia.
  - exists v, 0%nat. split; [exact G|]. split; [apply Nat.le_0_l|].
    exists (parse_group (parse_expression m) (m + m + 2)), v, (moved s (o :: text e ++ [c]) (u :: r)).
    split; [rewrite (current_eq _ _ _ E), Ho; reflexivity|]. split; [|apply rounds_0].
    unfold parse_group. rewrite (bind_eq _ _ cur _ s _ _ eq_refl).
    rewrite (bind_eq _ _ advance _ s _ _ (advance_eq _ _ _ E)). fold s1.
    rewrite (bind_eq _ _ (cur_is T_RParen) _ s1 false s1);
      [|unfold cur_is; rewrite (current_eq _ _ _ E1), S2; reflexivity].
    set (s3 := moved s2 (text e) (c :: u :: r)) in *.
    set (s4 := moved s1 (text e) (c :: u :: r)).
    assert (B : parse_body_to (parse_expression m) (m + m + 2) T_RParen s1 = POk (t, [v]) s4).
    { unfold parse_body_to, body_with. rewrite (bind_eq _ _ (push_depth 0) _ s1 tt s2); [|reflexivity].
      rewrite (bind_eq _ _ cur _ s2 t s2); [|unfold cur, current; fold s2; change (p_rest s2) with (p_rest s1); rewrite E1; reflexivity].
      rewrite (bind_eq _ _ validate_current_token _ s2 tt s2); [|apply (validate_start s2 t (l ++ c :: u :: r)); auto].
      rewrite (bind_eq _ _ skip_newlines _ s2 tt s2); [|apply (skip_newlines_start s2 t (l ++ c :: u :: r)); auto].
      replace (m + m + 2)%nat with (S (m + m + 1)) by lia. cbn [mloop].
      match goal with |- bind ?b _ _ = _ => assert (Y : b s2 = POk (inr (t, [v])) s4) end.
      { rewrite (bind_eq _ _ cty _ s2 (ty t) s2);
          [|unfold cty, current; change (p_rest s2) with (p_rest s1); rewrite E1; reflexivity].
        rewrite S1, S2. cbn [orb]. replace (S (m + m + 1)) with (m + m + 2)%nat by lia. unfold pexpr.
        rewrite (bind_eq _ _ (parse_expression m LOWEST IA_CURLY_AND_BLOCK) _ s2 _ _ X).
        rewrite (bind_eq _ _ cty _ s3 (ty c) s3); [|reflexivity]. rewrite Hc. cbn [ttype_eqb]. reflexivity. }
      rewrite (bind_eq _ _ _ _ _ _ _ Y). reflexivity. }
    rewrite (bind_eq _ _ _ _ _ _ _ B). cbv zeta.
    rewrite (bind_eq _ _ (expect T_RParen _) _ s4 tt s4); [|unfold expect, bind, cty; cbn; rewrite Hc; reflexivity].
    rewrite (bind_eq _ _ advance _ s4 tt (moved s4 [c] (u :: r))); [|reflexivity].
    rewrite (bind_eq _ _ (cur_is T_Equal) _ _ false (moved s4 [c] (u :: r)));
      [|unfold cur_is; cbn; unfold follows in F; destruct (ty u); try discriminate; reflexivity].
    cbn [andb]. destruct G as (_ & G2 & _). unfold ret. f_equal.
    + destruct v; try discriminate; reflexivity.
    + unfold s4, s1. rewrite !moved_moved. reflexivity.
Qed.

Lemma spine_unary m t e : well_formed (E_unary t e) -> ledge (fun l => un_level (ty t) <? l) e = true ->
  Main m e -> Spine m (E_unary t e).
Proof.
  intros (Ht & He & Hn) Hg HM p ia s r u ps E W P L F R. cbn [text] in *. rewrite <- app_comm_cons in E.
  unfold redge in R. cbn [right_edge] in R. apply andb_true_iff in R. destruct R as [R1 R2].
  set (s1 := moved s [t] (text e ++ u :: r)).
  assert (W1 : (weight (p_rest s1) < m)%nat).
  { unfold s1. cbn [moved p_rest]. rewrite E in W. cbn [weight] in W. unfold weight1 in W at 1.
    assert (X : is_end_of_line (ty t) = false) by (destruct (ty t); try discriminate; reflexivity). rewrite X in W. clear - W. lia. }
  destruct (HM (un_level (ty t)) IA_CURLY_AND_BLOCK s1 r u eq_refl W1 Hg F R2 (proj1 (N.leb_le _ _) R1)) as (v & (G1 & G2 & G3) & X).
  rewrite <- (unary_precedence _ Ht) in X.
  assert (Y : moved s1 (text e) (u :: r) = moved s (t :: text e) (u :: r)) by (unfold s1; rewrite moved_moved; reflexivity).
  rewrite Y in X.
  destruct (is_sign (ty t) || ttype_eqb (ty t) T_Tilde) eqn:K.
  - exists (N_UnaryOp t (s2l (unary_name (ty t))) v), 0%nat. split.
    { split; [|auto]. cbn [node_tree meaning]. rewrite G1. destruct (ty t); try discriminate; reflexivity. }
    split; [apply Nat.le_0_l|].
    exists (parse_unary_operator (parse_expression m)), (N_UnaryOp t (s2l (unary_name (ty t))) v), (moved s (t :: text e) (u :: r)).
    split; [rewrite (current_eq _ _ _ E); destruct (ty t); try discriminate; reflexivity|]. split; [|apply rounds_0].
    unfold parse_unary_operator. rewrite (bind_eq _ _ cur _ s t s); [|unfold cur; rewrite (current_eq _ _ _ E); reflexivity].
    rewrite (bind_eq _ _ advance _ s _ _ (advance_eq _ _ _ E)). fold s1. unfold pexpr.
    rewrite (bind_eq _ _ _ _ _ _ _ X). cbv zeta. rewrite G3.
    generalize (moved s (t :: text e) (u :: r)). intros s'.
    assert (Z : (ttype_eqb (ty t) T_Minus || ttype_eqb (ty t) T_Plus) && number e = false).
    { destruct (ttype_eqb (ty t) T_Minus || ttype_eqb (ty t) T_Plus) eqn:Q; [|reflexivity]. apply Hn. destruct (ty t); try discriminate; reflexivity. }
    rewrite Z. clear - K. destruct (ty t); try discriminate K; reflexivity.
  - exists (N_Not t v), 0%nat. split.
    { split; [|auto]. cbn [node_tree meaning]. rewrite G1. destruct (ty t); try discriminate; reflexivity. }
    split; [apply Nat.le_0_l|].
    exists (parse_not (parse_expression m)), (N_Not t v), (moved s (t :: text e) (u :: r)).
    split; [rewrite (current_eq _ _ _ E); destruct (ty t); try discriminate; reflexivity|]. split; [|apply rounds_0].
    unfold parse_not. rewrite (bind_eq _ _ cur _ s t s); [|unfold cur; rewrite (current_eq _ _ _ E); reflexivity].
    rewrite (bind_eq _ _ advance _ s _ _ (advance_eq _ _ _ E)). fold s1. unfold pexpr.
    rewrite (bind_eq _ _ _ _ _ _ _ X). reflexivity.
Qed.

Lemma left_binary expr fuel t pk v p : is_binary (ty t) = true ->
  (is_sign (ty t) = true -> tk_ws t = true -> tk_ws pk = true) ->
  left_denotation expr fuel t pk v p =
  Some (match ty t with
        | T_AmpersandAmpersand | T_AndKeyword | T_OrKeyword | T_PipePipe => parse_logical_expression expr
        | _ => parse_infix_expression expr end).
Proof.
  intros H K. unfold left_denotation. cbv zeta.
  destruct (ty t); try discriminate H;
    lazymatch goal with
    | |- (if _ then _ else _) = _ => destruct (tk_ws t); [rewrite (K eq_refl eq_refl)|]; reflexivity
    | |- _ => reflexivity
    end.
Qed.

Lemma spine_binary m l t r : well_formed (E_binary l t r) ->
  redge (fun x => bin_level (ty t) <=? x) l = true -> ledge (fun x => bin_level (ty t) <? x) r = true ->
  Spine m l -> Main m r -> Spine m (E_binary l t r).
Proof.
  intros (Ht & Hl & Hr & Hws) Hrl Hlr HS HM p ia s rest u ps E W P L F R. cbn [text] in *.
  rewrite <- app_assoc, <- app_comm_cons in E.
  unfold redge in R. cbn [right_edge] in R. apply andb_true_iff in R. destruct R as [R1 R2].
  unfold ledge in L. cbn [left_edge] in L. apply andb_true_iff in L. destruct L as [L1 L2].
  assert (Ft : follows (ty t) = true) by (unfold follows; rewrite Ht; reflexivity).
  destruct (HS p ia s (text r ++ u :: rest) t ps E W P L2 Ft Hrl) as (a & k & (A1 & A2 & A3) & Hk & f & v0 & s0 & N0 & F0 & K0).
  set (s1 := moved s (text l) (t :: text r ++ u :: rest)) in *.
  set (s2 := moved s1 [t] (text r ++ u :: rest)).
  assert (W2 : (weight (p_rest s2) < m)%nat).
  { unfold s2. cbn [moved p_rest]. rewrite E in W. rewrite (weight_text l _ Hl) in W. cbn [weight] in W.
    destruct (text_cons l) as (x & y & El). rewrite El in W. cbn [length] in W. clear - W. lia. }
  destruct (HM (bin_level (ty t)) IA_CURLY_AND_BLOCK s2 rest u eq_refl W2 Hlr F R2 (proj1 (N.leb_le _ _) R1)) as (b & (B1 & B2 & B3) & X).
  set (s3 := moved s2 (text r) (u :: rest)) in *.
  assert (S3 : s3 = moved s (text l ++ t :: text r) (u :: rest)).
  { unfold s3, s2, s1. rewrite !moved_moved. rewrite <- ?app_assoc; reflexivity. }
  set (v := match ty t with
            | T_AmpersandAmpersand | T_AndKeyword => make_and t a b
            | T_PipePipe | T_OrKeyword => make_or t a b
            | x => N_InfixOp t a (s2l (operator_name x)) b end).
  assert (Z : match ty t with
        | T_AmpersandAmpersand | T_AndKeyword | T_OrKeyword | T_PipePipe => parse_logical_expression (parse_expression m)
        | _ => parse_infix_expression (parse_expression m) end a s1 = POk v s3).
  { assert (C : cur s1 = POk t s1) by reflexivity.
    assert (D : advance s1 = POk tt s2) by reflexivity.
    assert (PI : parse_infix_expression (parse_expression m) a s1 =
                 match type_value (ty t) with Some o => POk (N_InfixOp t a o b) s3 | None => PCrash PNull end).
    { unfold parse_infix_expression. rewrite (bind_eq _ _ _ _ _ _ _ C), (bind_eq _ _ _ _ _ _ _ D).
      unfold pexpr. rewrite (follow_precedence t a Ft). rewrite (bind_eq _ _ _ _ _ _ _ X).
      unfold bind, type_name. destruct (type_value (ty t)); reflexivity. }
    assert (PL : parse_logical_expression (parse_expression m) a s1 =
      match ty t with
      | T_AmpersandAmpersand | T_AndKeyword => POk (make_and t a b) s3
      | T_PipePipe | T_OrKeyword => POk (make_or t a b) s3
      | _ => PCrash (PUnreachable "parser.cpp:2561") end).
    { unfold parse_logical_expression. rewrite (bind_eq _ _ _ _ _ _ _ C). unfold pexpr.
      destruct (ty t); try reflexivity; rewrite (bind_eq _ _ _ _ _ _ _ D); cbn [bin_level] in X;
        rewrite (bind_eq _ _ _ _ _ _ _ X); reflexivity. }
    unfold v. clear HS HM.
    destruct (ty t); try discriminate; rewrite ?PI, ?PL; reflexivity. }
  exists v, (S k). split; [|split].
  - unfold v, good. cbn [meaning number]. unfold meaning_of.
    assert (B1' : node_tree b = meaning (p_locals s) r) by exact B1.
    destruct (ty t); try discriminate; rewrite ?make_and_tree, ?make_or_tree, ?make_and_plain, ?make_or_plain, ?make_and_number, ?make_or_number;
      cbn [node_tree plain is_numeric]; rewrite ?A1, ?B1'; auto.
  - rewrite app_length. cbn [length]. clear - Hk. lia.
  - exists f, v0, s0. split; [exact N0|]. split; [exact F0|]. rewrite <- S3. eapply rounds_S; [exact K0|].
    unfold expression_step. rewrite (bind_eq _ _ cur _ s1 t s1); [|reflexivity].
    assert (V : is_valid (ty t) = true) by (destruct (ty t); try discriminate; reflexivity). rewrite V. cbn [negb].
    rewrite (bind_eq _ _ (higher_precedence t a p ia) _ s1 true s1).
    2:{ unfold higher_precedence. rewrite (plain_key _ A2), (follow_precedence _ _ Ft), L1.
        destruct (ty t); try discriminate; reflexivity. }
    cbn [negb]. rewrite (bind_eq _ _ peek _ s1 (nth 1 (p_rest s1) no_token) s1); [|reflexivity].
    rewrite (left_binary _ _ t _ a p Ht).
    2:{ intros Y1 Y2. specialize (Hws Y1 Y2). unfold s1. cbn [moved p_rest nth].
        destruct (text_cons r) as (x & y & Er). rewrite Er in *. exact Hws. }
    rewrite (bind_eq _ _ _ _ _ _ _ Z).
    assert (P3 : p_precs s3 = p :: ps) by exact P.
    rewrite (bind_eq _ _ pop_prec _ s3 tt (with_precs s3 ps)); [|unfold pop_prec; rewrite P3; reflexivity].
    rewrite (bind_eq _ _ (push_prec p) _ _ tt s3); [reflexivity|].
    unfold push_prec, with_precs. cbn [p_prev p_rest p_precs p_depth p_locals p_file]. f_equal.
    destruct s3; cbn in *; subst; reflexivity.
Qed.

Theorem expressions_parsed e : well_formed e -> parser_grouped e = true -> forall n, Main n e.
Proof.
  assert (K : well_formed e -> parser_grouped e = true -> forall m, Spine m e).
  { induction e as [t|o e IH c|t e IH|l IHl t r IHr]; intros Hw Hg; unfold parser_grouped in Hg; cbn [grouped] in Hg.
    - intros m. apply spine_leaf, Hw.
    - intros m. apply spine_paren; [exact Hw|]. destruct m as [|m]; [intros ? ? ? ? ? ? W; lia|].
      apply main_of_spine; [apply Hw|apply IH; [apply Hw|exact Hg]].
    - apply andb_true_iff in Hg. destruct Hg as [Hg1 Hg2]. intros m. apply spine_unary; [exact Hw|exact Hg2|].
      destruct m as [|m]; [intros ? ? ? ? ? ? W; lia|]. apply main_of_spine; [apply Hw|apply IH; [apply Hw|exact Hg1]].
    - rewrite !andb_true_iff in Hg. destruct Hg as [[[Hg1 Hg2] Hg3] Hg4]. intros m.
      apply spine_binary; [exact Hw|exact Hg3|exact Hg4|apply IHl; [apply Hw|exact Hg1]|].
      destruct m as [|m]; [intros ? ? ? ? ? ? W; lia|]. apply main_of_spine; [apply Hw|apply IHr; [apply Hw|exact Hg2]]. }
  intros Hw Hg n. destruct n as [|n]; [intros ? ? ? ? ? ? W; lia|]. apply main_of_spine; auto.
Qed.

(** ** Ruby's table *)
Lemma right_edge_imp e : well_formed e -> forall (f g : N -> bool),
  (forall t, is_binary t = true -> f (ruby_level t) = true -> g (bin_level t) = true) ->
  (forall t, is_unary t = true -> f (ruby_unary t) = true -> g (un_level t) = true) ->
  right_edge ruby_level ruby_unary f e = true -> redge g e = true.
Proof.
  intros Hw f g Hb Hu. unfold redge. induction e as [t|o e IH c|t e IH|l IHl t r IHr]; cbn [right_edge well_formed] in *; auto;
    rewrite !andb_true_iff; intros [H1 H2]; split; firstorder.
Qed.
Lemma left_edge_imp e : well_formed e -> forall (f g : N -> bool) (p : ttype -> bool), on_left p e = false ->
  (forall t, is_binary t = true -> p t = false -> f (ruby_level t) = true -> g (bin_level t) = true) ->
  left_edge ruby_level f e = true -> ledge g e = true.
Proof.
  intros Hw f g p Hp Hb. unfold ledge. induction e as [t|o e IH c|t e IH|l IHl t r IHr]; cbn [left_edge well_formed on_left] in *; auto.
  apply orb_false_iff in Hp. rewrite !andb_true_iff. intros [H1 H2]; split; firstorder.
Qed.
Lemma on_left_none e : on_left (fun _ => false) e = false.
Proof. induction e; cbn; auto. Qed.

Theorem ruby_parser_grouped e : well_formed e -> ruby_grouped e = true -> unexceptional e = true -> parser_grouped e = true.
Proof.
  unfold ruby_grouped, parser_grouped.
  induction e as [t|o e IH c|t e IH|l IHl t r IHr]; cbn [grouped well_formed unexceptional]; intros Hw Hg Hu; auto.
  - apply IH; tauto.
  - apply andb_true_iff in Hg, Hu. destruct Hg as [Hg1 Hg2], Hu as [Hu1 Hu2], Hw as (Ht & He & _).
    rewrite IH by assumption. cbn [andb].
    eapply (left_edge_imp e He _ _ (if ttype_eqb (ty t) T_NotKeyword then is_logical else fun _ => false)); [| |exact Hg2].
    + destruct (ttype_eqb (ty t) T_NotKeyword); [apply negb_true_iff, Hu2|apply on_left_none].
    + intros x Hx. destruct (ty t); try discriminate Ht; destruct x; try discriminate Hx; try discriminate; reflexivity.
  - rewrite !andb_true_iff in Hg, Hu. destruct Hg as [[[Hg1 Hg2] Hg3] Hg4], Hu as [[[Hu1 Hu2] Hu3] Hu4], Hw as (Ht & Hl & Hr & _).
    rewrite IHl, IHr by assumption. cbn [andb]. apply andb_true_iff. split.
    + eapply (right_edge_imp l Hl); [| |exact Hg3].
      * intros x Hx. destruct (ty t); try discriminate Ht; destruct x; try discriminate Hx; try discriminate; reflexivity.
      * intros x Hx. destruct (ty t); try discriminate Ht; destruct x; try discriminate Hx; try discriminate; reflexivity.
    + eapply (left_edge_imp r Hr _ _ (if ttype_eqb (ty t) T_StarStar then (fun x => ttype_eqb x T_StarStar)
                                      else if ttype_eqb (ty t) T_Comparison then is_comparison else fun _ => false)); [| |exact Hg4].
      * destruct (ttype_eqb (ty t) T_StarStar); [apply negb_true_iff, Hu3|].
        destruct (ttype_eqb (ty t) T_Comparison); [apply negb_true_iff, Hu4|apply on_left_none].
      * intros x Hx. destruct (ty t); try discriminate Ht; destruct x; try discriminate Hx; try discriminate; reflexivity.
Qed.

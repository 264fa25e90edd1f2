(** * ParseSafeH: the denotations, [parse_expression] and [tree] *)
From Coq Require Import Strings.String NArith ZArith Bool List Lia.
From Coq Require Import ZifyBool ZifyNat ZifyN.
From Verif Require Import Base Token Node ParserBase ParserModel ParseHoare ParseNodes ParseTac ParseSafeA ParseSafeB
  ParseSafeC ParseSafeD ParseSafeE ParseSafeF ParseSafeG.
Import ListNotations.
Open Scope N_scope.
Open Scope list_scope.
Open Scope monad_scope.

Definition is_splat (n : node) : bool := match n with N_Splat _ _ => true | _ => false end.

Section Safe.
Variable expr : N -> iter_allow -> M node.
Variables fuel bound : nat.
Context {HE : ExprOK expr bound} {HF : FuelOK bound fuel}.

Lemma null_denotation_ok : forall t f, null_denotation expr fuel t = Some f ->
  Spec f (fun s => inv s /\ (W s <= bound)%nat /\ ty (current s) = t) (post_lt expr_node).
Proof.
  intros t f E s Hs. clean.
  destruct t; try discriminate E; injection E as <-.
  all: wstep; repeat match goal with H : str_key _ |- _ => destruct H end; post.
Qed.

(** What every left denotation does. *)
Definition left_post (lhs : node) (s : pstate) (n : node) (s' : pstate) : Prop :=
  le_ext s s' /\ expr_node n /\
  ((W s' < W s)%nat \/ (is_splat lhs = true /\ is_splat n = false /\ W s' = W s)).

Lemma first_arg_type : forall n t, is_first_arg_of_call_without_parens n t = true -> no_arg_type (ty t) = false.
Proof.
  intros n t H. unfold is_first_arg_of_call_without_parens in H. apply andb_prop in H. destruct H as [_ H].
  destruct (ty t); try discriminate H; reflexivity.
Qed.

Ltac led lem :=
  eapply wp_use; [eapply lem; inst|side|cbv beta; intros; clean; unfold left_post; split; [ext|split; [nodes|left; lia]]].

Lemma left_denotation_ok : forall pk lhs p f s,
  inv s -> (W s < bound)%nat -> expr_node lhs ->
  left_denotation expr fuel (current s) pk lhs p = Some f ->
  wp (f lhs) (left_post lhs s) s.
Proof.
  intros pk lhs p f s Hi Hw Hl E. unfold left_denotation in E. unfold left_post.
  assert (Ho : forall g, (if is_first_arg_of_call_without_parens lhs (current s)
                 then Some (parse_call_expression_without_parens expr fuel) else None) = Some g ->
               wp (g lhs) (left_post lhs s) s).
  { intros g Eg. destruct (is_first_arg_of_call_without_parens lhs (current s)) eqn:Ef; [|discriminate].
    apply first_arg_type in Ef. injection Eg as <-.
    led parse_call_expression_without_parens_ok. }
  destruct (ty (current s)) eqn:Ety; try exact (Ho _ E); try discriminate E;
    repeat match type of E with (if ?b then _ else _) = _ => destruct b eqn:? end;
    try exact (Ho _ E); injection E as <-.
  all: lazymatch goal with
    | |- wp (parse_infix_expression _ _) _ _ => led parse_infix_expression_ok
    | |- wp (parse_op_assign_expression _ _) _ _ => led parse_op_assign_expression_ok
    | |- wp (parse_logical_expression _ _) _ _ => led parse_logical_expression_ok
    | |- wp (parse_modifier_expression _ _) _ _ => led parse_modifier_expression_ok
    | |- wp (parse_range_expression _ _) _ _ => led parse_range_expression_ok
    | |- wp (parse_match_expression _ _) _ _ => led parse_match_expression_ok
    | |- wp (parse_not_match_expression _ _) _ _ => led parse_not_match_expression_ok
    | |- wp (parse_iter_expression _ _ _) _ _ => led parse_iter_expression_ok
    | |- wp (parse_ref_expression _ _ _) _ _ => led parse_ref_expression_ok
    | |- wp (parse_rescue_expression _ _) _ _ => led parse_rescue_expression_ok
    | |- wp (parse_ternary_expression _ _) _ _ => led parse_ternary_expression_ok
    | |- wp (parse_safe_send_expression _) _ _ => led parse_safe_send_expression_ok
    | |- wp (parse_proc_call_expression _) _ _ => led parse_proc_call_expression_ok
    | |- wp (parse_send_expression _) _ _ => led parse_send_expression_ok
    | |- wp (parse_call_expression_with_parens _ _ _) _ _ => led parse_call_expression_with_parens_ok
    | |- wp (parse_call_expression_without_parens _ _ _) _ _ => led parse_call_expression_without_parens_ok
    | |- wp (parse_constant_resolution_expression _ _ _) _ _ => led parse_constant_resolution_expression_ok
    | |- _ => idtac end.
  - eapply wp_use; [eapply parse_multiple_assignment_expression_ok; inst|side|]. cbv beta. intros; clean.
    split; [ext|split; [nodes|left]]. auto.
  - eapply wp_use; [eapply parse_assignment_expression_ok; inst|side|]. cbv beta. intros; clean.
    split; [ext|split; [nodes|]]. match goal with H : _ \/ _ |- _ => destruct H as [?|(? & ? & ? & ? & ? & -> & ->)] end; [left; lia|].
    destruct (Nat.eq_dec (W s') (W s)); [right; auto|left; lia].
  - eapply wp_use; [eapply parse_assignment_expression_ok; inst|side|]. cbv beta. intros; clean.
    split; [ext|split; [nodes|]]. match goal with H : _ \/ _ |- _ => destruct H as [?|(? & ? & ? & ? & ? & -> & ->)] end; [left; lia|].
    destruct (Nat.eq_dec (W s') (W s)); [right; auto|left; lia].
Qed.

Lemma expression_step_ok : forall p ia lhs s ps,
  inv s -> (W s < bound)%nat -> expr_node lhs -> p_precs s = p :: ps ->
  wp (expression_step expr fuel p ia lhs)
    (fun r s' => inv s' /\ (W s' <= W s)%nat /\ p_precs s' = p :: ps /\ (D s <= D s')%nat /\
       match r with
       | inl n => expr_node n /\ ((W s' < W s)%nat \/ (is_splat lhs = true /\ is_splat n = false /\ W s' = W s))
       | inr n => expr_node n
       end) s.
Proof.
  intros p ia lhs s ps Hi Hw Hl Hp. unfold expression_step. do 2 wstep.
  wstep; [wstep; post|]. wstep. apply wp_higher_precedence; [assumption|]. intros b.
  wstep; [wstep; post|]. do 2 wstep.
  destruct (left_denotation expr fuel (current s) (nth 1 (p_rest s) no_token) lhs p) as [f|] eqn:El; [|wstep].
  wstep. eapply wp_mono; [eapply left_denotation_ok; eassumption|]. unfold left_post. intros n s1 ?. clean.
  wstep. eapply wp_pop_prec; [assumption|etransitivity; eassumption|]. intros. do 3 wstep.
  repeat (split; [solve [assumption|lia|congruence]|]).
  match goal with H : _ \/ _ |- _ => destruct H as [?|(? & ? & ?)] end; [left; lia|right]. repeat split; auto; lia.
Qed.

Lemma expression_body_ok : forall p ia, (bound + bound + 1 < fuel)%nat ->
  Spec (expression_body expr fuel p ia) (fun s => inv s /\ (W s <= bound)%nat) (post_lt expr_node).
Proof.
  intros p ia Hf. begin expression_body. do 6 wstep.
  destruct (null_denotation expr fuel _) as [f|] eqn:En; [|wstep].
  wstep. eapply wp_use; [eapply null_denotation_ok; exact En|side|].
  cbv beta. intros lhs s2 ?. clean. wstep.
  eapply wp_mono with (P := fun n s3 => inv s3 /\ (W s3 <= W s2)%nat /\ p_precs s3 = p :: p_precs s /\
     (D s2 <= D s3)%nat /\ expr_node n).
  - apply wp_loop with
      (Inv := fun n s3 => inv s3 /\ (W s3 <= W s2)%nat /\ p_precs s3 = p :: p_precs s /\
              (D s2 <= D s3)%nat /\ expr_node n)
      (mu := fun n s3 => (2 * W s3 + (if is_splat n then 1 else 0))%nat).
    + intros n s3 ?. clean. eapply wp_mono; [eapply expression_step_ok with (ps := p_precs s); [assumption|lia|assumption|assumption]|].
      cbv beta. intros [m|m] s4 ?; clean.
      * split; [repeat (split; [solve [assumption|lia|congruence]|]); assumption|].
        match goal with H : _ \/ _ |- _ => destruct H as [?|(E1 & E2 & ?)] end;
          [destruct (is_splat m), (is_splat n); lia|rewrite E1, E2; lia].
      * repeat (split; [solve [assumption|lia|congruence]|]); assumption.
    + repeat (split; [solve [assumption|lia|congruence]|]); assumption.
    + destruct (is_splat lhs); lia.
  - cbv beta. intros; clean. wstep. eapply wp_pop_prec; [assumption|eassumption|]. intros. wstep. post.
Qed.
End Safe.

Theorem parse_expression_ok : forall n, ExprOK (parse_expression n) n.
Proof.
  induction n as [|n IH]; intros p ia s Hs; clean; [lia|].
  cbn [parse_expression].
  assert (HF : FuelOK n (n + n + 2)) by (unfold FuelOK; lia).
  eapply wp_use; [eapply (expression_body_ok (parse_expression n) (n + n + 2) n); lia|cbv beta; split; [assumption|lia]|].
  auto.
Qed.

Theorem tree_ok : forall n, Spec (tree n) (fun s => inv s /\ (W s < n)%nat) (post_le expr_node).
Proof.
  intros n. begin tree. pose proof (parse_expression_ok n) as HE. do 9 wstep.
  match goal with |- wp _ _ ?x => eapply wp_mono with (P := fun l s3 => le_ext x s3 /\ Forall expr_node l) end.
  { match goal with |- wp _ _ ?x => loop (fun (l : list node) s' => le_ext x s' /\ Forall expr_node l); [|post|lia] end.
    intros l s1 ?. clean. go; post. }
  cbv beta. intros; clean. go; post.
Qed.

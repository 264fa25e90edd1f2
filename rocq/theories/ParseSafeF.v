(** * ParseSafeF: arguments, blocks, conditionals and loops *)
From Coq Require Import Strings.String NArith ZArith Bool List Lia.
From Coq Require Import ZifyBool ZifyNat ZifyN.
From Verif Require Import Base Token Node ParserBase ParserModel ParseHoare ParseNodes ParseTac ParseSafeA ParseSafeB
  ParseSafeC ParseSafeD ParseSafeE.
Import ListNotations.
Open Scope N_scope.
Open Scope list_scope.
Open Scope monad_scope.

Lemma keyword_facts : forall t, is_keyword t = true -> terminal t = false /\ is_valid t = true.
Proof. intros t; destruct t; intros H; try discriminate H; split; reflexivity. Qed.

Section Safe.
Variable expr : N -> iter_allow -> M node.
Variables fuel bound : nat.
Context {HE : ExprOK expr bound} {HF : FuelOK bound fuel}.

Lemma arg_default_value_ok : forall n ia,
  Spec (arg_default_value expr n ia) (fun s => inv s /\ (W s < n)%nat /\ (W s < bound)%nat) (post_lt expr_node).
Proof.
  induction n as [|n IH]; intros ia s Hs; clean; [lia|].
  cbn [arg_default_value]. do 5 wstep; [|wstep; post].
  do 8 wstep. wstep. eapply wp_use; [apply IH|side; lia|]. cbv beta. intros; clean. go; post.
Qed.

Global Instance parse_arg_default_value_ok : forall ia,
  Spec (parse_arg_default_value expr fuel ia) (pre_lt bound) (post_lt expr_node).
Proof.
  intros ia. begin parse_arg_default_value. pose proof (fuel_lt fuel bound).
  eapply wp_use; [apply arg_default_value_ok|side; lia|]. auto.
Qed.

Lemma args_loop_ok : forall item b args,
  (forall acc, Forall arg_node acc ->
     Spec (item acc) (fun s => inv s /\ (W s < b)%nat /\ (W s < bound)%nat) (post_lt (Forall arg_node))) ->
  Forall arg_node args ->
  Spec (mloop fuel
          (fun acc =>
             b <- cur_is T_Comma ;;
             if b then advance ;;; acc <- item acc ;; ret (inl acc) else ret (inr acc)) args)
    (fun s => inv s /\ (W s <= b)%nat /\ (W s <= bound)%nat) (post_le (Forall arg_node)).
Proof.
  intros item b args Hi Ha s Hs. clean. pose proof (fuel_lt fuel bound).
  loop (fun (l : list node) s' => le_ext s s' /\ Forall arg_node l); [|post|lia].
  intros l s1 Hs1. clean. do 3 wstep; [|solve [go; post]].
  do 2 wstep. wstep. eapply wp_use; [apply Hi; assumption|side; lia|]. cbv beta. intros; clean. go; post.
Qed.

Lemma def_single_arg_ok : forall n ctx ia args, Forall arg_node args ->
  Spec (def_single_arg expr fuel n ctx ia args)
    (fun s => inv s /\ (W s < n)%nat /\ (W s <= bound)%nat) (post_lt (Forall arg_node)).
Proof.
  induction n as [|n IH]; intros ctx ia args Ha s Hs; clean; [lia|].
  cbn [def_single_arg]. do 3 wstep.
  eapply wp_mono with (P := fun _ s1 => s1 = s).
  { destruct (last_arg args) as [[]|]; go; auto. }
  cbv beta. intros _ s1 ->.
  wstep; try solve [go; post].
  - do 2 wstep. wstep. eapply wp_use; [apply IH; constructor|side; lia|]. cbv beta. intros; clean.
    wstep. eapply wp_use; [eapply (args_loop_ok _ n)|side; lia|].
    + intros acc Hacc s2 Hs2. clean. eapply wp_use; [apply IH; assumption|side; lia|]. auto.
    + assumption.
    + cbv beta. intros; clean. go; post.
  - do 4 wstep. wstep.
    match goal with |- wp _ _ ?x => eapply wp_mono with (P := fun r s3 => le_ext x s3) end.
    { wstep; [go; post|]. wstep; [|go; post].
      match goal with H : is_keyword ?t = true |- _ => destruct (keyword_facts t H) end. go; post. }
    cbv beta. intros; clean. go; post.
Qed.

Lemma parse_def_single_arg_ok : forall ctx ia args, Forall arg_node args ->
  Spec (parse_def_single_arg expr fuel ctx ia args) (pre_any bound) (post_lt (Forall arg_node)).
Proof.
  intros ctx ia args Ha. begin parse_def_single_arg. pose proof (fuel_lt fuel bound).
  eapply wp_use; [apply def_single_arg_ok; assumption|side; lia|]. auto.
Qed.

Ltac margs :=
  eapply wp_use; [eapply (args_loop_ok _ bound)|side|cbv beta; intros; clean];
  [intros ? ? ? ?; clean; eapply wp_use; [eapply parse_def_single_arg_ok; assumption|side|auto]|assumption|].
Ltac marg := eapply wp_use; [eapply parse_def_single_arg_ok; nodes|side|cbv beta; intros; clean].

Lemma parse_def_args_ok : forall args, Forall arg_node args ->
  Spec (parse_def_args expr fuel args) (pre_any bound) (post_lt (Forall arg_node)).
Proof.
  intros args Ha. begin parse_def_args. wstep. marg.
  eapply wp_use; [eapply (args_loop_ok _ bound)|side|cbv beta; intros; clean; post].
  - intros ? ? ? ?; clean; marg. post.
  - assumption.
Qed.

Lemma add_locals_ok : forall names, Spec (add_locals names) inv (fun s _ s' => same_tokens s s').
Proof.
  induction names as [|n l IH]; intros s Hs; cbn [add_locals].
  - wstep. apply same_tokens_refl.
  - apply wp_bind, wp_add_local. intros s' H'.
    eapply wp_use; [apply IH|apply (same_tokens_inv _ _ H' Hs)|].
    cbv beta. intros _ s2 H2. eapply same_tokens_trans; eassumption.
Qed.

Lemma parse_shadow_variables_in_args_ok : forall args, Forall arg_node args ->
  Spec (parse_shadow_variables_in_args fuel args) (pre_le bound) (post_lt (Forall arg_node)).
Proof.
  intros args Ha. begin parse_shadow_variables_in_args. do 6 wstep. wstep.
  eapply wp_use; [eapply (comma_items_ok fuel bound str any); [|nodes]|side|].
  { intros s1 Hs1. clean. wstep. post. }
  cbv beta. intros; clean. wstep. eapply wp_use; [apply add_locals_ok|assumption|]. cbv beta. intros; clean.
  go; post.
Qed.

Lemma parse_proc_args_ok : forall args ia, Forall arg_node args ->
  Spec (parse_proc_args expr fuel args ia) (pre_lt bound) (post_lt (Forall arg_node)).
Proof.
  intros args ia Ha. begin parse_proc_args. do 3 wstep.
  - eapply wp_use; [eapply parse_shadow_variables_in_args_ok; assumption|side|auto].
  - wstep. marg. wstep.
    eapply wp_use; [eapply (args_loop_ok _ bound)|side|cbv beta; intros; clean].
    + intros ? ? ? ?; clean; marg. post.
    + assumption.
    + do 3 wstep; [|wstep; post].
      eapply wp_use; [eapply parse_shadow_variables_in_args_ok; assumption|side|]. intros; clean; post.
Qed.

Lemma parse_iter_args_ok : forall args, Forall arg_node args ->
  Spec (parse_iter_args expr fuel args) (pre_lt bound) (post_lt (Forall arg_node)).
Proof.
  intros args Ha. begin parse_iter_args. pose proof (fuel_lt fuel bound). do 3 wstep.
  - eapply wp_use; [eapply parse_shadow_variables_in_args_ok; assumption|side|auto].
  - wstep. marg. wstep.
    match goal with |- wp _ _ ?x => eapply wp_mono with (P := fun l s3 => le_ext x s3 /\ Forall arg_node l) end.
    + match goal with |- wp _ _ ?x => loop (fun (l : list node) s' => le_ext x s' /\ Forall arg_node l); [|post|lia] end.
      intros l s1 Hs1. clean. do 3 wstep; [|solve [go; post]].
      do 5 wstep; [wstep; solve [post]|]. wstep. marg. go; post.
    + cbv beta. intros; clean. do 3 wstep; [|wstep; post].
      eapply wp_use; [eapply parse_shadow_variables_in_args_ok; assumption|side|]. intros; clean; post.
Qed.

Global Instance parse_iter_body_ok : forall c,
  Spec (parse_iter_body expr fuel c) (pre_lt bound) (post_le good_body).
Proof. intros c. unfold parse_iter_body. typeclasses eauto. Qed.

Lemma parse_iter_head_ok : forall lhs, expr_node lhs ->
  Spec (parse_iter_head expr fuel lhs) (pre_le bound)
    (fun s r s' => lt_ext s s' /\ Forall arg_node (snd r)).
Proof.
  intros lhs Hl. begin parse_iter_head. pose proof (expr_tok _ Hl).
  assert (Hgo : wp (if can_accept_a_block lhs then
        if has_block_pass lhs then throw (SE_text "Both block arg and actual block given.")
        else
          advance ;;;
          c <- cty ;;
          if ttype_eqb c T_PipePipe then advance ;;; ret (true, [])
          else if ttype_eqb c T_Pipe then
            advance ;;;
            b <- cur_is T_Pipe ;;
            if b then advance ;;; ret (true, [])
            else
              args <- parse_iter_args expr fuel [] ;;
              expect T_Pipe "end of block args" ;;;
              advance ;;;
              ret (true, args)
          else ret (false, [])
      else throw_unexpected (ntoken lhs) "call to accept block")
      (fun r s' => lt_ext s s' /\ Forall arg_node (snd r)) s).
  { wstep; [|solve [wstep]]. wstep; [solve [wstep]|]. do 5 wstep; [solve [go; post; cbn [snd]; nodes]|]. wstep; [|solve [go; post; cbn [snd]; nodes]].
    do 5 wstep; [solve [go; post; cbn [snd]; nodes]|]. wstep.
    eapply wp_use; [eapply parse_iter_args_ok; nodes|side|]. cbv beta. intros; clean. go; post; cbn [snd]; nodes. }
  destruct lhs; try exact Hgo.
  pose proof (nwf_special _ (proj1 Hl)) as Hsp. pose proof (expr_children _ (proj1 Hl) eq_refl) as Hc.
  cbn [special children] in *. go. post. cbn [snd]. apply Forall_forall. intros x Hx.
  rewrite Forall_forall in Hsp, Hc. split; auto.
Qed.

Lemma parse_iter_expression_ok : forall lhs, expr_node lhs ->
  Spec (parse_iter_expression expr fuel lhs) (pre_le bound) (post_lt expr_node).
Proof.
  intros lhs Hl. begin parse_iter_expression. do 4 wstep. wstep; [solve [wstep]|].
  do 9 wstep. eapply wp_use; [eapply parse_iter_head_ok; assumption|side|]. cbv beta. intros [ha args] ? ?. clean.
  cbn [fst snd] in *.
  do 2 wstep. wstep. match goal with |- wp _ _ ?x => eapply wp_mono with (P := fun _ s3 => s3 = x /\ terminal (ty (current x)) = false) end.
  { wstep; wstep; split; try reflexivity; nonterm. }
  cbv beta. intros; clean. go; post.
Qed.

Global Instance parse_begin_block_ok : Spec (parse_begin_block expr fuel) (pre_le bound) (post_lt expr_node).
Proof.
  begin parse_begin_block. do 3 wstep; [wstep|]. wstep; [|wstep]. do 6 wstep.
  eapply wp_use; [eapply parse_iter_expression_ok; nodes|side|]. cbv beta. intros; clean. post.
Qed.
Global Instance parse_end_block_ok : Spec (parse_end_block expr fuel) (pre_le bound) (post_lt expr_node).
Proof.
  begin parse_end_block. do 6 wstep.
  eapply wp_use; [eapply parse_iter_expression_ok; nodes|side|]. cbv beta. intros; clean. post.
Qed.

Global Instance parse_stabby_proc_ok : Spec (parse_stabby_proc expr fuel) (pre_le bound) (post_lt expr_node).
Proof.
  begin parse_stabby_proc. do 7 wstep.
  match goal with |- wp _ _ ?x => eapply wp_mono with (P := fun r s3 => le_ext x s3 /\ Forall arg_node (snd r)) end.
  { wstep.
    - do 5 wstep; [solve [go; post; cbn [snd]; nodes]|]. wstep.
      eapply wp_use; [eapply parse_proc_args_ok; nodes|side|]. cbv beta. intros; clean. go; post; cbn [snd]; nodes.
    - wstep; [|solve [go; post; cbn [snd]; nodes]]. wstep.
      eapply wp_use; [eapply parse_proc_args_ok; nodes|side|]. cbv beta. intros; clean. go; post; cbn [snd]; nodes. }
  cbv beta. intros [ha args] ? ?. clean. cbn [fst snd] in *. do 3 wstep; [wstep|].
  eapply wp_use; [eapply parse_iter_expression_ok; nodes|side|].
  - match goal with H : _ && _ = false |- _ => apply andb_false_iff in H; destruct H as [H|H]; apply negb_false_iff in H end;
      clean; nonterm.
  - cbv beta. intros; clean. post.
Qed.

Lemma parse_modifier_expression_ok : forall lhs, expr_node lhs ->
  Spec (parse_modifier_expression expr lhs)
    (pre_ty bound [T_IfKeyword; T_UnlessKeyword; T_UntilKeyword; T_WhileKeyword]) (post_lt expr_node).
Proof.
  intros lhs Hl.
  assert (Hb : forall t, wf_tok t -> good_body (fst (match lhs with N_Block bt l => ((bt, l), false)
      | N_Begin _ _ _ _ _ => ((t, [lhs]), false) | _ => ((t, [lhs]), true) end))).
  { intros t Ht. destruct lhs; cbn [fst]; try solve [nodes].
    pose proof (expr_tok _ Hl). pose proof (expr_children _ (proj1 Hl) eq_refl). nodes. }
  begin parse_modifier_expression.
  all: specialize (Hb (current s) ltac:(nodes)); go; post.
Qed.

Global Instance parse_for_ok : Spec (parse_for expr fuel) (pre_le bound) (post_lt expr_node).
Proof.
  begin parse_for. do 9 wstep.
  match goal with |- wp _ _ ?x => eapply wp_mono with (P := fun n s3 => le_ext x s3 /\ expr_node n) end.
  { wstep; [|go; post]. eapply wp_use; [eapply parse_multiple_assignment_expression_ok; inst|side|].
    cbv beta; intros; clean. post. }
  cbv beta. intros; clean. do 15 wstep.
  match goal with |- wp _ _ ?x => eapply wp_mono with (P := fun n s3 => le_ext x s3) end.
  { wstep; go; post. }
  cbv beta. intros; clean. go; post.
Qed.

Lemma group_result_ok : forall t e, wf_tok t -> expr_node e -> expr_node (group_result t e).
Proof.
  intros t e Ht He. destruct e; try exact He. cbn [group_result].
  pose proof (expr_tok _ He). pose proof (expr_children _ (proj1 He) eq_refl). cbn [ntoken children] in *.
  match goal with |- context [if ?b then _ else _] => destruct b end; nodes.
Qed.

Global Instance parse_group_ok : Spec (parse_group expr fuel) (pre_le bound) (post_lt expr_node).
Proof.
  begin parse_group. do 7 wstep; [solve [go; post]|]. go. post. apply group_result_ok; nodes.
Qed.

Global Instance parse_if_body_ok : Spec (parse_if_body expr fuel) (pre_lt bound)
  (fun s n s' => le_ext s s' /\ expr_node n /\ is_divider (ty (current s')) = true).
Proof.
  begin parse_if_body. pose proof (fuel_lt fuel bound). do 9 wstep.
  match goal with |- wp _ _ ?x => eapply wp_mono with (P := fun l s3 => le_ext x s3 /\ Forall expr_node l) end.
  { match goal with |- wp _ _ ?x => loop (fun (l : list node) s' => le_ext x s' /\ Forall expr_node l); [|post|lia] end.
    intros l s1 Hs1. clean. do 3 wstep; [solve [go; post]|]. do 7 wstep.
    match goal with |- wp _ _ ?x => eapply wp_mono with (P := fun _ s3 => le_ext x s3) end.
    { wstep; go; post. }
    cbv beta. intros; clean. go; post. }
  cbv beta. intros l s3 ?. clean. do 3 wstep; [wstep|].
  match goal with H : negb _ = false |- _ => apply negb_false_iff in H end.
  wstep. post. destruct l; nodes.
Qed.

Lemma match_condition_ok : forall n, expr_node n -> expr_node (match_condition n).
Proof. intros n Hn. destruct n; try exact Hn. cbn [match_condition]. pose proof (expr_tok _ Hn). nodes. Qed.

Global Instance then_or_newline_ok : Spec then_or_newline (pre_any bound) (post_le any).
Proof. begin then_or_newline. go; post. Qed.

Lemma if_branch_ok : forall n b,
  Spec (if_branch expr fuel n b)
    (fun s => inv s /\ (W s < n)%nat /\ (W s <= bound)%nat /\ terminal (ty (current s)) = false) (post_lt expr_node).
Proof.
  induction n as [|n IH]; intros b s Hs; clean; [lia|].
  cbn [if_branch]. cbv zeta. do 6 wstep.
  assert (Hc : expr_node (if b then match_condition a else a)).
  { destruct b; [apply match_condition_ok|]; assumption. }
  do 2 wstep. wstep. wstep. do 3 wstep.
  - wstep. eapply wp_use; [apply IH|side; lia|]. cbv beta. intros; clean. go; post.
  - wstep. match goal with |- wp _ _ ?x => eapply wp_mono with (P := fun n s3 => le_ext x s3 /\ expr_node n) end.
    { wstep; go; post. }
    cbv beta. intros; clean. go; post.
Qed.

Global Instance parse_if_ok : Spec (parse_if expr fuel) (pre_le bound) (post_lt expr_node).
Proof.
  begin parse_if. pose proof (fuel_lt fuel bound).
  eapply wp_use; [apply if_branch_ok|side; lia|]. auto.
Qed.

Global Instance parse_unless_ok : Spec (parse_unless expr fuel) (pre_le bound) (post_lt expr_node).
Proof.
  begin parse_unless. do 6 wstep.
  assert (Hc : expr_node (match_condition a)) by (apply match_condition_ok; assumption).
  do 2 wstep. wstep. wstep. do 2 wstep.
  wstep. match goal with |- wp _ _ ?x => eapply wp_mono with (P := fun n s3 => le_ext x s3 /\ expr_node n) end.
  { wstep; go; post. }
  cbv beta. intros; clean. go; post.
Qed.

Global Instance parse_while_ok :
  Spec (parse_while expr fuel) (pre_ty bound [T_WhileKeyword; T_UntilKeyword]) (post_lt expr_node).
Proof.
  begin parse_while.
  all: do 6 wstep.
  all: assert (Hc : expr_node (match_condition a)) by (apply match_condition_ok; assumption).
  all: do 3 wstep; match goal with |- wp _ _ ?x => eapply wp_mono with (P := fun _ s3 => le_ext x s3) end;
    [wstep; go; post|].
  all: cbv beta; intros; clean; go; post.
Qed.
End Safe.

(** * ParseSafeE: operator assignment, ranges and assignments *)
From Coq Require Import Strings.String NArith ZArith Bool List Lia.
From Coq Require Import ZifyBool ZifyNat ZifyN.
From Verif Require Import Base Token Node ParserBase ParserModel ParseHoare ParseNodes ParseTac ParseSafeA ParseSafeB
  ParseSafeC ParseSafeD.
Import ListNotations.
Open Scope N_scope.
Open Scope list_scope.
Open Scope monad_scope.

Global Hint Extern 1 (Spec (parse_call_hash_args _ _ _ _ _) _ _) =>
  (eapply parse_call_hash_args_ok; inst) : typeclass_instances.
Global Hint Extern 1 (Spec (parse_constant_resolution_expression _ _ _) _ _) =>
  (eapply parse_constant_resolution_expression_ok; inst) : typeclass_instances.

Ltac inst ::=
  lazymatch goal with
  | |- ExprOK _ _ => typeclasses eauto
  | |- FuelOK _ _ => typeclasses eauto
  | |- good_call _ => first [assumption | split; nodes]
  | |- _ => nodes
  end.
Global Hint Extern 1 (Spec (parse_call_args _ _ _ _ _) _ _) =>
  (eapply parse_call_args_ok; inst) : typeclass_instances.

Section Safe.
Variable expr : N -> iter_allow -> M node.
Variables fuel bound : nat.
Context {HE : ExprOK expr bound} {HF : FuelOK bound fuel}.

Definition op_assign_type (t : ttype) : bool :=
  match t with
  | T_AmpersandAmpersandEqual | T_PipePipeEqual
  | T_AmpersandEqual | T_CaretEqual | T_LeftShiftEqual | T_MinusEqual | T_PercentEqual
  | T_PipeEqual | T_PlusEqual | T_RightShiftEqual | T_SlashEqual | T_StarEqual | T_StarStarEqual => true
  | _ => false
  end.

Lemma op_assign_facts : forall t, op_assign_type t = true -> terminal t = false /\ is_valid t = true.
Proof. intros t; destruct t; intros H; try discriminate H; split; reflexivity. Qed.

Lemma op_attr_assign_ok : forall lhs r m args safe,
  expr_node lhs -> target lhs = true -> expr_node r -> Forall expr_node args ->
  Spec (parse_op_attr_assign_expression expr lhs r m args safe)
    (fun s => inv s /\ (W s <= bound)%nat /\ op_assign_type (ty (current s)) = true) (post_lt expr_node).
Proof.
  intros lhs r m args safe Hl Htl Hr Ha. begin parse_op_attr_assign_expression.
  destruct (op_assign_facts (ty (current s)) ltac:(assumption)).
  do 6 wstep. wstep; [wstep|]; go; post.
Qed.

Lemma op_assign_rest_ok : forall lhs, expr_node lhs -> target lhs = true -> op_target lhs = true ->
  Spec (op_assign_rest expr lhs)
    (fun s => inv s /\ (W s <= bound)%nat /\ op_assign_type (ty (current s)) = true) (post_lt expr_node).
Proof.
  intros lhs Hl H1 H2. begin op_assign_rest.
  destruct (op_assign_facts (ty (current s)) ltac:(assumption)).
  do 4 wstep. tall (ty (current s)); try (rewrite Ety in *; discriminate).
  all: go; post.
Qed.

Lemma parse_op_assign_expression_ok : forall lhs, expr_node lhs ->
  Spec (parse_op_assign_expression expr lhs)
    (fun s => inv s /\ (W s <= bound)%nat /\ op_assign_type (ty (current s)) = true) (post_lt expr_node).
Proof.
  intros lhs Hl. begin parse_op_assign_expression. pose proof (expr_tok _ Hl) as Ht.
  pose proof (nwf_special _ (proj1 Hl)) as Hsp.
  destruct lhs; cbn [ntoken special] in *; try solve [wstep].
  - pose proof (expr_children _ (proj1 Hl) eq_refl) as Hc. cbn [children] in Hc. inversion_clear Hc.
    apply op_attr_assign_ok; nodes.
  - apply op_assign_rest_ok; nodes.
  - apply op_assign_rest_ok; nodes.
  - destruct Hl. discriminate.
  - destruct Hsp. do 2 wstep. eapply wp_use; [eapply op_assign_rest_ok; nodes|side|].
    intros; clean. post.
  - pose proof (expr_children _ (proj1 Hl) eq_refl) as Hc. cbn [children] in Hc. inversion_clear Hc.
    apply op_attr_assign_ok; nodes.
Qed.

Lemma parse_range_expression_ok : forall lhs, nwf lhs ->
  Spec (parse_range_expression expr lhs) (pre_ty bound [T_DotDot; T_DotDotDot])
    (fun s n s' => lt_ext s s' /\ expr_node n /\ splat_symbol n = true).
Proof.
  intros lhs Hl. begin parse_range_expression.
  all: do 9 wstep.
  all: match goal with |- wp _ _ ?x =>
    eapply wp_mono with (P := fun r s2 => inv s2 /\ (W s2 <= W x + 1)%nat /\ p_precs s2 = p_precs x /\ (D x <= D s2)%nat /\ expr_node r) end.
  all: try (wstep; [solve [go; post]|]; do 2 wstep; [apply wp_insert; [assumption|exact I|reflexivity|]; intros ? ? Hw ? ?; cbn [weight1 is_end_of_line ty] in Hw|]; go; post).
  all: cbv beta; intros; clean; go; post.
  all: split; [nodes|reflexivity].
Qed.

Lemma parse_ref_expression_ok : forall lhs, expr_node lhs ->
  Spec (parse_ref_expression expr fuel lhs) (pre_le bound) (post_lt expr_node).
Proof.
  intros lhs Hl. begin parse_ref_expression. do 5 wstep; [solve [go; post]|].
  do 3 wstep. match goal with |- wp _ _ ?x => eapply wp_mono with (P := fun c s3 => le_ext x s3 /\ good_call c) end.
  { wstep; [wstep; post; split; nodes|].
    wstep. post; try assumption. }
  cbv beta. intros c2 s3 ?. clean. match goal with H : good_call _ |- _ => destruct H end. go; post.
Qed.

Lemma parse_rescue_expression_ok : forall lhs, expr_node lhs ->
  Spec (parse_rescue_expression expr lhs) (pre_le bound) (post_lt expr_node).
Proof. intros lhs Hl. begin parse_rescue_expression. go; post. Qed.

Lemma parse_ternary_expression_ok : forall lhs, expr_node lhs ->
  Spec (parse_ternary_expression expr lhs) (pre_le bound) (post_lt expr_node).
Proof. intros lhs Hl. begin parse_ternary_expression. go; post. Qed.

Global Instance parse_triple_dot_ok : Spec (parse_triple_dot expr) (pre_le bound) (post_lt expr_node).
Proof. begin parse_triple_dot. go; post. Qed.
Global Instance parse_not_ok : Spec (parse_not expr) (pre_le bound) (post_lt expr_node).
Proof. begin parse_not. go; post. Qed.
Global Instance parse_splat_ok : Spec (parse_splat expr) (pre_le bound) (post_lt expr_node).
Proof. begin parse_splat. go; post. Qed.

Lemma return_item_ok :
  Spec (item <- pexpr expr BARE_CALL_ARG ;;
        b <- cur_is T_HashRocket ;;
        if b || node_is_symbol_key item then parse_call_hash_args expr fuel true T_RParen item
        else ret item) (pre_lt bound) (post_lt expr_node).
Proof. intros s Hs. clean. go; post. Qed.

Global Instance parse_return_ok : Spec (parse_return expr fuel) (pre_le bound) (post_lt expr_node).
Proof.
  begin parse_return. do 7 wstep.
  match goal with |- wp _ _ ?x => eapply wp_mono with (P := fun n s3 => le_ext x s3 /\ expr_node n) end.
  { wstep; go; post. }
  cbv beta. intros v s3 ?. clean. wstep; [solve [go; post]|]. do 3 wstep.
  match goal with |- wp _ _ ?x => eapply wp_mono with (P := fun n s3 => le_ext x s3 /\ expr_node n) end.
  { wstep; [go; post|]. wstep; [|go; post]. wstep.
    eapply wp_use; [eapply (comma_items_ok fuel bound node expr_node); [exact return_item_ok|nodes]|side|].
    cbv beta; intros; clean. go; post. }
  cbv beta. intros; clean. go; post.
Qed.

(** *** Assignment targets *)
Lemma multiple_assignment_with_ok : forall item b lhs,
  Spec item (fun s => inv s /\ (W s < b)%nat /\ (W s < bound)%nat) (post_lt expr_node) -> expr_node lhs ->
  Spec (multiple_assignment_with fuel item lhs)
    (fun s => inv s /\ (W s <= b)%nat /\ (W s <= bound)%nat)
    (fun s n s' => le_ext s s' /\ expr_node n /\ (ty (current s) = T_Comma -> (W s' < W s)%nat) /\
       exists t l p, n = N_MultipleAssignment t l p).
Proof.
  intros item b lhs Hi Hl. begin (@multiple_assignment_with). pose proof (fuel_lt fuel bound).
  wstep; [wstep|].
  loop (fun (l : list node) s' => le_ext s s' /\ Forall expr_node l /\ (s' = s \/ (W s' < W s)%nat)); [|post; left; reflexivity|lia].
  intros l s1 Hs1. clean. do 3 wstep.
  - do 4 wstep. wstep; try (wstep; post; solve [intros; lia|eauto]).
    wstep. eapply wp_use; [exact Hi|side; lia|]. cbv beta. intros; clean. go; post.
  - wstep. post; [|eauto]. intros Hc. match goal with H : _ \/ _ |- _ => destruct H as [->|]; [|lia] end.
    match goal with H : ttype_eqb _ _ = false |- _ => rewrite Hc in H; discriminate end.
Qed.

Lemma assignment_suffixes_ok : forall n, expr_node n ->
  Spec (assignment_suffixes expr fuel n) (pre_lt bound) (post_le expr_node).
Proof.
  intros n Hn. begin assignment_suffixes. pose proof (fuel_lt fuel bound).
  loop (fun (x : node) s' => le_ext s s' /\ expr_node x); [|post|lia].
  intros x s1 Hs1. clean. do 2 wstep. wstep; try solve [go; post].
  wstep; [|solve [go; post]]. wstep. eapply wp_use; [eapply parse_ref_expression_ok; nodes|side|].
  cbv beta. intros; clean. go; post.
Qed.

Lemma assignment_identifier_ok : forall n splat,
  Spec (assignment_identifier expr fuel n splat)
    (fun s => inv s /\ (W s < n)%nat /\ (W s <= bound)%nat) (post_lt expr_node).
Proof.
  induction n as [|n IH]; intros splat s Hs; clean; [lia|].
  cbn [assignment_identifier]. do 3 wstep.
  eapply wp_mono with (P := fun x s1 => lt_ext s s1 /\ expr_node x).
  2:{ cbv beta. intros; clean. eapply wp_use; [eapply assignment_suffixes_ok; nodes|side|]. intros; clean. post. }
  wstep; try solve [wstep; post].
  - do 2 wstep. wstep. eapply wp_use; [apply IH|side; lia|]. cbv beta. intros; clean. wstep.
    eapply wp_use; [eapply multiple_assignment_with_ok with (b := n); [|nodes]|side; lia|].
    { intros s2 Hs2. clean. eapply wp_use; [apply IH|side; lia|]. auto. }
    cbv beta. intros; clean. do 3 wstep; [wstep|].
    match goal with H : negb _ = false |- _ => apply negb_false_iff in H end. clean. go; post.
  - apply wp_bind. eapply wp_mono with (P := fun _ s1 => s1 = s). { wstep; go; auto. }
    cbv beta. intros _ s1 ->. do 5 wstep.
    + wstep. eapply wp_use; [apply IH|side; lia|]. cbv beta. intros; clean. go; post.
    + go; post.
Qed.

Global Instance parse_assignment_identifier_ok : forall splat,
  Spec (parse_assignment_identifier expr fuel splat) (pre_any bound) (post_lt expr_node).
Proof.
  intros splat. begin parse_assignment_identifier. pose proof (fuel_lt fuel bound).
  eapply wp_use; [apply assignment_identifier_ok|side; lia|]. auto.
Qed.

Lemma parse_multiple_assignment_expression_ok : forall lhs, expr_node lhs ->
  Spec (parse_multiple_assignment_expression expr fuel lhs) (pre_any bound)
    (fun s n s' => le_ext s s' /\ expr_node n /\ (ty (current s) = T_Comma -> (W s' < W s)%nat) /\
       exists t l p, n = N_MultipleAssignment t l p).
Proof.
  intros lhs Hl. begin parse_multiple_assignment_expression.
  eapply wp_use; [eapply multiple_assignment_with_ok with (b := bound); [|exact Hl]|side|auto].
  intros s1 Hs1. clean. eapply wp_use; [eapply parse_assignment_identifier_ok|side|auto].
Qed.

Global Instance parse_assignment_expression_value_ok : forall ta am,
  Spec (parse_assignment_expression_value expr fuel ta am) (pre_lt bound) (post_lt expr_node).
Proof.
  intros ta am. begin parse_assignment_expression_value. do 7 wstep.
  match goal with |- wp _ _ ?x => eapply wp_mono with (P := fun r s3 => le_ext x s3 /\ expr_node (fst r)) end.
  { wstep; [|go; post]. wstep.
    eapply wp_use; [eapply (comma_items_ok fuel bound node expr_node); [typeclasses eauto|nodes]|side|].
    cbv beta; intros; clean. go; post. }
  cbv beta. intros [v sp] s3 ?. clean. cbn [fst] in *. wstep.
  assert (Hv : expr_node (match v with N_Block bt l => block_or_only (bt, l) | _ => v end)).
  { destruct v; try assumption.
    match goal with H : expr_node (N_Block _ _) |- _ =>
      pose proof (expr_tok _ H); pose proof (expr_children _ (proj1 H) eq_refl) end.
    cbn [ntoken children] in *. nodes. }
  revert Hv. generalize (match v with N_Block bt l => block_or_only (bt, l) | _ => v end). intros w Hw.
  post. destruct sp, ta; nodes.
Qed.

Lemma parse_assignment_expression_ok : forall am lhs, expr_node lhs ->
  Spec (parse_assignment_expression expr fuel am lhs) (pre_ty bound [T_Equal])
    (fun s n s' => le_ext s s' /\ expr_node n /\
       ((W s' < W s)%nat \/ exists t e t' l p, lhs = N_Splat t e /\ n = N_MultipleAssignment t' l p)).
Proof.
  intros am lhs Hl. begin parse_assignment_expression. do 2 wstep.
  assert (Hsplat : (exists t e, lhs = N_Splat t e) \/ (forall t e, lhs <> N_Splat t e)).
  { destruct lhs; try (right; intros; discriminate). left; eauto. }
  destruct Hsplat as [(t & e & ->)|Hns].
  - eapply wp_use; [eapply parse_multiple_assignment_expression_ok; nodes|side|].
    cbv beta. intros n s1 ?. clean. subst. post. right. eauto 8.
  - assert (Hgo : wp (add_assignment_locals lhs ;;;
      advance ;;;
      v <- parse_assignment_expression_value expr fuel
             (match lhs with N_MultipleAssignment _ _ _ => true | _ => false end) am ;;
      ret (N_Assignment (current s) lhs v))
       (fun n s' => le_ext s s' /\ expr_node n /\
       ((W s' < W s)%nat \/ exists t e t' l p, lhs = N_Splat t e /\ n = N_MultipleAssignment t' l p)) s).
    { do 2 wstep. wstep. wstep. go. post. }
    destruct lhs; try exact Hgo. exfalso. eapply Hns. reflexivity.
Qed.
End Safe.

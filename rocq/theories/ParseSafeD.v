(** * ParseSafeD: operators, calls and assignments *)
From Coq Require Import Strings.String NArith ZArith Bool List Lia.
From Coq Require Import ZifyBool ZifyNat ZifyN.
From Verif Require Import Base Token Node ParserBase ParserModel ParseHoare ParseNodes ParseTac ParseSafeA ParseSafeB
  ParseSafeC.
Import ListNotations.
Open Scope N_scope.
Open Scope list_scope.
Open Scope monad_scope.

Lemma nonterminal_valid : forall t, terminal t = false -> is_valid t = true.
Proof. intros t H. unfold terminal in H. apply orb_false_iff in H. destruct H as [_ H]. now apply negb_false_iff in H. Qed.

(** One [,]-separated list. *)
Ltac commas expr fuel bound :=
  eapply wp_use; [eapply (comma_items_ok fuel bound node expr_node); [typeclasses eauto|nodes]|side|cbv beta; intros; clean].

Section Safe.
Variable expr : N -> iter_allow -> M node.
Variables fuel bound : nat.
Context {HE : ExprOK expr bound} {HF : FuelOK bound fuel}.

Global Instance parse_alias_arg_ok : forall e,
  Spec (parse_alias_arg expr fuel e) (pre_any bound)
    (fun s n s' => lt_ext s s' /\ (W s' + 2 <= W s)%nat /\ expr_node n).
Proof.
  intros e. begin parse_alias_arg. wstep. wstep. tall (ty (current s)).
  all: try solve [go; post]; wstep; go; post.
Qed.

Global Instance parse_alias_ok : Spec (parse_alias expr fuel) (pre_ty bound [T_AliasKeyword]) (post_lt expr_node).
Proof.
  begin parse_alias. do 6 wstep. wstep; try solve [go; post].
  all: wstep; wstep; wstep; wstep; wstep; wstep.
  all: match goal with H : valias_type ?x = true |- _ => destruct x eqn:?; try discriminate end; go; post.
Qed.

Lemma undef_item_ok : forall t e, wf_tok t ->
  Spec (a <- parse_alias_arg expr fuel e ;; ret (N_Undef t [a])) (pre_lt bound) (post_lt expr_node).
Proof. intros t e Ht s Hs. clean. go. post. Qed.

Global Instance parse_undef_ok : Spec (parse_undef expr fuel) (pre_ty bound [T_UndefKeyword]) (post_lt expr_node).
Proof.
  begin parse_undef. do 9 wstep.
  - wstep. eapply wp_use; [eapply (comma_items_ok fuel bound node expr_node); [apply undef_item_ok; nodes|nodes]|side|].
    cbv beta; intros; clean. go; post.
  - go; post.
Qed.

Global Instance parse_unary_operator_ok :
  Spec (parse_unary_operator expr) (pre_ty bound [T_Minus; T_Plus; T_Tilde])
    (fun s n s' => lt_ext s s' /\ expr_node n /\ splat_symbol n = true).
Proof.
  begin parse_unary_operator.
  3: solve [go; post].
  all: do 6 wstep; wstep; [|solve [go; post]].
  all: destruct a; try discriminate; match goal with H : expr_node _ |- _ => pose proof (expr_tok _ H) end;
    cbn [ntoken] in *; go; post.
Qed.

Global Instance parse_word_array_ok :
  Spec (parse_word_array expr fuel) (pre_le bound) (post_lt expr_node).
Proof.
  begin parse_word_array. pose proof (fuel_lt fuel bound). do 4 wstep.
  loop (fun (l : list node) s1 => le_ext s' s1 /\ Forall expr_node l); [|post|lia].
  intros l s1 Hi. clean. do 3 wstep; [solve [go; post]|].
  wstep; [|solve [go; post]].
  eapply wp_unterminated. rew_types. reflexivity.
Qed.

Global Instance parse_word_symbol_array_ok :
  Spec (parse_word_symbol_array expr fuel) (pre_le bound) (post_lt expr_node).
Proof.
  begin parse_word_symbol_array. pose proof (fuel_lt fuel bound). do 4 wstep.
  loop (fun (l : list node) s1 => le_ext s' s1 /\ Forall expr_node l); [|post|lia].
  intros l s1 Hi. clean. do 3 wstep; [solve [go; post]|].
  do 3 wstep; [solve [go]| |].
  - subst. destruct (interpolated_inv _ _ ltac:(eassumption)) as (? & ? & ? & ?). go; post.
  - subst. match goal with H : expr_node _ |- _ => pose proof (expr_tok _ H) end. cbn [ntoken] in *. go; post.
Qed.

(** *** Calls *)
Lemma parse_call_hash_args_ok : forall bare closing first, expr_node first ->
  Spec (parse_call_hash_args expr fuel bare closing first) (pre_lt bound) (post_le expr_node).
Proof.
  intros bare closing first Hf. begin parse_call_hash_args. do 5 wstep; [|solve [go; post]].
  do 2 wstep. destruct a; try solve [go; post].
    match goal with H : expr_node (N_Hash _ _ _) |- _ =>
    pose proof (expr_tok _ H); pose proof (expr_children _ (proj1 H) eq_refl) end.
  cbn [ntoken children] in *. go; post.
Qed.

Definition good_call (c : node) : Prop := expr_node c /\ call_node c.

Lemma add_good : forall c a, good_call c -> expr_node a -> good_call (add_arg c a).
Proof. intros c a [H1 H2] H3. destruct (add_arg_ok c a H1 H2 H3) as (? & ? & _). split; assumption. Qed.

Ltac adds := repeat first [assumption | apply add_good].

Lemma parse_call_args_ok : forall call bare closing, good_call call ->
  Spec (parse_call_args expr fuel call bare closing) (pre_lt bound) (post_lt good_call).
Proof.
  intros call bare closing Hc. begin parse_call_args. pose proof (fuel_lt fuel bound).
  apply wp_bind. eapply wp_mono with (P := fun _ s1 => le_ext s s1).
  { wstep; go; ext. }
  intros _ s1 ?. clean. wstep. wstep. unfold starts_bare_hash at 1. do 4 wstep.
  apply wp_bind.
  match goal with |- wp _ _ ?x => eapply wp_mono with (P := fun c s2 => le_ext x s2 /\ good_call c) end.
  { wstep.
    - wstep. eapply wp_use; [eapply parse_call_hash_args_ok; nodes|side|]. intros; clean. go. post; adds.
    - match goal with |- wp _ _ ?x => loop (fun c s2 => le_ext x s2 /\ good_call c); [|post; adds|lia] end.
      intros c s2 Hi. clean. do 3 wstep; [|wstep; post; adds].
      do 5 wstep; [wstep; post; adds|]. do 2 wstep. unfold starts_bare_hash. do 5 wstep.
      + wstep. eapply wp_use; [eapply parse_call_hash_args_ok; nodes|side|]. intros; clean. go. post; adds.
      + wstep. post; adds. }
  cbv beta. intros c s2 ?. clean. do 3 wstep. match goal with |- wp _ _ ?x => eapply wp_mono with (P := fun c s3 => le_ext x s3 /\ good_call c) end.
  { wstep; go; post; adds. }
  cbv beta. intros c2 s3 ?. clean. wstep. match goal with |- wp _ _ ?x => eapply wp_mono with (P := fun _ s3 => le_ext x s3) end.
  { wstep; go; ext. }
  intros _ s4 ?. clean. wstep. post; adds.
Qed.

Lemma parse_call_expression_with_parens_ok : forall lhs, expr_node lhs ->
  Spec (parse_call_expression_with_parens expr fuel lhs) (pre_le bound) (post_lt expr_node).
Proof.
  intros lhs Hl. begin parse_call_expression_with_parens. do 9 wstep.
  match goal with |- wp _ _ ?x => eapply wp_mono with (P := fun c s3 => le_ext x s3 /\ good_call c) end.
  { wstep; [wstep; wstep; post; adds; try (split; assumption); nodes|].
    eapply wp_use; [eapply parse_call_args_ok; split; nodes|side|]. intros; clean. post; adds. }
  cbv beta. intros c2 s3 ?. clean. match goal with H : good_call _ |- _ => destruct H end. go; post.
Qed.

(** The token types at which [parse_call_expression_without_parens] stops. *)
Definition no_arg_type (t : ttype) : bool :=
  match t with
  | T_Comma | T_Eof | T_Newline | T_RBracket | T_RCurlyBrace | T_RParen | T_Semicolon => true
  | _ => false
  end.

Lemma parse_call_expression_without_parens_ok : forall lhs, expr_node lhs ->
  Spec (parse_call_expression_without_parens expr fuel lhs)
    (fun s => pre_lt bound s /\ no_arg_type (ty (current s)) = false) (post_lt expr_node).
Proof.
  intros lhs Hl. begin parse_call_expression_without_parens. do 4 wstep.
  wstep; try (rewrite Ety in *; discriminate).
  eapply wp_use; [eapply parse_call_args_ok; split; nodes|side|].
  intros; clean. match goal with H : good_call _ |- _ => destruct H end. post.
Qed.

Lemma parse_constant_resolution_expression_ok : forall lhs, expr_node lhs ->
  Spec (parse_constant_resolution_expression expr fuel lhs) (pre_le bound) (post_lt expr_node).
Proof.
  intros lhs Hl. begin parse_constant_resolution_expression. do 4 wstep.
  match goal with |- wp (match ty (current ?x) with _ => _ end) _ _ => tall (ty (current x)) end.
  all: try solve [go; post].
  do 5 wstep. match goal with |- wp _ _ ?x => eapply wp_mono with (P := fun c s3 => le_ext x s3 /\ good_call c) end.
  { wstep; [wstep; post; split; nodes|].
    eapply wp_use; [eapply parse_call_args_ok; split; nodes|side|]. intros; clean. post; adds. }
  cbv beta. intros c2 s3 ?. clean. match goal with H : good_call _ |- _ => destruct H end. go; post.
Qed.

Lemma parse_infix_expression_ok : forall lhs, expr_node lhs ->
  Spec (parse_infix_expression expr lhs) (pre_le bound) (post_lt expr_node).
Proof.
  intros lhs Hl. begin parse_infix_expression.
  pose proof (nonterminal_valid (ty (current s)) ltac:(assumption)). go; post.
Qed.

Lemma make_and_ok : forall t l r, wf_tok t -> expr_node l -> expr_node r -> expr_node (make_and t l r).
Proof.
  intros t l r Ht Hl Hr. destruct l; cbn [make_and]; try solve [nodes].
  pose proof (expr_tok _ Hl). pose proof (expr_children _ (proj1 Hl) eq_refl) as Hc. cbn [ntoken children] in *.
  inversion_clear Hc as [|? ? ? Hc']. inversion_clear Hc'. nodes.
Qed.

Lemma make_or_ok : forall t l r, wf_tok t -> expr_node l -> expr_node r -> expr_node (make_or t l r).
Proof.
  intros t l r Ht Hl Hr. destruct l; cbn [make_or]; try solve [nodes].
  pose proof (expr_tok _ Hl). pose proof (nwf_children _ (proj1 Hl)) as Hc. cbn [ntoken children] in *.
  inversion_clear Hc as [|? ? ? Hc']. inversion_clear Hc'. pose proof (expr_nwf _ Hr).
  split; [nodes|reflexivity].
Qed.

Lemma parse_logical_expression_ok : forall lhs, expr_node lhs ->
  Spec (parse_logical_expression expr lhs)
    (pre_ty bound [T_AmpersandAmpersand; T_AndKeyword; T_PipePipe; T_OrKeyword]) (post_lt expr_node).
Proof.
  intros lhs Hl. begin parse_logical_expression.
  all: go; post; first [apply make_and_ok | apply make_or_ok]; nodes.
Qed.

Lemma parse_match_expression_ok : forall lhs, expr_node lhs ->
  Spec (parse_match_expression expr lhs) (pre_le bound) (post_lt expr_node).
Proof.
  intros lhs Hl. begin parse_match_expression. go. post.
  destruct lhs, a; nodes.
Qed.

Lemma parse_not_match_expression_ok : forall lhs, expr_node lhs ->
  Spec (parse_not_match_expression expr lhs) (pre_le bound) (post_lt expr_node).
Proof.
  intros lhs Hl. begin parse_not_match_expression. do 3 wstep.
  eapply wp_use; [eapply parse_match_expression_ok; nodes|side|]. intros; clean. go; post.
Qed.
End Safe.

(** * ParseSafeA: the parsing functions that do not call [parse_expression] *)
From Coq Require Import Strings.String NArith ZArith Bool List Lia.
From Coq Require Import ZifyBool ZifyNat ZifyN.
From Verif Require Import Base Token Node ParserBase ParserModel ParseHoare ParseNodes ParseTac.
Import ListNotations.
Open Scope N_scope.
Open Scope list_scope.
Open Scope monad_scope.

(** At a token of one of the types [l]. *)
Definition at_ty (l : list ttype) (s : pstate) : Prop := inv s /\ In (ty (current s)) l.
(** At a token that is not the last. *)
Definition at_some (s : pstate) : Prop := inv s /\ terminal (ty (current s)) = false.

Ltac start f := intros s Hs; unfold at_ty, at_some in Hs; clean; types; unfold f; cbv zeta.

Global Instance reinsert_ok :
  Spec reinsert_collapsed_newline inv
    (fun s _ s' => inv s' /\ (W s' <= W s + 1)%nat /\ p_precs s' = p_precs s /\ (D s <= D s')%nat).
Proof.
  start reinsert_collapsed_newline. go.
  - apply wp_insert; [assumption|exact I|reflexivity|].
    intros s' ? HW ? ?. change (weight1 _) with 1%nat in HW. post.
  - post.
Qed.

Definition valias_type (t : ttype) : bool :=
  match t with T_GlobalVariable | T_BackRef | T_NthRef => true | _ => false end.

Global Instance parse_valias_arg_ok : forall b e,
  Spec (parse_valias_arg b e) inv (fun s _ s' => s' = s /\ valias_type (ty (current s)) = true).
Proof.
  intros b e. start parse_valias_arg. go; split; auto; rewrite Ety; reflexivity.
Qed.

Global Instance parse_method_name_ok :
  Spec parse_method_name inv (fun s _ s' => lt_ext s s' /\ (W s' + 2 = W s)%nat).
Proof.
  start parse_method_name. wstep. wstep. wstep. tall (ty (current s)).
  all: go; post.
Qed.

Global Instance parse_back_ref_ok : Spec parse_back_ref (at_ty [T_BackRef]) (post_lt expr_node).
Proof.
  start parse_back_ref. pose proof (inv_current s H) as Hw. unfold wf_tok in Hw. rewrite Ety in Hw.
  wstep. wstep. wstep. wstep. wstep.
  destruct (lit (current s)) as [[|c l]|] eqn:El; try contradiction.
  apply wp_literal_string; [unfold has_lit; congruence|]. intros l' El'.
  assert (l' = c :: l) by congruence. subst l'. wstep. post.
Qed.

Global Instance parse_bool_ok : Spec parse_bool (at_ty [T_TrueKeyword; T_FalseKeyword]) (post_lt expr_node).
Proof. start parse_bool; go; post. Qed.

Global Instance parse_constant_ok :
  Spec parse_constant (at_ty [T_Constant])
    (fun s n s' => lt_ext s s' /\ nwf n /\ splat_symbol n = true /\ current s' = nth 1 (p_rest s) no_token).
Proof. start parse_constant; go; post. Qed.

Global Instance parse_encoding_ok : Spec parse_encoding at_some (post_lt expr_node).
Proof. start parse_encoding; go; post. Qed.
Global Instance parse_file_constant_ok : Spec parse_file_constant at_some (post_lt expr_node).
Proof. start parse_file_constant; go; post. Qed.
Global Instance parse_line_constant_ok : Spec parse_line_constant at_some (post_lt expr_node).
Proof. start parse_line_constant; go; post. Qed.
Global Instance parse_forward_args_ok : Spec parse_forward_args at_some (post_lt expr_node).
Proof. start parse_forward_args; go; post. Qed.

Global Instance parse_identifier_ok :
  Spec parse_identifier (fun s => inv s /\ identifier_type (ty (current s)) = true)
    (fun s n s' => lt_ext s s' /\ (expr_node n /\ splat_symbol n = true) /\ current s' = nth 1 (p_rest s) no_token).
Proof.
  start parse_identifier.
  assert (Ht : terminal (ty (current s)) = false) by (destruct (ty (current s)); try discriminate; reflexivity).
  assert (Hl : has_lit (current s)).
  { pose proof (inv_current s H) as Hw. unfold wf_tok in Hw.
    destruct (ty (current s)) eqn:E; try discriminate; exact Hw. }
  wstep. wstep. destruct (lit (current s)) eqn:El; [|contradiction Hl].
  go. post.
Qed.

Global Instance parse_lit_ok :
  Spec parse_lit (at_ty [T_Bignum; T_Fixnum; T_Float])
    (fun s n s' => lt_ext s s' /\ expr_node n /\ splat_symbol n = true).
Proof. start parse_lit; go; post. Qed.

Global Instance parse_nil_ok :
  Spec parse_nil at_some (fun s n s' => lt_ext s s' /\ expr_node n /\ splat_symbol n = true).
Proof. start parse_nil; go; post. Qed.
Global Instance parse_nth_ref_ok : Spec parse_nth_ref at_some (post_lt expr_node).
Proof. start parse_nth_ref; go; post. Qed.
Global Instance parse_redo_ok : Spec parse_redo at_some (post_lt expr_node).
Proof. start parse_redo; go; post. Qed.
Global Instance parse_retry_ok : Spec parse_retry at_some (post_lt expr_node).
Proof. start parse_retry; go; post. Qed.
Global Instance parse_self_ok : Spec parse_self at_some (post_lt expr_node).
Proof. start parse_self; go; post. Qed.
Global Instance parse_yield_ok : Spec parse_yield at_some (post_lt expr_node).
Proof. start parse_yield; go; post. Qed.
Global Instance parse_super_ok : Spec parse_super at_some (post_lt expr_node).
Proof. start parse_super; go; post. Qed.
Global Instance parse_symbol_ok :
  Spec parse_symbol (at_ty [T_Symbol])
    (fun s n s' => lt_ext s s' /\ (W s' + 2 = W s)%nat /\ expr_node n /\ splat_symbol n = true).
Proof. start parse_symbol; go; post. Qed.
Global Instance parse_symbol_key_ok :
  Spec parse_symbol_key (at_ty [T_SymbolKey])
    (fun s n s' => lt_ext s s' /\ expr_node n /\ splat_symbol n = true).
Proof. start parse_symbol_key; go; post. Qed.
Global Instance parse_top_level_constant_ok :
  Spec parse_top_level_constant at_some (post_lt expr_node).
Proof. start parse_top_level_constant; go; post. Qed.

Global Instance parse_shadow_variable_single_arg_ok :
  Spec parse_shadow_variable_single_arg inv (post_lt any).
Proof. start parse_shadow_variable_single_arg; go; post. Qed.

Global Instance regexp_end_options_ok :
  Spec regexp_end_options inv (fun s _ s' => s' = s).
Proof. start regexp_end_options; go; reflexivity. Qed.

(** Strings. *)
Definition string_node (n : node) : Prop :=
  expr_node n /\ can_be_concatenated_to_a_string n = true.

Lemma string_wf : forall t s, wf_tok t -> expr_node (N_String t s).
Proof. intros t s H. nodes. Qed.

Lemma interpolated_inv : forall t l, expr_node (N_InterpolatedString t l) ->
  wf_tok t /\ l <> [] /\ Forall (fun c => string_part c = true) l /\ Forall expr_node l.
Proof.
  intros t l [H _]. pose proof (nwf_special _ H) as [H1 H2].
  pose proof (nwf_tok _ H) as H3. pose proof (expr_children _ H eq_refl) as H4. auto.
Qed.

Lemma wf_set_pos : forall t a b, wf_tok t -> wf_tok (set_pos t a b).
Proof. intros t a b H. exact H. Qed.

Lemma string_node_cases : forall n, string_node n ->
  (exists t s, n = N_String t s) \/ (exists t l, n = N_InterpolatedString t l).
Proof. intros n [_ H]. destruct n; try discriminate H; eauto. Qed.

Lemma string_part_app : forall t l1 l2, wf_tok t -> l1 <> [] ->
  Forall (fun c => string_part c = true) (l1 ++ l2) -> Forall expr_node (l1 ++ l2) ->
  string_node (N_InterpolatedString t (l1 ++ l2)).
Proof.
  intros t l1 l2 H1 H2 H3 H4. split; [|reflexivity]. apply expr_intro; cbn [ntoken special children]; auto.
  split; auto. destruct l1; [contradiction|discriminate].
Qed.

Lemma append_string_node_ok : forall n1 n2,
  string_node n1 -> string_node n2 ->
  Spec (append_string_node n1 n2) inv (fun s n s' => s' = s /\ string_node n).
Proof.
  intros n1 n2 H1 H2 s Hs.
  destruct (string_node_cases n1 H1) as [(t1 & s1 & ->)|(t1 & l1 & ->)];
    destruct (string_node_cases n2 H2) as [(t2 & s2 & ->)|(t2 & l2 & ->)];
    destruct H1 as [H1 _]; destruct H2 as [H2 _]; unfold append_string_node.
  - apply wp_ret. split; auto. split; [|reflexivity]. apply string_wf. apply expr_tok in H1. exact H1.
  - destruct (interpolated_inv _ _ H2) as (Ht & Hn & Hp & He).
    pose proof (expr_tok _ H1) as Ht1. cbn [ntoken] in Ht1.
    destruct l2 as [|x l2]; [contradiction|]. inversion_clear Hp as [|? ? Hx Hp'].
    inversion_clear He as [|? ? Hx' He'].
    pose proof (expr_tok _ Hx') as Ht3.
    destruct x; try discriminate Hx; cbn [ntoken] in Ht3; apply wp_ret; (split; [reflexivity|]);
      (split; [|reflexivity]);
      (apply expr_intro; [exact Ht|cbn [special]|reflexivity|cbn [children]]);
      try (split; [discriminate|]); repeat (apply Forall_cons; [solve [auto|apply string_wf; auto]|]); auto.
  - destruct (interpolated_inv _ _ H1) as (Ht & Hn & Hp & He).
    pose proof (expr_tok _ H2) as Ht2. cbn [ntoken] in Ht2.
    assert (Happ : string_node (N_InterpolatedString t1 (l1 ++ [N_String t2 s2]))).
    { apply string_part_app; auto; apply Forall_snoc; auto. }
    destruct (rev l1) as [|x before] eqn:E.
    { destruct l1; [contradiction|]. apply (f_equal (@length node)) in E. rewrite rev_length in E. discriminate. }
    assert (El : l1 = rev before ++ [x]).
    { apply (f_equal (@rev node)) in E. rewrite rev_involutive in E. exact E. }
    assert (Hx : string_part x = true /\ expr_node x).
    { rewrite El in Hp, He. apply Forall_app in Hp. apply Forall_app in He.
      destruct Hp as [_ Hp]. destruct He as [_ He]. inversion_clear Hp. inversion_clear He. auto. }
    destruct Hx as [Hx Hx']. pose proof (expr_tok _ Hx') as Ht3.
    destruct x; try discriminate Hx; cbn [ntoken] in Ht3.
    + apply wp_ret. auto.
    + destruct before.
      * apply wp_ret. split; [reflexivity|]. apply (string_part_app t1 [_] []); auto; try discriminate; cbn [app];
          constructor; auto. apply string_wf; auto.
      * apply wp_ret. auto.
  - destruct (interpolated_inv _ _ H1) as (Ht & Hn & Hp & He).
    destruct (interpolated_inv _ _ H2) as (Ht' & Hn' & Hp' & He').
    destruct l1 as [|x l1]; [contradiction|]. destruct l2 as [|y l2]; [contradiction|].
    apply wp_ret. split; [reflexivity|]. apply string_part_app; auto; apply Forall_app; auto.
Qed.

Lemma append_string_nodes_ok : forall n1 n2,
  string_node n1 -> expr_node n2 ->
  Spec (append_string_nodes n1 n2) inv (fun s n s' => s' = s /\ string_node n).
Proof.
  intros n1 n2 H1 H2 s Hs. unfold append_string_nodes.
  destruct (can_be_concatenated_to_a_string n2) eqn:E; cbn [negb]; [|wstep].
  pose proof (append_string_node_ok n1 n2 H1 (conj H2 E) s Hs) as K.
  destruct (string_node_cases n1 H1) as [(t1 & s1 & ->)|(t1 & l1 & ->)]; exact K.
Qed.

(** Assignment targets. *)
Lemma identifier_add_to_locals_ok : forall t, wf_tok t ->
  Spec (identifier_add_to_locals t) inv (fun s _ s' => same_tokens s s').
Proof.
  intros t Ht s Hs. unfold identifier_add_to_locals. wstep.
  - wstep. unfold same_tokens; auto.
  - wstep. wstep. apply wp_add_local. intros s' E. exact E.
Qed.

Lemma same_tokens_trans : forall a b c, same_tokens a b -> same_tokens b c -> same_tokens a c.
Proof. unfold same_tokens. intros a b c H1 H2. clean. repeat split; congruence. Qed.
Lemma same_tokens_refl : forall a, same_tokens a a.
Proof. unfold same_tokens. auto. Qed.

(** The function applied to each target. *)
Definition masgn_one : node -> M unit :=
  fix one (n : node) : M unit :=
    match n with
    | N_Identifier t _ => identifier_add_to_locals t
    | N_Call _ _ _ _ | N_Colon2 _ _ _ | N_Colon3 _ _ => ret tt
    | N_Splat _ (Some (N_Identifier t _)) => identifier_add_to_locals t
    | N_Splat _ _ => ret tt
    | N_MultipleAssignment _ sub _ =>
        (fix all (sub : list node) : M unit :=
           match sub with
           | [] => ret tt
           | m :: sub' => one m ;;; all sub'
           end) sub
    | _ => crash (PUnreachable "multiple_assignment_node.cpp:32")
    end.

Lemma masgn_add_locals_cons : forall n l,
  masgn_add_locals (n :: l) = bind (masgn_one n) (fun _ => masgn_add_locals l).
Proof. reflexivity. Qed.

Fixpoint depth_of (n : node) : nat :=
  match n with
  | N_MultipleAssignment _ l _ => S (fold_right (fun m d => Nat.max (depth_of m) d) 0%nat l)
  | _ => 0%nat
  end.

Lemma masgn_one_ok : forall k n, (depth_of n <= k)%nat -> nwf n ->
  Spec (masgn_one n) inv (fun s _ s' => same_tokens s s').
Proof.
  induction k as [|k IH]; intros n Hk Hn s Hs; pose proof (nwf_tok _ Hn) as Ht;
    (destruct n; try (unfold wp, crash; cbn; tauto); try (apply wp_ret; apply same_tokens_refl));
    try (apply identifier_add_to_locals_ok; assumption).
  - cbn [depth_of] in Hk. lia.
  - cbn [masgn_one]. destruct n; try (apply wp_ret; apply same_tokens_refl).
    destruct n; try (apply wp_ret; apply same_tokens_refl).
    apply identifier_add_to_locals_ok; auto.
    apply nwf_children in Hn. inversion_clear Hn as [|? ? H _]. apply nwf_tok in H. exact H.
  - cbn [depth_of] in Hk. apply nwf_children in Hn. cbn [children] in Hn.
    change (wp (masgn_one (N_MultipleAssignment t nodes depth)) (fun _ s' => same_tokens s s') s).
    assert (Hk' : (fold_right (fun m d => Nat.max (depth_of m) d) 0%nat nodes <= k)%nat) by lia.
    clear Hk Ht. revert s Hs. induction nodes as [|m l IHl]; intros s Hs.
    + apply wp_ret. apply same_tokens_refl.
    + inversion_clear Hn as [|? ? Hm Hl]. cbn [fold_right] in Hk'.
      change (wp (bind (masgn_one m) (fun _ => masgn_one (N_MultipleAssignment t l depth)))
                (fun _ s' => same_tokens s s') s).
      apply wp_bind. eapply wp_mono; [apply IH; [lia|exact Hm|exact Hs]|].
      intros u s1 E. cbv beta in E. pose proof (same_tokens_inv _ _ E Hs) as [Hs1 _].
      eapply wp_mono; [apply IHl; [exact Hl|lia|exact Hs1]|].
      intros u' s2 E2. eapply same_tokens_trans; eauto.
  - cbn [masgn_one]. destruct n; try (apply wp_ret; apply same_tokens_refl).
    destruct n; try (apply wp_ret; apply same_tokens_refl).
    apply identifier_add_to_locals_ok; auto.
    apply nwf_children in Hn. inversion_clear Hn as [|? ? H _]. apply nwf_tok in H. exact H.
Qed.

Lemma masgn_add_locals_ok : forall l, Forall nwf l ->
  Spec (masgn_add_locals l) inv (fun s _ s' => same_tokens s s').
Proof.
  induction l as [|n l IH]; intros Hl s Hs.
  - apply wp_ret. apply same_tokens_refl.
  - inversion_clear Hl as [|? ? Hn Hl']. rewrite masgn_add_locals_cons. apply wp_bind.
    eapply wp_mono; [eapply masgn_one_ok; [reflexivity|exact Hn|exact Hs]|].
    intros u s1 E. cbv beta in E. pose proof (same_tokens_inv _ _ E Hs) as [Hs1 _].
    eapply wp_mono; [apply IH; [exact Hl'|exact Hs1]|].
    intros u' s2 E2. eapply same_tokens_trans; eauto.
Qed.

Lemma add_assignment_locals_ok : forall n, nwf n ->
  Spec (add_assignment_locals n) inv (fun s _ s' => same_tokens s s' /\ target n = true).
Proof.
  intros n Hn s Hs. pose proof (nwf_tok _ Hn) as Ht. unfold add_assignment_locals.
  destruct n; try (apply wp_throw_unexpected; exact Ht);
    try (apply wp_ret; split; [apply same_tokens_refl|reflexivity]).
  - eapply wp_mono; [apply identifier_add_to_locals_ok; assumption|]. intros a s' E; split; auto.
  - eapply wp_mono; [apply masgn_add_locals_ok; [exact (nwf_children _ Hn)|assumption]|].
    intros a s' E; split; auto.
Qed.

(** Calls. *)
Definition call_node (n : node) : Prop :=
  match n with
  | N_Call _ _ _ _ | N_SafeCall _ _ _ _ | N_Super _ _ _ | N_Undef _ _ | N_Yield _ _ => True
  | _ => False
  end.

Lemma to_node_with_args_ok : forall n, expr_node n ->
  Spec (to_node_with_args n) inv (fun s c s' => s' = s /\ expr_node c /\ call_node c).
Proof.
  intros n Hn s Hs. pose proof (expr_tok _ Hn) as Ht. unfold to_node_with_args.
  destruct n; try (wstep; wstep; wstep; fail);
    try (apply wp_ret; split; [reflexivity|split; [assumption|exact I]]).
  - destruct Hn as [Hn _]. pose proof (expr_children _ Hn eq_refl) as Hc. cbn [children ntoken] in *.
    inversion_clear Hc. wstep. split; [reflexivity|split; [nodes|exact I]].
  - destruct Hn as [Hn _]. pose proof (nwf_special _ Hn) as [Hl _]. cbn [ntoken] in *.
    wstep. wstep. wstep. split; [reflexivity|split; [nodes|exact I]].
Qed.

Lemma add_arg_ok : forall c a, expr_node c -> call_node c -> expr_node a ->
  expr_node (add_arg c a) /\ call_node (add_arg c a) /\
  can_accept_a_block (add_arg c a) = can_accept_a_block c.
Proof.
  intros c a [Hc Hk] Hca Ha.
  destruct c; try contradiction; (split; [|split; [exact I|reflexivity]]); cbn [add_arg];
    pose proof (expr_children _ Hc eq_refl) as Hch; pose proof (nwf_tok _ Hc) as Ht; cbn [children ntoken] in *;
    try (inversion_clear Hch); apply expr_intro; cbn [ntoken special children]; auto;
    try (constructor; auto); apply Forall_snoc; auto.
Qed.

Lemma parse_proc_call_expression_ok : forall lhs, expr_node lhs ->
  Spec (parse_proc_call_expression lhs) at_some (post_lt expr_node).
Proof. intros lhs Hl. start parse_proc_call_expression; go; post. Qed.

Lemma parse_safe_send_expression_ok : forall lhs, expr_node lhs ->
  Spec (parse_safe_send_expression lhs) at_some (post_lt expr_node).
Proof.
  intros lhs Hl. start parse_safe_send_expression. do 6 wstep.
  match goal with |- wp (bind _ _) _ ?s' => wstep; tall (ty (current s')) end.
  all: go; post.
Qed.

Lemma parse_send_expression_ok : forall lhs, expr_node lhs ->
  Spec (parse_send_expression lhs) at_some (post_lt expr_node).
Proof.
  intros lhs Hl. start parse_send_expression. do 6 wstep.
  match goal with |- wp (bind _ _) _ ?s' => wstep; tall (ty (current s')) end.
  all: go; post.
Qed.

Global Hint Extern 1 (Spec (append_string_nodes _ _) _ _) =>
  (apply append_string_nodes_ok; nodes) : typeclass_instances.
Global Hint Extern 1 (Spec (identifier_add_to_locals _) _ _) =>
  (apply identifier_add_to_locals_ok; nodes) : typeclass_instances.
Global Hint Extern 1 (Spec (add_assignment_locals _) _ _) =>
  (apply add_assignment_locals_ok; nodes) : typeclass_instances.
Global Hint Extern 1 (Spec (to_node_with_args _) _ _) =>
  (apply to_node_with_args_ok; nodes) : typeclass_instances.
Global Hint Extern 1 (Spec (parse_proc_call_expression _) _ _) =>
  (apply parse_proc_call_expression_ok; nodes) : typeclass_instances.
Global Hint Extern 1 (Spec (parse_safe_send_expression _) _ _) =>
  (apply parse_safe_send_expression_ok; nodes) : typeclass_instances.
Global Hint Extern 1 (Spec (parse_send_expression _) _ _) =>
  (apply parse_send_expression_ok; nodes) : typeclass_instances.

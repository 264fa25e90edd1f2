(** * ParseSafeB: bodies, collections and strings *)
From Coq Require Import Strings.String NArith ZArith Bool List Lia.
From Coq Require Import ZifyBool ZifyNat ZifyN.
From Verif Require Import Base Token Node ParserBase ParserModel ParseHoare ParseNodes ParseTac ParseSafeA.
Import ListNotations.
Open Scope N_scope.
Open Scope list_scope.
Open Scope monad_scope.

Definition pre_any (bound : nat) (s : pstate) : Prop := inv s /\ (W s <= bound)%nat.

Ltac begin f :=
  intros s Hs; unfold at_ty, at_some, pre_any in Hs; clean; types; unfold f; cbv zeta.
Ltac side ::=
  unfold pre_lt, pre_le, pre_ty, at_ty, at_some, pre_any; cbv beta;
  repeat match goal with |- _ /\ _ => split end;
  try assumption; try lia; try solve [nonterm];
  try (solve [cbn [In]; rew_types; tauto]);
  try (solve [follow; cbn [In]; rew_types; tauto]);
  try (solve [rew_types; reflexivity]).

(** A loop with invariant [Inv], consuming tokens in every round. *)
Ltac loop I0 :=
  apply wp_loop with (Inv := I0) (mu := fun _ s' => W s').

Section Safe.
Variable expr : N -> iter_allow -> M node.
Variables fuel bound : nat.
Context {HE : ExprOK expr bound} {HF : FuelOK bound fuel}.

Lemma fuel_lt : (bound < fuel)%nat.
Proof. exact HF. Qed.

Global Instance expr_spec : forall p ia, Spec (expr p ia) (pre_lt bound) (post_lt expr_node).
Proof. exact HE. Qed.
Global Instance pexpr_spec : forall p, Spec (pexpr expr p) (pre_lt bound) (post_lt expr_node).
Proof. intros p. unfold pexpr. apply HE. Qed.

Lemma comma_items_ok : forall A (P : A -> Prop) (item : M A) acc,
  Spec item (pre_lt bound) (post_lt P) -> Forall P acc ->
  Spec (comma_items fuel item acc) (pre_any bound) (post_le (Forall P)).
Proof.
  intros A P item acc Hi Ha. begin (@comma_items). pose proof fuel_lt.
  loop (fun (l : list A) s' => le_ext s s' /\ Forall P l).
  - intros l s1 H3. clean. go; post.
  - post.
  - lia.
Qed.

Global Instance parse_comma_separated_expressions_ok :
  Spec (parse_comma_separated_expressions expr fuel []) (pre_lt bound) (post_lt (Forall expr_node)).
Proof.
  begin parse_comma_separated_expressions. wstep. wstep.
  eapply wp_use; [apply (comma_items_ok node expr_node); [typeclasses eauto|nodes]|side|].
  intros; clean. post.
Qed.

(** *** Bodies *)

(** What the continuation at [rescue] or [ensure] does. *)
Definition rescue_spec (f : token -> list node -> M node) : Prop :=
  forall t l, wf_tok t -> Forall expr_node l ->
  Spec (f t l) (fun s => pre_lt bound s /\ In (ty (current s)) [T_RescueKeyword; T_EnsureKeyword])
    (fun s n s' => inv s' /\ (W s' + 4 <= W s)%nat /\ p_precs s' = p_precs s /\ (D s <= D s')%nat /\
       expr_node n /\ exists t before, p_prev s' = t :: before /\ weight1 t = 2%nat).

Lemma body_with_ok : forall rescue p is_end,
  match rescue with Some f => rescue_spec f | None => True end ->
  Spec (body_with expr fuel rescue p is_end) (pre_lt bound) (post_le good_body).
Proof.
  intros rescue p is_end Hr. begin (@body_with). pose proof fuel_lt.
  do 8 wstep.
  loop (fun (l : list node) s' => inv s' /\ (W s' <= W s)%nat /\ p_precs s' = p_precs s /\ (S (D s) <= D s')%nat /\
          Forall expr_node l).
  - intros l s2 Hi. clean. wstep. wstep. wstep.
    + go; post.
    + assert (Hother : wp (e <- pexpr expr p ;; c <- cty ;;
           (if is_end c then pop_depth ;;; ret (inr (current s', l ++ [e]))
            else next_expression ;;; ret (inl (l ++ [e]))))
          (fun r s'0 => match r with
                        | inl a' => (inv s'0 /\ (W s'0 <= W s)%nat /\ p_precs s'0 = p_precs s /\ (S (D s) <= D s'0)%nat /\
                             Forall expr_node a') /\ (W s'0 < W s2)%nat
                        | inr b => post_le good_body s b s'0
                        end) s2).
      { go; post. }
      destruct rescue as [f|]; [|exact Hother].
      destruct (ttype_eqb (ty (current s2)) T_RescueKeyword || ttype_eqb (ty (current s2)) T_EnsureKeyword) eqn:E;
        [|exact Hother].
      assert (Hty : In (ty (current s2)) [T_RescueKeyword; T_EnsureKeyword]).
      { apply orb_true_iff in E. destruct E as [E|E]; apply ttype_eqb_true in E; rewrite E; cbn; auto. }
      wstep. eapply wp_use; [apply Hr; nodes|side|]. cbv beta. intros n s3 Hn. clean.
      wstep. eapply wp_rewind; [assumption|eassumption|]. intros s4 ? ? ? ? ?. wstep. post.
  - repeat (split; [solve [assumption|lia|congruence]|]). nodes.
  - lia.
Qed.

Global Instance parse_body_until_ok : forall is_end,
  Spec (parse_body_until expr fuel is_end) (pre_lt bound) (post_le good_body).
Proof. intros is_end. unfold parse_body_until. apply body_with_ok. exact I. Qed.
Global Instance parse_body_to_ok : forall t,
  Spec (parse_body_to expr fuel t) (pre_lt bound) (post_le good_body).
Proof. intros t. unfold parse_body_to. apply body_with_ok. exact I. Qed.

Global Instance parse_rescue_clause_ok :
  Spec (parse_rescue_clause expr fuel) (pre_ty bound [T_RescueKeyword])
    (fun s n s' => lt_ext s s' /\ (W s' + 2 <= W s)%nat /\ expr_node n).
Proof.
  begin parse_rescue_clause. do 5 wstep. wstep.
  apply wp_bind. eapply wp_mono with (P := fun l s1 => le_ext s' s1 /\ Forall expr_node l).
  { wstep.
    - wstep. wstep. eapply wp_use; [apply (comma_items_ok node expr_node); [typeclasses eauto|nodes]|side|].
      intros; clean; post.
    - wstep; post. }
  intros l s1 Hl. clean. wstep. wstep. apply wp_bind.
  eapply wp_mono with (P := fun o s2 => le_ext s1 s2 /\ match o with Some n => expr_node n /\ target n = true | None => True end).
  { go; post. }
  intros o s2 Ho. clean. go. post. destruct o; clean; apply expr_intro; cbn [ntoken special children olist]; nodes.
Qed.

Global Instance parse_rest_of_begin_ok : forall t b, wf_tok t -> good_body b ->
  Spec (parse_rest_of_begin expr fuel t b) (pre_lt bound)
    (fun s n s' => inv s' /\ (W s' + 2 <= W s)%nat /\ p_precs s' = p_precs s /\ (D s <= D s')%nat /\
       expr_node n /\ (exists t before, p_prev s' = t :: before /\ weight1 t = 2%nat) /\
       (ty (current s) <> T_EndKeyword -> (W s' + 4 <= W s)%nat)).
Proof.
  intros t b Ht Hb. begin (@parse_rest_of_begin). pose proof fuel_lt.
  loop (fun (acc : list node * option (token * list node) * option (token * list node)) s' =>
          let '(r, e, f) := acc in
          le_ext s s' /\ Forall expr_node r /\ good_obody e /\ good_obody f /\
          (s' = s \/ (W s' + 2 <= W s)%nat)).
  - intros [[r e] f] s1 Hi. clean. wstep. wstep. wstep.
    + go. post; try nodes.
      * eexists. eexists. split; eassumption.
      * intros. match goal with H : _ \/ _ |- _ => destruct H as [->|] end; [congruence|lia].
    + assert (Hs2 : forall s2, (W s2 + 2 <= W s1)%nat -> (W s2 + 2 <= W s)%nat) by (intros; lia).
      wstep; go; post; auto.
  - cbv beta iota. split; [apply le_ext_refl; auto|]. repeat split; auto.
  - lia.
Qed.

Lemma rescue_in_body_ok : rescue_spec (rescue_in_body expr fuel).
Proof.
  intros t l Ht Hl s [Hs Hty]. clean. unfold rescue_in_body.
  eapply wp_mono; [apply parse_rest_of_begin_ok; [assumption|nodes|side]|].
  cbv beta. intros n s' H'. clean.
  assert (Hne : ty (current s) <> T_EndKeyword) by (types; congruence).
  repeat (split; [solve [auto]|]). eauto.
Qed.

Global Instance parse_body_rescue_ok : forall is_end,
  Spec (parse_body_rescue expr fuel is_end) (pre_lt bound) (post_le good_body).
Proof. intros is_end. unfold parse_body_rescue. apply body_with_ok. exact rescue_in_body_ok. Qed.
Global Instance parse_body_rescue_to_ok : forall t,
  Spec (parse_body_rescue_to expr fuel t) (pre_lt bound) (post_le good_body).
Proof. intros t. unfold parse_body_rescue_to. apply parse_body_rescue_ok. Qed.

Global Instance parse_begin_ok : Spec (parse_begin expr fuel) (pre_le bound) (post_lt expr_node).
Proof.
  begin parse_begin. do 11 wstep.
  - wstep.
  - wstep. eapply wp_use; [apply parse_rest_of_begin_ok; nodes|side|]. cbv beta. intros nd s3 Hn. clean.
    destruct nd; try solve [wstep; post]. destruct rescue_nodes; [|solve [wstep; post]].
    destruct else_body; [solve [wstep; post]|]. destruct ensure_body; [solve [wstep; post]|].
    match goal with H : expr_node _ |- _ =>
      destruct H as [Hw _]; pose proof (nwf_special _ Hw) as Hsp; pose proof (expr_children _ Hw eq_refl) as Hc end.
    cbn [special children obody] in *. rewrite !app_nil_r in Hc.
    wstep. wstep. destruct (snd body) as [|? [|? ?]] eqn:E.
    + wstep. post.
    + inversion_clear Hc. wstep; wstep; post.
    + wstep. post.
Qed.

(** *** Hashes and arrays *)
Global Instance parse_keyword_splat_ok : Spec (parse_keyword_splat expr) (pre_le bound) (post_lt expr_node).
Proof. begin parse_keyword_splat. go. post. Qed.

Lemma hash_value_ok : forall p k acc, Forall expr_node acc ->
  Spec (hash_value expr p k acc) (pre_lt bound) (post_le (Forall expr_node)).
Proof.
  intros p k acc Ha. begin hash_value. go; post.
Qed.

Lemma parse_hash_inner_none_ok : forall p c b,
  Spec (parse_hash_inner expr fuel p c b None) (pre_lt bound) (post_lt expr_node).
Proof.
  intros p c b. begin parse_hash_inner. pose proof fuel_lt. do 5 wstep.
  eapply wp_use; [apply hash_value_ok; nodes|side|]. cbv beta. intros l s2 Hl. clean.
  loop (fun (l : list node) s' => le_ext s2 s' /\ Forall expr_node l).
  - intros l1 s3 Hi. clean. do 3 wstep.
    + do 5 wstep.
      * wstep. post.
      * do 3 wstep. eapply wp_use; [apply hash_value_ok; nodes|side|]. cbv beta. intros l2 s5 Hl2. clean.
        wstep. post.
    + wstep. post.
  - post.
  - lia.
Qed.

Lemma parse_hash_inner_some_ok : forall p c b k, expr_node k ->
  Spec (parse_hash_inner expr fuel p c b (Some k)) (pre_lt bound) (post_le expr_node).
Proof.
  intros p c b k Hk. begin parse_hash_inner. pose proof fuel_lt. do 5 wstep.
  eapply wp_use; [apply hash_value_ok; nodes|side|]. cbv beta. intros l s2 Hl. clean.
  loop (fun (l : list node) s' => le_ext s2 s' /\ Forall expr_node l).
  - intros l1 s3 Hi. clean. do 3 wstep.
    + do 5 wstep.
      * wstep. post.
      * do 3 wstep. eapply wp_use; [apply hash_value_ok; nodes|side|]. cbv beta. intros l2 s5 Hl2. clean.
        wstep. post.
    + wstep. post.
  - post.
  - lia.
Qed.
End Safe.

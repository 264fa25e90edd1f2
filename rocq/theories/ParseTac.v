(** * ParseTac: tactics for stepping through the parsing functions *)
From Coq Require Import Strings.String NArith ZArith Bool List Lia.
From Coq Require Import ZifyBool ZifyNat ZifyN.
From Verif Require Import Base Token Node ParserBase ParserModel ParseHoare ParseNodes.
Import ListNotations.
Open Scope N_scope.
Open Scope list_scope.
Open Scope monad_scope.

(** Usual pre- and postconditions. *)
Definition pre_lt (bound : nat) (s : pstate) : Prop := inv s /\ (W s < bound)%nat.
Definition pre_le (bound : nat) (s : pstate) : Prop :=
  inv s /\ (W s <= bound)%nat /\ terminal (ty (current s)) = false.
(** The same, at a token of one of the types [l]. *)
Definition pre_ty (bound : nat) (l : list ttype) (s : pstate) : Prop :=
  inv s /\ (W s <= bound)%nat /\ In (ty (current s)) l.
Definition post_lt {A} (P : A -> Prop) (s : pstate) (a : A) (s' : pstate) : Prop := lt_ext s s' /\ P a.
Definition post_le {A} (P : A -> Prop) (s : pstate) (a : A) (s' : pstate) : Prop := le_ext s s' /\ P a.
Definition any {A} (a : A) : Prop := True.

Class ExprOK (expr : N -> iter_allow -> M node) (bound : nat) : Prop :=
  expr_ok : forall p ia, Spec (expr p ia) (pre_lt bound) (post_lt expr_node).
Class FuelOK (bound fuel : nat) : Prop := fuel_ok : (bound < fuel)%nat.
Global Hint Mode ExprOK ! - : typeclass_instances.

Ltac is_ctor c :=
  lazymatch c with
  | T_Eof => idtac
  | _ => let h := c in is_constructor h
  end.

Ltac clean :=
  repeat
    match goal with
    | H : _ /\ _ |- _ => destruct H
    | H : le_ext _ _ |- _ => unfold le_ext in H
    | H : lt_ext _ _ |- _ => unfold lt_ext in H
    | H : pre_lt _ _ |- _ => unfold pre_lt in H
    | H : pre_le _ _ |- _ => unfold pre_le in H
    | H : pre_ty _ _ _ |- _ => unfold pre_ty in H
    | H : post_lt _ _ _ _ |- _ => unfold post_lt in H
    | H : post_le _ _ _ _ |- _ => unfold post_le in H
    | H : any _ |- _ => clear H
    | H : True |- _ => clear H
    | H : ttype_eqb _ _ = true |- _ => apply ttype_eqb_true in H
    | H : andb _ _ = true |- _ => apply andb_prop in H
    | H : same_tokens ?s ?s', Hi : inv ?s |- _ => apply same_tokens_inv in H; [|exact Hi]
    | H : exists _, _ |- _ => destruct H
    | H : @eq pstate ?a _ |- _ => is_var a; subst a
    end.

(** Splits [In (ty (current s)) [T_A; T_B]]. *)
Ltac types :=
  repeat
    match goal with
    | H : In (ty _) _ |- _ =>
        cbn [In] in H;
        repeat (let H' := fresh "Ety" in destruct H as [H'|H]; [symmetry in H'|]);
        [..|destruct H]
    end.

Ltac rew_types :=
  repeat
    match goal with
    | E : ty ?t = ?c |- context [ty ?t] => is_constructor c; rewrite E
    end.

Ltac follow :=
  match goal with
  | H : current ?s = _ |- context [current ?s] => rewrite H
  end.

Ltac nonterm :=
  first
    [ assumption
    | match goal with E : ty ?t = ?c |- context [ty ?t] => is_constructor c; rewrite E; reflexivity end
    | follow; nonterm ].

Ltac tok :=
  first
    [ assumption
    | exact I
    | apply inv_current; assumption
    | apply expr_tok; assumption
    | apply nwf_tok; assumption
    | apply body_tok; assumption
    | match goal with H : current ?s = nth 1 ?l no_token |- context [nth 1 ?l no_token] => rewrite <- H end; tok ].

Ltac haslit :=
  first
    [ assumption
    | match goal with
      | Hi : inv ?s, E : ty (current ?s) = _ |- has_lit (current ?s) =>
          let H := fresh "Hw" in
          pose proof (inv_current s Hi) as H; unfold wf_tok in H; rewrite E in H; exact H
      | Hw : wf_tok ?t, E : ty ?t = _ |- has_lit ?t =>
          let H := fresh "Hw" in
          pose proof Hw as H; unfold wf_tok in H; rewrite E in H; exact H
      end
    | match goal with H : current ?s = nth 1 ?l no_token |- context [nth 1 ?l no_token] => rewrite <- H end; haslit
    | follow; haslit ].

Ltac ext :=
  unfold le_ext, lt_ext in *; clean;
  repeat match goal with |- _ /\ _ => split end;
  solve [assumption | lia | congruence].

Ltac weights :=
  match goal with
  | H : (_ + weight1 ?t)%nat = _ |- _ =>
      let Hp := fresh "Hwt" in
      first
        [ match goal with E : ty t = ?c |- _ =>
            is_constructor c;
            assert (Hp : weight1 t = 2%nat) by (unfold weight1; rewrite E; reflexivity);
            rewrite Hp in H
          end
        | match goal with E : ty t = ?c |- _ =>
            is_constructor c;
            assert (Hp : weight1 t = 1%nat) by (unfold weight1; rewrite E; reflexivity);
            rewrite Hp in H
          end
        | pose proof (weight1_pos t) as Hp; revert Hp; generalize dependent (weight1 t); intros ]
  end.

Ltac lists :=
  repeat
    match goal with
    | |- Forall _ [] => constructor
    | |- Forall _ (_ ++ _) => apply Forall_app; split
    | |- Forall _ (_ :: _) => constructor
    end.

(** [expr_node], [nwf], ... of a node that was just built. *)
Ltac nodes :=
  lazymatch goal with
  | |- any _ => exact I
  | |- True => exact I
  | |- _ /\ _ => split; nodes
  | |- wf_tok _ => tok
  | |- has_lit _ => haslit
  | |- Forall _ [] => constructor
  | |- Forall _ (_ ++ _) => apply Forall_app; split; nodes
  | |- Forall _ (_ :: _) => first [assumption | constructor; nodes]
  | |- Forall expr_node (obody _) => first [assumption | apply obody_list; nodes]
  | |- Forall expr_node (olist _) => first [assumption | apply olist_list; nodes]
  | |- Forall expr_node (snd ?b) => first [assumption | apply body_list; assumption | cbn [snd]; nodes]
  | |- Forall nwf ?l => first [assumption | apply expr_nwf_list; nodes]
  | |- Forall (fun c => is_arg c = true) ?l => first [assumption | apply arg_is_arg_list; nodes]
  | |- Forall expr_node ?l => first [assumption | apply arg_expr_list; nodes]
  | |- good_body (_, _) => split; cbn [fst snd]; nodes
  | |- good_obody (Some _) => cbn [good_obody]; nodes
  | |- good_obody None => exact I
  | |- good_onode (Some _) => cbn [good_onode]; nodes
  | |- good_onode None => exact I
  | |- expr_node (block_or_only _) => apply block_or_only_ok; nodes
  | |- expr_node ?n =>
      first
        [ assumption
        | apply expr_intro;
          [cbn [ntoken]; nodes|cbn [special]; nodes|reflexivity|cbn [children olist obody snd fst app]; nodes] ]
  | |- nwf ?n =>
      first
        [ assumption
        | apply expr_nwf; assumption
        | apply nwf_expr;
          [cbn [ntoken]; nodes|cbn [special]; nodes|cbn [children olist obody snd fst app]; nodes]
        | apply nwf_any;
          [cbn [ntoken]; nodes|cbn [special]; nodes|reflexivity|cbn [children olist obody snd fst app]; nodes] ]
  | |- pat_node _ => first [assumption | split; [nodes|reflexivity]]
  | |- arg_node _ => first [assumption | split; [nodes|reflexivity]]
  | |- identifier_type (ty ?t) = true =>
      first [assumption | nonterm]
  | |- _ => first [assumption | reflexivity | solve [auto] | discriminate]
  end.

Ltac post :=
  unfold post_lt, post_le; cbv beta;
  repeat match goal with |- _ /\ _ => split end;
  try solve [ext]; try solve [nodes].

(** Case analysis on a token type or a node: the default branch once, the others
    each.  [dummy] is a constructor that falls under the default branch. *)
Ltac tcase x dummy :=
  lazymatch goal with
  | |- wp ?m ?Q ?s =>
      let f := eval pattern x in m in
      lazymatch f with
      | ?g _ =>
          let d := eval cbv beta iota in (g dummy) in
          let H := fresh "Hdef" in
          let K := fresh "Hall" in
          let y := fresh "y" in
          let E := fresh "Ety" in
          assert (H : wp d Q s);
          [ | assert (K : forall y, x = y -> wp (g y) Q s);
              [ intros y E; destruct y; try exact H; clear H; cbv beta iota
              | exact (K x eq_refl) ] ]
      end
  end.

(** Case analysis on every token type, for a branch that mentions the type. *)
Ltac tall x :=
  lazymatch goal with
  | |- wp ?m ?Q ?s =>
      let f := eval pattern x in m in
      lazymatch f with
      | ?g _ =>
          let K := fresh "Hall" in
          let y := fresh "y" in
          let E := fresh "Ety" in
          assert (K : forall y, x = y -> wp (g y) Q s);
          [ intros y E; destruct y; cbv beta iota | exact (K x eq_refl) ]
      end
  end.

Ltac compute_if :=
  match goal with
  | |- wp (if ?b then _ else _) _ _ =>
      let v := eval vm_compute in b in
      is_constructor v; replace b with v by reflexivity; cbv iota
  | |- wp (if ?b then _ else _) _ _ =>
      match b with
      | context [ty ?t] =>
          match goal with E : ty t = ?c |- _ => is_constructor c; rewrite E end;
          match goal with |- wp (if ?b' then _ else _) _ _ =>
            let v := eval vm_compute in b' in
            is_constructor v;
            replace b' with v by reflexivity; cbv iota
          end
      end
  end.

Ltac side :=
  unfold pre_lt, pre_le, pre_ty; cbv beta;
  repeat match goal with |- _ /\ _ => split end;
  try assumption; try lia; try solve [nonterm];
  try (solve [cbn [In]; rew_types; tauto]);
  try (solve [follow; cbn [In]; rew_types; tauto]).

Ltac wstep :=
  lazymatch goal with
  | |- wp (bind _ _) _ _ => apply wp_bind
  | |- wp (ret _) _ _ => apply wp_ret; cbv beta
  | |- wp cur _ _ => apply wp_cur; cbv beta
  | |- wp cty _ _ => apply wp_cty; cbv beta
  | |- wp peek _ _ => apply wp_peek; cbv beta
  | |- wp prev _ _ => apply wp_prev; cbv beta
  | |- wp precs _ _ => apply wp_precs; cbv beta
  | |- wp get_file _ _ => apply wp_get_file; cbv beta
  | |- wp get_locals _ _ => apply wp_get_locals; cbv beta
  | |- wp (cur_is _) _ _ => apply wp_cur_is; cbv beta
  | |- wp (is_local _) _ _ => apply wp_is_local; intros ?; cbv beta
  | |- wp (set_locals _) _ _ => apply wp_set_locals; intros ? ?; clean; cbv beta
  | |- wp (add_local _) _ _ => apply wp_add_local; intros ? ?; clean; cbv beta
  | |- wp (add_local_exact _) _ _ => apply wp_add_local_exact; intros ? ?; clean; cbv beta
  | |- wp (with_locals _ _) _ _ => unfold with_locals
  | |- wp advance _ _ =>
      apply wp_advance; [assumption|nonterm|intros ? ? ? ? ? ? ?; try weights; cbv beta]
  | |- wp (push_prec _) _ _ => apply wp_push_prec; [assumption|intros; cbv beta]
  | |- wp (push_depth _) _ _ => apply wp_push_depth; [assumption|intros; cbv beta]
  | |- wp pop_depth _ _ => apply wp_pop_depth; [assumption| |intros; cbv beta];
      [repeat match goal with Hi : inv ?x |- _ => pose proof (inv_D x Hi); revert Hi end; intros; lia|]
  | |- wp incr_depth _ _ => apply wp_incr_depth; [assumption|intros; cbv beta]
  | |- wp decr_depth _ _ => apply wp_decr_depth; [assumption|intros; cbv beta]
  | |- wp (throw _) _ _ => apply wp_throw
  | |- wp (unexpected _) _ _ => apply wp_unexpected; assumption
  | |- wp (throw_unexpected _ _) _ _ => apply wp_throw_unexpected; tok
  | |- wp (throw_error _ _) _ _ => apply wp_throw_error; tok
  | |- wp (expect _ _) _ _ => apply wp_expect; [assumption|intros ?; cbv beta]
  | |- wp validate_current_token _ _ => apply wp_validate; [assumption|intros ?; cbv beta]
  | |- wp skip_newlines _ _ => apply wp_skip_newlines; [assumption|intros ? ? ? ? ? ? ?; cbv beta]
  | |- wp next_expression _ _ => apply wp_next_expression; [assumption|intros ? ? ? ? ?; cbv beta]
  | |- wp (literal_string _) _ _ => apply wp_literal_string; [haslit|intros ? ?; cbv beta]
  | |- wp (type_name _) _ _ =>
      apply wp_type_name; [first [assumption|nonterm]|intros ?; cbv beta]
  | |- wp (crash (PUnreachable _)) _ _ => unfold wp, crash, known_abort, known_sites; cbn; tauto
  | |- wp (if ?b then _ else _) _ _ => first [compute_if | destruct b eqn:?; clean]
  | |- wp (match ?x with _ => _ end) _ _ =>
      let X := type of x in
      lazymatch X with
      | ttype =>
          first
            [ match goal with E : x = ?c |- _ => is_constructor c; rewrite E; cbv iota end
            | tcase x T_Comment ]
      | node => tcase x (N_Redo no_token)
      | _ => destruct x eqn:?; clean
      end
  | |- wp _ _ _ =>
      eapply wp_use; [typeclasses eauto|cbv beta; side|cbv beta; intros ? ? ?; clean]
  end.

Ltac go := repeat (progress wstep).

(** Premises of a specification used as a typeclass instance. *)
Ltac inst :=
  lazymatch goal with
  | |- ExprOK _ _ => typeclasses eauto
  | |- FuelOK _ _ => typeclasses eauto
  | |- _ => nodes
  end.

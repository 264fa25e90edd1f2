(** * ParseChain: expressions as whole programs, chains, order of leaves

    Proofs.  No code is modelled here. *)
From Coq Require Import Strings.String NArith ZArith Bool Arith List Lia.
From Verif Require Import Base Token Node ParserBase ParserModel ParseHoare SpecExpr SpecProg ParsePratt ParseProg.
Import ListNotations.
Open Scope N_scope.
Open Scope list_scope.

Lemma stree_value v x : node_stree v = ST_value x -> node_tree v = x.
Proof.
  destruct v; cbn [node_stree]; intros H; try discriminate H; try (injection H as H; exact H);
    repeat match type of H with context [match ?y with _ => _ end] => destruct y; cbn [node_stree] in H end;
    try discriminate H; try (injection H as H; exact H).
Qed.

(** An expression as a whole program. *)
Theorem expression_program : forall file e sep eof,
  expr_ok e -> is_separator (ty sep) = true -> ty eof = T_Eof ->
  exists v s, parse_tokens file (text e ++ [sep; eof]) = POk v s /\ node_tree v = meaning [] e /\ p_rest s = [eof].
Proof.
  intros file e sep eof He Hs Hf.
  destruct (programs_parsed_only file (B_cons (S_value e) sep B_nil) eof) as (t & vs & s & H1 & H2 & H3 & _); auto.
  { cbn [block_ok stmt_ok]. auto. }
  cbn [block_text stmt_text] in H1. rewrite <- app_assoc in H1. cbn [app] in H1.
  cbn [block_meaning stmt_meaning] in H2.
  destruct vs as [|v [|w vs]]; try discriminate H2. cbn [map] in H2. injection H2 as H2.
  exists v, s. split; [exact H1|]. split; [apply stree_value, H2|exact H3].
Qed.

(** ** Leaves *)
Fixpoint tree_leaves (v : SpecExpr.tree) : list node :=
  match v with
  | T_leaf n => [n]
  | T_unary _ v | T_not v => tree_leaves v
  | T_op l _ r => tree_leaves l ++ tree_leaves r
  | T_and l | T_or l => flat_map tree_leaves l
  end.
Lemma conjuncts_leaves v : flat_map tree_leaves (conjuncts v) = tree_leaves v.
Proof. destruct v; cbn [conjuncts flat_map tree_leaves]; rewrite ?app_nil_r; reflexivity. Qed.
Lemma disjuncts_leaves v : flat_map tree_leaves (disjuncts v) = tree_leaves v.
Proof. destruct v; cbn [disjuncts flat_map tree_leaves]; rewrite ?app_nil_r; reflexivity. Qed.
Lemma both_leaves v w : tree_leaves (both v w) = tree_leaves v ++ tree_leaves w.
Proof. unfold both. cbn [tree_leaves]. rewrite flat_map_app, !conjuncts_leaves. reflexivity. Qed.
Lemma either_leaves v w : tree_leaves (either v w) = tree_leaves v ++ tree_leaves w.
Proof. unfold either. cbn [tree_leaves]. rewrite flat_map_app, !disjuncts_leaves. reflexivity. Qed.
Lemma meaning_leaves locals e : tree_leaves (meaning locals e) = map (leaf locals) (leaves e).
Proof.
  induction e as [t|o e IH c|t e IH|l IHl t r IHr]; cbn [meaning leaves]; auto.
  - destruct (ty t); exact IH.
  - rewrite map_app, <- IHl, <- IHr. unfold meaning_of. destruct (ty t); try reflexivity; apply both_leaves || apply either_leaves.
Qed.
Lemma node_tree_leaves : forall n, tree_leaves (node_tree n) = node_leaves n.
Proof.
  fix IH 1. destruct n; cbn [node_tree node_leaves tree_leaves]; try reflexivity;
    rewrite ?both_leaves, ?either_leaves, ?IH; reflexivity.
Qed.

(** ** Chains *)
Lemma chain_cons f p more : chain f (p :: more) = chain (E_binary f (fst p) (snd p)) more.
Proof. reflexivity. Qed.

Lemma chain_meaning locals more f : 
  meaning locals (chain f more) =
  fold_left (fun v p => meaning_of (ty (fst p)) v (meaning locals (snd p))) more (meaning locals f).
Proof.
  revert f. induction more as [|(t & e) more IH]; intros f; [reflexivity|].
  rewrite chain_cons, IH. cbn [fold_left fst snd meaning]. reflexivity.
Qed.

(** Chains of one operator level: [ok] operands stay whole. *)
Lemma chain_ok (lv : N) (op : ttype -> bool) (good : SpecExpr.expr -> Prop) :
  (forall t, op t = true -> is_binary t = true /\ is_sign t = false /\ ruby_level t = lv /\ ruby_assoc t = ToLeft /\
     ttype_eqb t T_StarStar = false /\ ttype_eqb t T_Comparison = false) ->
  (forall e, good e -> expr_ok e /\ right_edge ruby_level ruby_unary (fun x => lv <=? x) e = true /\
     left_edge ruby_level (fun x => lv <? x) e = true) ->
  forall more f, expr_ok f -> right_edge ruby_level ruby_unary (fun x => lv <=? x) f = true ->
    Forall (fun p => op (ty (fst p)) = true /\ good (snd p)) more ->
    expr_ok (chain f more) /\ right_edge ruby_level ruby_unary (fun x => lv <=? x) (chain f more) = true.
Proof.
  intros Hop Hgood. induction more as [|(t & e) more IH]; intros f Hf Hr HF; [auto|].
  rewrite chain_cons. inversion HF as [|x y [Ht He] HF']; subst. cbn [fst snd] in *.
  destruct (Hop _ Ht) as (B & S & L & A & X1 & X2). destruct (Hgood _ He) as ((W1 & G1 & U1) & R1 & L1).
  destruct Hf as (W0 & G0 & U0).
  apply IH; auto.
  - split; [|split].
    + cbn [well_formed]. repeat split; auto. rewrite S. discriminate.
    + unfold ruby_grouped in *. cbn [grouped]. rewrite G0, G1, A, L, Hr, L1. reflexivity.
    + cbn [unexceptional]. rewrite U0, U1, X1, X2. reflexivity.
  - cbn [right_edge]. rewrite L, N.leb_refl, R1. reflexivity.
Qed.

Lemma right_low e : well_formed e -> right_edge ruby_level ruby_unary (fun x => 1 <=? x) e = true.
Proof.
  induction e as [t|o e IH c|t e IH|l IHl t r IHr]; cbn [well_formed right_edge]; intros H; auto; apply andb_true_iff; split.
  - unfold ruby_unary. destruct (ty t); reflexivity.
  - apply IH, H.
  - unfold ruby_level. destruct (ty t); reflexivity.
  - apply IHr, H.
Qed.
Lemma left_low e : well_formed e -> on_left is_and_or e = false -> left_edge ruby_level (fun x => 1 <? x) e = true.
Proof.
  induction e as [t|o e IH c|t e IH|l IHl t r IHr]; cbn [well_formed left_edge on_left]; intros H K; auto.
  apply orb_false_iff in K. destruct K as [K1 K2], H as (H1 & H2 & _). apply andb_true_iff. split; [|auto].
  destruct (ty t); try discriminate H1; try discriminate K1; reflexivity.
Qed.

Theorem keyword_chain : forall f more,
  expr_ok f -> Forall (fun p => is_and_or (ty (fst p)) = true /\ expr_ok (snd p) /\ on_left is_and_or (snd p) = false) more ->
  expr_ok (chain f more).
Proof.
  intros f more Hf HF.
  apply (chain_ok 1 is_and_or (fun e => expr_ok e /\ on_left is_and_or e = false)); auto.
  - intros t Ht. destruct t; try discriminate; auto 10.
  - intros e [He Ho]. split; [exact He|]. split; [apply right_low, He|apply left_low; auto; apply He].
  - apply right_low, Hf.
Qed.

Lemma left_chain (ok : N -> bool) more : forall f,
  left_edge ruby_level ok f = true -> Forall (fun p => ok (ruby_level (ty (fst p))) = true) more ->
  left_edge ruby_level ok (chain f more) = true.
Proof.
  induction more as [|(t & e) more IH]; intros f Hf HF; [exact Hf|]. rewrite chain_cons. inversion HF; subst.
  apply IH; auto. cbn [left_edge fst snd] in *. rewrite Hf, H1. reflexivity.
Qed.
Lemma right_chain (ok : N -> bool) more : forall f,
  right_edge ruby_level ruby_unary ok f = true ->
  Forall (fun p => ok (ruby_level (ty (fst p))) = true /\ right_edge ruby_level ruby_unary ok (snd p) = true) more ->
  right_edge ruby_level ruby_unary ok (chain f more) = true.
Proof.
  induction more as [|(t & e) more IH]; intros f Hf HF; [exact Hf|]. rewrite chain_cons. inversion HF as [|x y [A B] C]; subst.
  apply IH; auto. cbn [right_edge fst snd] in *. rewrite A, B. reflexivity.
Qed.
Lemma product_ok e : product e ->
  expr_ok e /\ right_edge ruby_level ruby_unary (fun x => 5 <=? x) e = true /\ left_edge ruby_level (fun x => 5 <? x) e = true.
Proof.
  intros (f & more & -> & Hf & Cf & HF).
  assert (C : forall e ok, closed e -> right_edge ruby_level ruby_unary ok e = true /\ left_edge ruby_level ok e = true)
    by (intros e ok; destruct e; try contradiction; auto).
  split; [|split].
  - apply (chain_ok 6 is_and2 (fun e => expr_ok e /\ closed e)); auto.
    + intros t Ht. destruct t; try discriminate; auto 10.
    + intros e [He Ho]. split; [exact He|]. split; apply C, Ho.
    + apply C, Cf.
  - apply right_chain; [apply C, Cf|]. eapply Forall_impl; [|exact HF]. intros (t & e) (Ht & _ & He). cbn [fst snd] in *.
    split; [destruct (ty t); try discriminate; reflexivity|apply C, He].
  - apply left_chain; [apply C, Cf|]. eapply Forall_impl; [|exact HF]. intros (t & e) (Ht & _). cbn [fst snd] in *.
    destruct (ty t); try discriminate; reflexivity.
Qed.
Theorem symbol_chain : forall f more,
  product f -> Forall (fun p => is_or2 (ty (fst p)) = true /\ product (snd p)) more -> expr_ok (chain f more).
Proof.
  intros f more Hf HF. destruct (product_ok f Hf) as (O & R & L).
  apply (chain_ok 5 is_or2 product); auto.
  - intros t Ht. destruct t; try discriminate; auto 10.
  - apply product_ok.
Qed.

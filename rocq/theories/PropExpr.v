(** * PropExpr: operators, chains and scopes *)
From Coq Require Import Strings.String NArith ZArith Bool List.
From Verif Require Import Node ParserBase ParserModel ParseHoare Sexp Base Token Spec LexModel
  SpecExpr SpecProg ParsePratt ParseProg ParseChain.
Import ListNotations.
Open Scope list_scope.
Open Scope N_scope.

(** Tokens for the examples. *)
Definition op (t : ttype) : token := Tok t None None 0 [] 0 0 true.
Definition num (z : Z) : token := Tok T_Fixnum None None z [] 0 0 true.
Definition name (s : string) : token := Tok T_BareName (Some (s2l s)) None 0 [] 0 0 true.
Definition const (s : string) : token := Tok T_Constant (Some (s2l s)) None 0 [] 0 0 true.
Definition bin (l : expr) (t : ttype) (r : expr) : expr := E_binary l (op t) r.
Definition int (z : Z) : expr := E_leaf (num z).
Definition var (s : string) : expr := E_leaf (name s).
Definition nl : token := op T_Newline.
Definition eof : token := op T_Eof.

(** ** C27: operators bind as in Ruby *)

(** An expression grouped by Ruby's table and without the three forms below is parsed to
    the tree it stands for, with everything consumed. *)
Theorem C27_expressions : forall file e sep eof,
  well_formed e -> ruby_grouped e = true -> unexceptional e = true ->
  is_separator (ty sep) = true -> ty eof = T_Eof ->
  exists v s, parse_tokens file (text e ++ [sep; eof]) = POk v s /\ node_tree v = meaning [] e /\ p_rest s = [eof].
Proof. intros file e sep eof H1 H2 H3. exact (expression_program file e sep eof (conj H1 (conj H2 H3))). Qed.

(** In any state of the parser, at any precedence all of whose looser operators are in
    parentheses, and in front of any token that cannot belong to the expression. *)
Theorem C27_anywhere : forall e n p ia s u r,
  well_formed e -> parser_grouped e = true ->
  p_rest s = text e ++ u :: r -> (weight (p_rest s) < n)%nat ->
  ledge (fun l => p <? l) e = true -> follows (ty u) = true -> redge (fun x => bin_level (ty u) <=? x) e = true ->
  bin_level (ty u) <= p ->
  exists v, node_tree v = meaning (p_locals s) e /\ parse_expression n p ia s = POk v (moved s (text e) (u :: r)).
Proof.
  intros e n p ia s u r H1 H2 E W L F R P.
  destruct (expressions_parsed e H1 H2 n p ia s r u E W L F R P) as (v & (G & _) & X). exists v. auto.
Qed.

(** The claim for all of Ruby's table is false: in three forms the parser's tree is not
    Ruby's. *)
Definition groups_as_ruby (e : expr) : Prop :=
  exists v s, parse_tokens [] (text e ++ [nl; eof]) = POk v s /\ node_tree v = meaning [] e.
Lemma not_as_ruby e : match parse_tokens [] (text e ++ [nl; eof]) with
                      | POk v _ => node_tree v <> meaning [] e | _ => True end -> ~ groups_as_ruby e.
Proof. intros H (v & s & E & K). rewrite E in H. contradiction. Qed.
(** 2 ** 3 ** 2 *)
Theorem C27_power_refuted : exists e, well_formed e /\ ruby_grouped e = true /\ ~ groups_as_ruby e.
Proof.
  exists (bin (int 2) T_StarStar (bin (int 3) T_StarStar (int 2))). split; [|split].
  - cbn. repeat split; discriminate.
  - vm_compute. reflexivity.
  - apply not_as_ruby. vm_compute. discriminate.
Qed.
(** 1 <=> 2 < 3 *)
Theorem C27_spaceship_refuted : exists e, well_formed e /\ ruby_grouped e = true /\ ~ groups_as_ruby e.
Proof.
  exists (bin (int 1) T_Comparison (bin (int 2) T_LessThan (int 3))). split; [|split].
  - cbn. repeat split; discriminate.
  - vm_compute. reflexivity.
  - apply not_as_ruby. vm_compute. discriminate.
Qed.
(** not 1 && 2 *)
Theorem C27_not_refuted : exists e, well_formed e /\ ruby_grouped e = true /\ ~ groups_as_ruby e.
Proof.
  exists (E_unary (op T_NotKeyword) (bin (int 1) T_AmpersandAmpersand (int 2))). split; [|split].
  - cbn. repeat split; discriminate.
  - vm_compute. reflexivity.
  - apply not_as_ruby. vm_compute. discriminate.
Qed.

(** a + b * -c ** 2 == (d or e) && !f *)
Definition C27_sample : expr :=
  bin (bin (bin (var "a") T_Plus (bin (var "b") T_Star (E_unary (op T_Minus) (bin (var "c") T_StarStar (int 2)))))
         T_EqualEqual (E_paren (op T_LParen) (bin (var "d") T_OrKeyword (var "e")) (op T_RParen)))
    T_AmpersandAmpersand (E_unary (op T_Not) (var "f")).
Example C27_ex : well_formed C27_sample /\ ruby_grouped C27_sample = true /\ unexceptional C27_sample = true.
Proof.
  split; [|split; vm_compute; reflexivity]. cbn.
  repeat split; try discriminate; intros _; eexists; (split; [reflexivity|]); cbn; intuition discriminate.
Qed.
(** The specification tells groupings apart: (1 - 2) - 3 needs no parentheses, 1 - (2 - 3)
    does. *)
Example C27_spec_ex :
  ruby_grouped (bin (bin (int 1) T_Minus (int 2)) T_Minus (int 3)) = true /\
  ruby_grouped (bin (int 1) T_Minus (bin (int 2) T_Minus (int 3))) = false /\
  ruby_grouped (bin (bin (int 2) T_StarStar (int 3)) T_StarStar (int 2)) = false /\
  ruby_grouped (bin (bin (int 1) T_EqualEqual (int 2)) T_EqualEqual (int 3)) = false /\
  ruby_grouped (bin (bin (int 1) T_Plus (int 2)) T_Star (int 3)) = false.
Proof. repeat split; vm_compute; reflexivity. Qed.

(** ** C28: chains of and/or and of &&/|| *)

(** [and] and [or] bind alike and to the left. *)
Theorem C28_keywords : forall file f more sep eof,
  expr_ok f -> Forall (fun p => is_and_or (ty (fst p)) = true /\ expr_ok (snd p) /\ on_left is_and_or (snd p) = false) more ->
  is_separator (ty sep) = true -> ty eof = T_Eof ->
  exists v s, parse_tokens file (text (chain f more) ++ [sep; eof]) = POk v s /\
    node_tree v = fold_left (fun v p => meaning_of (ty (fst p)) v (meaning [] (snd p))) more (meaning [] f).
Proof.
  intros file f more sep eof Hf HF Hs He.
  destruct (expression_program file _ sep eof (keyword_chain f more Hf HF) Hs He) as (v & s & H & K & _).
  exists v, s. rewrite <- chain_meaning. auto.
Qed.

(** [||] of products of [&&] needs no parentheses. *)
Theorem C28_symbols : forall file f more sep eof,
  product f -> Forall (fun p => is_or2 (ty (fst p)) = true /\ product (snd p)) more ->
  is_separator (ty sep) = true -> ty eof = T_Eof ->
  exists v s, parse_tokens file (text (chain f more) ++ [sep; eof]) = POk v s /\
    node_tree v = fold_left (fun v p => either v (meaning [] (snd p))) more (meaning [] f).
Proof.
  intros file f more sep eof Hf HF Hs He.
  destruct (expression_program file _ sep eof (symbol_chain f more Hf HF) Hs He) as (v & s & H & K & _).
  exists v, s. split; [exact H|]. rewrite K, chain_meaning. clear - HF. revert HF. generalize (meaning [] f).
  induction more as [|(t & e) more IH]; intros m HF; [reflexivity|]. inversion HF as [|x y [Ht _] HF']; subst.
  cbn [fold_left fst snd] in *. replace (meaning_of (ty t) m (meaning [] e)) with (either m (meaning [] e)).
  - apply IH, HF'.
  - destruct (ty t); try discriminate; reflexivity.
Qed.

(** Regrouping keeps every operand, in order. *)
Theorem C28_order : forall file e sep eof,
  expr_ok e -> is_separator (ty sep) = true -> ty eof = T_Eof ->
  exists v s, parse_tokens file (text e ++ [sep; eof]) = POk v s /\ node_leaves v = map (leaf []) (leaves e).
Proof.
  intros file e sep eof He Hs Hf. destruct (expression_program file e sep eof He Hs Hf) as (v & s & H & K & _).
  exists v, s. split; [exact H|]. rewrite <- node_tree_leaves, K. apply meaning_leaves.
Qed.

(** The chain is not nested to one side: from four operands on the second and third are
    a group of their own. *)
Fixpoint nested_right (n : node) : bool :=
  match n with
  | N_LogicalAnd _ (N_LogicalAnd _ _ _) _ => false
  | N_LogicalAnd _ _ r => nested_right r
  | _ => true
  end.
Theorem C28_nesting_refuted :
  ~ (forall f more v s, expr_ok (chain f more) -> closed f ->
       Forall (fun p => ty (fst p) = T_AmpersandAmpersand /\ closed (snd p)) more ->
       parse_tokens [] (text (chain f more) ++ [nl; eof]) = POk v s -> nested_right v = true).
Proof.
  intros H.
  set (more := [(op T_AmpersandAmpersand, int 2); (op T_AmpersandAmpersand, int 3); (op T_AmpersandAmpersand, int 4)]) in H.
  destruct (parse_tokens [] (text (chain (int 1) more) ++ [nl; eof])) as [v s| | |] eqn:E;
    [|exfalso; vm_compute in E; discriminate E ..].
  specialize (H (int 1) more v s). assert (K : nested_right v = true).
  { apply H; [|exact I| |exact E].
    - unfold expr_ok. split; [|split; vm_compute; reflexivity]. cbn. repeat split; discriminate.
    - repeat constructor. }
  clear H. revert K. vm_compute in E. injection E as <- _. discriminate.
Qed.
Example C28_nesting_ex : match parse 100 [] (s2l "1 && 2 && 3"%string) with Parsed _ => True | _ => False end.
Proof. vm_compute. exact I. Qed.

Example C28_keywords_ex :
  expr_ok (var "a") /\
  Forall (fun p => is_and_or (ty (fst p)) = true /\ expr_ok (snd p) /\ on_left is_and_or (snd p) = false)
    [(op T_OrKeyword, int 1); (op T_AndKeyword, bin (int 2) T_PipePipe (int 3)); (op T_OrKeyword, int 4)].
Proof.
  split.
  - split; [|split; reflexivity]. cbn. split; [reflexivity|]. intros _. eexists. split; [reflexivity|]. cbn. intuition discriminate.
  - repeat constructor; try reflexivity; cbn; try discriminate; repeat split; discriminate.
Qed.
Example C28_symbols_ex :
  product (chain (int 1) [(op T_AmpersandAmpersand, int 2); (op T_AmpersandAmpersand, int 3)]) /\
  Forall (fun p => is_or2 (ty (fst p)) = true /\ product (snd p))
    [(op T_PipePipe, chain (int 4) [(op T_AmpersandAmpersand, int 5)]); (op T_PipePipe, chain (int 6) [])].
Proof.
  assert (I : forall z, expr_ok (int z)) by (intros z; split; [cbn; split; [reflexivity|discriminate]|split; reflexivity]).
  split; [|repeat constructor].
  - eexists _, _. split; [reflexivity|]. split; [apply I|]. split; [exact Logic.I|]. repeat constructor; apply I.
  - eexists _, _. split; [reflexivity|]. split; [apply I|]. split; [exact Logic.I|]. repeat constructor; apply I.
  - eexists _, _. split; [reflexivity|]. split; [apply I|]. split; [exact Logic.I|]. constructor.
Qed.

(** ** C30: a name is a local variable exactly where it is in sight *)

(** A program of assignments, methods, classes, modules, loops and blocks is parsed to
    the tree it stands for, in which every name is marked as a local variable exactly if
    it is in sight; afterwards the parser knows the variables of the outermost scope. *)
Theorem C30_programs : forall file b eof,
  block_ok [] b -> ty eof = T_Eof ->
  exists v s, parse_tokens file (block_text b ++ [eof]) = POk v s /\
    map node_stree (statements v) = block_meaning [] b /\
    p_rest s = [eof] /\ p_locals s = block_locals [] b.
Proof. exact programs_parsed. Qed.

(** x = 1; def f(a, b); x; a; end; class K; x; end; while x; y = x; end; y;
    g do |c|; x = c; d = c; end; d *)
Definition C30_sample : block :=
  let st b := fold_right (fun s b => B_cons s (op T_Semicolon) b) B_nil b in
  let v s := S_value (var s) in
  st [ S_assign (name "x") (op T_Equal) (int 1);
       S_def (op T_DefKeyword) (name "f") [(op T_LParen, name "a"); (op T_Comma, name "b")] [op T_RParen] (op T_Semicolon)
         (st [v "x"; v "a"]%string) (op T_EndKeyword);
       S_scope (op T_ClassKeyword) (const "K") (op T_Semicolon) (st [v "x"]%string) (op T_EndKeyword);
       S_loop (op T_WhileKeyword) (var "x") (op T_Semicolon) (st [S_assign (name "y") (op T_Equal) (var "x")]) (op T_EndKeyword);
       v "y"%string;
       S_iter (name "g") (op T_DoKeyword) [(op T_Pipe, name "c")] [op T_Pipe] (op T_Semicolon)
         (st [S_assign (name "x") (op T_Equal) (var "c"); S_assign (name "d") (op T_Equal) (var "c")]) (op T_EndKeyword);
       v "d"%string ].
Example C30_ex :
  block_ok [] C30_sample /\
  (exists a b, block_meaning [] C30_sample =
    [ST_assign (leaf [] (name "x")) (T_leaf (leaf [] (num 1)));
     ST_def (s2l "f") [s2l "a"; s2l "b"]
       [ST_value (T_leaf (N_Identifier (name "x") false)); ST_value (T_leaf (N_Identifier (name "a") true))];
     ST_class (N_Identifier (const "K") false) [ST_value (T_leaf (N_Identifier (name "x") false))];
     ST_while (T_leaf (N_Identifier (name "x") true)) [ST_assign a (T_leaf (N_Identifier (name "x") true))];
     ST_value (T_leaf (N_Identifier (name "y") true)); b;
     ST_value (T_leaf (N_Identifier (name "d") false))]) /\
  block_locals [] C30_sample = [s2l "y"; s2l "x"].
Proof.
  split; [|split].
  - assert (V : forall s, ~ In 0 (s2l s) -> expr_ok (var s)).
    { intros s Hs. split; [|split; reflexivity]. cbn. split; [reflexivity|]. intros _. eauto. }
    assert (I : forall z, expr_ok (int z)) by (intros z; split; [cbn; split; [reflexivity|discriminate]|split; reflexivity]).
    cbn. repeat match goal with |- params_ok _ _ _ _ => unfold params_ok, params_fit | |- _ /\ _ => split end;
      try reflexivity; try discriminate; auto;
      try (apply V; cbn; intuition discriminate); try (eexists; split; [reflexivity|]; cbn; intuition discriminate); eauto.
  - do 2 eexists. vm_compute. reflexivity.
  - reflexivity.
Qed.

(** The claim is false for the parameters of a lambda: they stay in sight behind it. *)
Theorem C30_lambda_refuted :
  ~ (forall p v s, ty p = T_BareName -> named p ->
       parse_tokens [] [op T_Arrow; op T_LParen; p; op T_RParen; op T_LCurlyBrace; op T_RCurlyBrace; nl; eof] = POk v s ->
       p_locals s = []).
Proof.
  intros H. specialize (H (name "x")).
  destruct (parse_tokens [] [op T_Arrow; op T_LParen; name "x"; op T_RParen; op T_LCurlyBrace; op T_RCurlyBrace; nl; eof]) as [v s| | |] eqn:E;
    [|exfalso; vm_compute in E; discriminate E ..].
  assert (K : p_locals s = []).
  { apply (H v s); auto. eexists. split; [reflexivity|]. cbn. intuition discriminate. }
  vm_compute in E. injection E as <- <-. discriminate K.
Qed.
(** -> (x) { }; x  is a lambda and then the local variable x;  f { |x| }; x  is not. *)
Example C30_lambda_ex :
  (exists a, parse 100 [] (s2l "->(x) { }; x"%string) =
     Parsed (Sexp 1 1 None [SSym (s2l "block"); a; Sexp 1 12 None [SSym (s2l "lvar"); SSym (s2l "x")]])) /\
  (exists a, parse 100 [] (s2l "f { |x| }; x"%string) =
     Parsed (Sexp 1 1 None [SSym (s2l "block"); a; Sexp 1 12 None [SSym (s2l "call"); SNil; SSym (s2l "x")]])).
Proof. split; eexists; vm_compute; reflexivity. Qed.

Print Assumptions C27_expressions.
Print Assumptions C27_anywhere.
Print Assumptions C27_power_refuted.
Print Assumptions C27_spaceship_refuted.
Print Assumptions C27_not_refuted.
Print Assumptions C28_keywords.
Print Assumptions C28_symbols.
Print Assumptions C28_order.
Print Assumptions C28_nesting_refuted.
Print Assumptions C30_programs.
Print Assumptions C30_lambda_refuted.

(** * RubyBase: tools to run the parser on the tokens of SpecRuby's programs

    Running the operations of the parser's monad, the tokens that may follow an expression
    and how tightly the parser binds them, and what is known of a parsed expression.
    No code is modelled here. *)
From Coq Require Import Strings.String NArith ZArith Bool List Lia.
From Verif Require Import Base Token Node ParserBase ParserModel Sexp SpecRuby RubyTransform RubyNodes.
From Verif Require ParseHoare.
Import ListNotations.
Open Scope N_scope.
Open Scope list_scope.

(** ** Types of tokens *)
Lemma eqb_eq a b : ttype_eqb a b = true -> a = b.
Proof. apply ParseHoare.ttype_eqb_true. Qed.
Lemma eqb_same a : ttype_eqb a a = true.
Proof. unfold ttype_eqb. apply N.eqb_refl. Qed.
Lemma eqb_diff a b : a <> b -> ttype_eqb a b = false.
Proof. intros H. destruct (ttype_eqb a b) eqn:E; [|reflexivity]. apply eqb_eq in E. contradiction. Qed.
Lemma is_a_ty x t : is_a x t = true -> ty t = x.
Proof. apply eqb_eq. Qed.

(** ** Running *)
Lemma bind_assoc {A B C} (m : M A) (k : A -> M B) (h : B -> M C) s :
  bind (bind m k) h s = bind m (fun x => bind (k x) h) s.
Proof. unfold bind. destruct (m s); reflexivity. Qed.
Lemma bind_ok {A B} (m : M A) (k : A -> M B) s x s' : m s = POk x s' -> bind m k s = k x s'.
Proof. unfold bind. intros ->. reflexivity. Qed.

Lemma text_some e : exists t w, text e = t :: w.
Proof.
  induction e; try (eexists; eexists; reflexivity); cbn [text].
  all: try match goal with H : exists t w, text ?x = _ |- exists t w, text ?x ++ _ = _ =>
    destruct H as (? & ? & ->); eexists; eexists; reflexivity end.
  all: destruct r as [|r d]; cbn [recv_text app]; [eexists; eexists; reflexivity|];
    destruct (text r); eexists; eexists; reflexivity.
Qed.
(** The first token of a program. *)
Definition head (e : rb) : token := hd no_token (text e).
Lemma hd_text e r : hd no_token (text e ++ r) = head e.
Proof. unfold head. destruct (text_some e) as (t & w & ->). reflexivity. Qed.
Lemma text_pos e : (0 < length (text e))%nat.
Proof. destruct (text_some e) as (t & w & ->). cbn. lia. Qed.

(** ** Fewer steps *)
Lemma loop_step {A B} n (body : A -> M (A + B)) a s a' s' : body a s = POk (inl a') s' ->
  mloop (S n) body a s = mloop n body a' s'.
Proof. intros H. cbn [mloop]. unfold bind. rewrite H. reflexivity. Qed.
Lemma loop_done {A B} n (body : A -> M (A + B)) a s b s' : body a s = POk (inr b) s' ->
  mloop (S n) body a s = POk b s'.
Proof. intros H. cbn [mloop]. unfold bind. rewrite H. reflexivity. Qed.

Lemma run_peek {A} (k : token -> M A) a t r ps d l f :
  bind peek k (PState a (t :: r) ps d l f) = k (hd no_token r) (PState a (t :: r) ps d l f).
Proof. unfold bind, peek. cbn. destruct r; reflexivity. Qed.

Ltac types :=
  repeat match goal with H : ty ?t = _ |- context [ty ?t] => rewrite H end;
  repeat match goal with
    | |- context [ttype_eqb ?a ?b] =>
        is_constructor a; is_constructor b;
        let v := eval vm_compute in (ttype_eqb a b) in change (ttype_eqb a b) with v
    end.
Ltac run1 :=
  match goal with
  | |- bind (bind ?m ?k) ?h ?s = _ => rewrite (bind_assoc m k h s)
  | |- bind (ret ?x) ?k ?s = _ => change (k x s = ?[r]) || change (bind (ret x) k s) with (k x s); cbv beta
  | |- bind cur ?k (PState ?a (?t :: ?r) ?ps ?d ?l ?f) = _ =>
      change (bind cur k (PState a (t :: r) ps d l f)) with (k t (PState a (t :: r) ps d l f)); cbv beta
  | |- bind cur ?k (PState ?a (text ?e ++ ?r) ?ps ?d ?l ?f) = _ =>
      change (bind cur k (PState a (text e ++ r) ps d l f))
        with (k (hd no_token (text e ++ r)) (PState a (text e ++ r) ps d l f)); rewrite (hd_text e r); cbv beta
  | |- bind cty ?k (PState ?a (?t :: ?r) ?ps ?d ?l ?f) = _ =>
      change (bind cty k (PState a (t :: r) ps d l f)) with (k (ty t) (PState a (t :: r) ps d l f)); cbv beta
  | |- bind cty ?k (PState ?a (text ?e ++ ?r) ?ps ?d ?l ?f) = _ =>
      change (bind cty k (PState a (text e ++ r) ps d l f))
        with (k (ty (hd no_token (text e ++ r))) (PState a (text e ++ r) ps d l f)); rewrite (hd_text e r); cbv beta
  | |- bind (cur_is ?x) ?k (PState ?a (?t :: ?r) ?ps ?d ?l ?f) = _ =>
      change (bind (cur_is x) k (PState a (t :: r) ps d l f)) with (k (ttype_eqb (ty t) x) (PState a (t :: r) ps d l f)); cbv beta
  | |- bind (cur_is ?x) ?k (PState ?a (text ?e ++ ?r) ?ps ?d ?l ?f) = _ =>
      change (bind (cur_is x) k (PState a (text e ++ r) ps d l f))
        with (k (ttype_eqb (ty (hd no_token (text e ++ r))) x) (PState a (text e ++ r) ps d l f)); rewrite (hd_text e r); cbv beta
  | |- bind (expect ?x ?w) ?k ?s = _ => unfold expect at 1
  | |- bind advance ?k (PState ?a (?t :: ?r) ?ps ?d ?l ?f) = _ =>
      change (bind advance k (PState a (t :: r) ps d l f)) with (k tt (PState (t :: a) r ps d l f)); cbv beta
  | |- bind (push_prec ?p) ?k (PState ?a ?r ?ps ?d ?l ?f) = _ =>
      change (bind (push_prec p) k (PState a r ps d l f)) with (k tt (PState a r (p :: ps) d l f)); cbv beta
  | |- bind pop_prec ?k (PState ?a ?r (?p :: ?ps) ?d ?l ?f) = _ =>
      change (bind pop_prec k (PState a r (p :: ps) d l f)) with (k tt (PState a r ps d l f)); cbv beta
  | |- bind precs ?k (PState ?a ?r ?ps ?d ?l ?f) = _ =>
      change (bind precs k (PState a r ps d l f)) with (k ps (PState a r ps d l f)); cbv beta
  | |- bind (push_depth ?n) ?k (PState ?a ?r ?ps ?d ?l ?f) = _ =>
      change (bind (push_depth n) k (PState a r ps d l f)) with (k tt (PState a r ps (n :: d) l f)); cbv beta
  | |- bind pop_depth ?k (PState ?a ?r ?ps (?n :: ?d) ?l ?f) = _ =>
      change (bind pop_depth k (PState a r ps (n :: d) l f)) with (k tt (PState a r ps d l f)); cbv beta
  | |- bind get_locals ?k (PState ?a ?r ?ps ?d ?l ?f) = _ =>
      change (bind get_locals k (PState a r ps d l f)) with (k l (PState a r ps d l f)); cbv beta
  | |- bind (set_locals ?x) ?k (PState ?a ?r ?ps ?d ?l ?f) = _ =>
      change (bind (set_locals x) k (PState a r ps d l f)) with (k tt (PState a r ps d x f)); cbv beta
  | |- bind (is_local ?x) ?k (PState ?a ?r ?ps ?d ?l ?f) = _ =>
      change (bind (is_local x) k (PState a r ps d l f)) with (k (existsb (str_eqb (cstr x)) l) (PState a r ps d l f)); cbv beta
  | |- bind (add_local ?x) ?k (PState ?a ?r ?ps ?d ?l ?f) = _ =>
      change (bind (add_local x) k (PState a r ps d l f)) with (k tt (PState a r ps d (cstr x :: l) f)); cbv beta
  | |- bind peek ?k (PState ?a (?t :: ?r) ?ps ?d ?l ?f) = _ =>
      rewrite (run_peek k a t r ps d l f)
  | |- bind prev ?k (PState ?a ?r ?ps ?d ?l ?f) = _ =>
      change (bind prev k (PState a r ps d l f)) with (k (hd no_token a) (PState a r ps d l f)); cbv beta
  end.
Ltac run := repeat (run1; types; cbv beta iota).

(** ** Follow tokens *)
(** How tightly the parser binds a token behind an expression; [num]: the expression is
    a number. *)
Definition level (t : ttype) (num : bool) : N :=
  match t with
  | T_Comma => 1
  | T_AndKeyword | T_OrKeyword => 5
  | T_IfKeyword | T_UnlessKeyword | T_WhileKeyword | T_UntilKeyword => 6
  | T_TernaryColon => 7
  | T_TernaryQuestion => 15
  | T_PipePipe => 16
  | T_AmpersandAmpersand => 17
  | T_DotDot | T_DotDotDot => 20
  | T_EqualEqual | T_EqualEqualEqual | T_NotEqual | T_Match => 22
  | T_Comparison | T_LessThan | T_LessThanOrEqual | T_GreaterThan | T_GreaterThanOrEqual => 23
  | T_Caret | T_Pipe => 25
  | T_Ampersand => 26
  | T_LeftShift | T_RightShift => 27
  | T_Plus | T_Minus => 29
  | T_Percent | T_Slash | T_Star => 30
  | T_StarStar => 33
  | T_ConstantResolution => 36
  | T_Dot | T_SafeNavigation => if num then 31 else 37
  | T_LBracket | T_LCurlyBrace => 39
  | _ => 0
  end.
Definition follows (t : ttype) : bool :=
  match t with
  | T_Comma | T_AndKeyword | T_OrKeyword | T_IfKeyword | T_UnlessKeyword | T_WhileKeyword | T_UntilKeyword
  | T_TernaryColon | T_TernaryQuestion | T_PipePipe | T_AmpersandAmpersand | T_DotDot | T_DotDotDot
  | T_EqualEqual | T_EqualEqualEqual | T_NotEqual | T_Match | T_Comparison | T_LessThan | T_LessThanOrEqual
  | T_GreaterThan | T_GreaterThanOrEqual | T_Caret | T_Pipe | T_Ampersand | T_LeftShift | T_RightShift
  | T_Plus | T_Minus | T_Percent | T_Slash | T_Star | T_StarStar | T_ConstantResolution | T_Dot
  | T_SafeNavigation | T_LBracket | T_LCurlyBrace | T_DoKeyword
  | T_HashRocket | T_RParen | T_RBracket | T_RCurlyBrace | T_Newline | T_Semicolon | T_Eof
  | T_ThenKeyword | T_EndKeyword | T_ElseKeyword | T_ElsifKeyword | T_WhenKeyword
  | T_EvaluateToStringEnd => true
  | _ => false
  end.
Definition okf (u : token) : bool :=
  follows (ty u) &&
  match ty u with T_ConstantResolution | T_LBracket => negb (tk_ws u) | _ => true end.

(** A token of another type than those that may follow. *)
Lemma okf_not x u : follows x = false -> okf u = true -> ttype_eqb (ty u) x = false.
Proof.
  intros Hx H. apply andb_true_iff in H as [H _]. apply eqb_diff. intros E. rewrite E in H. congruence.
Qed.
Lemma okf_valid u : okf u = true -> is_valid (ty u) = true.
Proof. intros H. apply andb_true_iff in H as [H _]. destruct (ty u); (reflexivity || discriminate). Qed.

Lemma precedence u v : okf u = true -> ty u <> T_DoKeyword -> ty u <> T_LCurlyBrace ->
  get_precedence u (Some v) = level (ty u) (is_numeric v).
Proof.
  unfold okf, get_precedence, is_first_arg_of_call_without_parens, treat_left_bracket_as_element_reference.
  intros H D C. apply andb_true_iff in H as [H K].
  destruct (ty u); try discriminate H; try contradiction; try reflexivity;
  try (cbn [can_be_first_arg_of_implicit_call]; rewrite andb_false_r; reflexivity).
  - rewrite K. reflexivity.
Qed.

(** The thresholds of the levels of SpecRuby. *)
Definition lthr (n : N) : N :=
  if n <=? 1 then 5 else if n <=? 3 then 15 else if n <=? 5 then 16 else if n <=? 6 then 17
  else if n <=? 7 then 22 else if n <=? 8 then 23 else if n <=? 9 then 25 else if n <=? 10 then 26
  else if n <=? 11 then 27 else if n <=? 12 then 29 else if n <=? 13 then 30 else if n <=? 14 then 32
  else if n <=? 15 then 33 else if n <=? 16 then 34 else 36.
Definition rthr (n : N) : N :=
  if n <=? 0 then 0 else if n <=? 1 then 5 else if n <=? 3 then 7 else if n <=? 5 then 16 else if n <=? 6 then 17
  else if n <=? 7 then 22 else if n <=? 8 then 23 else if n <=? 9 then 25 else if n <=? 10 then 26
  else if n <=? 11 then 27 else if n <=? 12 then 29 else if n <=? 13 then 30 else if n <=? 14 then 32
  else if n <=? 15 then 33 else if n <=? 16 then 34 else 39.
Ltac thr :=
  unfold lthr, rthr in *;
  repeat match goal with
    | H : context [?a <=? ?b] |- _ => destruct (N.leb_spec a b)
    | |- context [?a <=? ?b] => destruct (N.leb_spec a b)
    end; try lia.
Lemma lthr_mono a b : a <= b -> lthr a <= lthr b.
Proof. intros H. unfold lthr. repeat match goal with |- context [?a <=? ?b] => destruct (N.leb_spec a b); try lia end. Qed.
Lemma rthr_mono a b : a <= b -> rthr a <= rthr b.
Proof. intros H. unfold rthr. repeat match goal with |- context [?a <=? ?b] => destruct (N.leb_spec a b); try lia end. Qed.
Lemma lthr_at k n : k <= n -> forall p, p < lthr k -> p < lthr n.
Proof. intros H p. pose proof (lthr_mono k n H). lia. Qed.
Lemma rthr_at k n : k <= n -> forall p, p <= rthr k -> p <= rthr n.
Proof. intros H p. pose proof (rthr_mono k n H). lia. Qed.

Lemma assigns_right e : assigns e = true -> right e <= 3.
Proof.
  induction e; cbn [assigns right]; try discriminate; intros H; unfold ARGUMENT; try lia.
Qed.
Lemma returns_right e : returns e = true -> right e <= 2.
Proof.
  induction e; cbn [returns right]; try discriminate; intros H; unfold COMMAND; try lia.
Qed.

(** ** What is known of a parsed expression *)
Definition plain (v : node) : bool :=
  match v with
  | N_Nil _ | N_SymbolKey _ _ | N_InterpolatedSymbolKey _ _ | N_Splat _ _ | N_KeywordSplat _ _
  | N_MultipleAssignment _ _ _ | N_Block _ _ | N_Regexp _ _ _ | N_BlockPass _ _ => false
  | _ => true
  end.
(** Literal strings: without code, and of nothing but code; [begin] with [rescue]. *)
Definition n_shape (v : node) : N :=
  match v with
  | N_String _ _ => 1
  | N_InterpolatedString _ [N_EvaluateToString _ _] => 2
  | N_Begin _ _ _ _ _ => 3
  | _ => 0
  end.
Definition shape (e : rb) : N := if plain_string e then 1 else if only_code e then 2 else if rescued e then 3 else 0.
Definition last_token (e : rb) : token := last (text e) no_token.
Record good (l : list str) (e : rb) (v : node) : Prop := Good {
  g_stands : stands v (meaning l e);
  g_number : is_numeric v = number e;
  g_fixnum : fixnum v = integer (meaning l e);
  g_plain : plain v = true;
  g_shape : n_shape v = shape e;
  g_inner : match e with
     | R_group _ _ _ | R_quoted _ _ _ =>
         match v with N_InterpolatedString _ [N_EvaluateToString t x] => stands (N_EvaluateToString t x) (inner_code l e) | _ => True end
     | _ => True end;
  g_leaf : match e with R_leaf t => is_variable (ty t) = true -> v = N_Identifier t (bound l (name t)) | _ => True end;
  g_literal : match e with R_leaf t => match ty t with
     | T_Fixnum => v = N_Fixnum t (fix_ t) | T_Float => v = N_Float t false (dbl t) | T_Bignum => v = N_Bignum t (name t)
     | _ => True end | _ => True end;
  g_path : match e with R_scope _ _ n => exists t r, v = N_Colon2 t r (name n)
     | R_top _ n => exists t, v = N_Colon3 t (name n) | _ => True end;
  g_block : forall br, blockable l br e = true ->
     is_callable v = true /\ can_accept_a_block v = true /\ has_block_pass v = false /\
     (br = true -> match v with N_Call _ _ _ (_ :: _) => ty (last_token e) = T_RParen | _ => True end) }.

Lemma inner_code_ok l e t t1 x : good l e (N_InterpolatedString t [N_EvaluateToString t1 x]) ->
  stands (N_EvaluateToString t1 x) (inner_code l e).
Proof.
  intros G. pose proof (g_shape _ _ _ G) as S. pose proof (g_inner _ _ _ G) as K. unfold shape in S. cbn [n_shape] in S.
  destruct e; try exact K; cbn [plain_string only_code] in S; try discriminate S; destruct (ttype_eqb (ty t0) T_String); discriminate S.
Qed.

(** ** What may surround an expression *)
Definition listp (p : N) : bool := (p =? 1) || (p =? 3) || (p =? 11) || (p =? 14).
Definition block_head (e : rb) : bool :=
  match e with
  | R_leaf _ | R_call _ _ _ | R_keyword _ _ => true
  | R_command _ n _ _ | R_keywords _ n _ _ _ _ _ => takes_block (method_name n)
  | _ => false
  end.
Record fit (e : rb) (p : N) (ia : iter_allow) (u : token) (d0 : N) (l : list str) : Prop := Fit {
  f_tok : okf u = true;
  f_left : p < lthr (left e);
  f_right : level (ty u) (number e) <= rthr (right e);
  f_ia : ia <> IA_NONE;
  f_shallow : shallow e = true -> d0 = 0 /\ ia = IA_CURLY_AND_BLOCK;
  f_do : ty u = T_DoKeyword -> (d0 <> 0 /\ 3 <= right e) \/ block_head e = true;
  f_comma : ty u = T_Comma \/ ty u = T_HashRocket -> 3 <= right e;
  f_list : ty u = T_Comma -> assigns e = false \/ (listp p = true /\ comma_safe e = true);
  f_return : returns e = true -> is_end_of_expression (ty u) = true;
  f_fits : fits l e = true }.

Definition Main (m : nat) : Prop := forall e p ia u r a ps d0 d l f,
  (length (text e) < m)%nat -> fit e p ia u d0 l -> level (ty u) (number e) <= p ->
  (ty u = T_DoKeyword -> d0 <> 0 /\ 3 <= right e) ->
  exists v, good l e v /\
    parse_expression m p ia (PState a (text e ++ u :: r) ps (d0 :: d) l f) =
    POk v (PState (rev (text e) ++ a) (u :: r) ps (d0 :: d) (after l e) f).

(** The first denotation and the rounds after it. *)
Definition rounds (m : nat) (p : N) (ia : iter_allow) (j : nat) : M node :=
  c <- cty ;;
  match null_denotation (parse_expression m) (m + m + 2) c with
  | None => unexpected "expression"
  | Some f => lhs <- f ;; mloop j (expression_step (parse_expression m) (m + m + 2) p ia) lhs
  end.
Definition Spine (m : nat) (e : rb) : Prop := forall p ia u r a ps d0 d l f,
  (length (text e) <= m)%nat -> fit e p ia u d0 l ->
  exists v k, good l e v /\ (k <= length (text e))%nat /\
    forall j, rounds m p ia (k + j) (PState a (text e ++ u :: r) (p :: ps) (d0 :: d) l f) =
      mloop j (expression_step (parse_expression m) (m + m + 2) p ia) v
        (PState (rev (text e) ++ a) (u :: r) (p :: ps) (d0 :: d) (after l e) f).

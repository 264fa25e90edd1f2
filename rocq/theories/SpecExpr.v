(** * SpecExpr: operator expressions, as the Ruby manual describes them

    A specification, not a model of code: what operator expressions look like as
    sequences of tokens, how operators bind, and which tree a sequence stands for. *)
From Coq Require Import Strings.String NArith ZArith Bool List.
From Verif Require Import Base Token Node.
Import ListNotations.
Open Scope N_scope.
Open Scope list_scope.

(** ** Expressions *)
Inductive expr :=
| E_leaf (t : token)
| E_paren (open : token) (e : expr) (close : token)
| E_unary (t : token) (e : expr)
| E_binary (l : expr) (t : token) (r : expr).

(** The tokens an expression is written with. *)
Fixpoint text (e : expr) : list token :=
  match e with
  | E_leaf t => [t]
  | E_paren o e c => o :: text e ++ [c]
  | E_unary t e => t :: text e
  | E_binary l t r => text l ++ t :: text r
  end.

Definition is_name (t : ttype) : bool :=
  match t with
  | T_BareName | T_Constant | T_InstanceVariable | T_ClassVariable | T_GlobalVariable => true
  | _ => false
  end.
Definition is_number (t : ttype) : bool :=
  match t with T_Fixnum | T_Float | T_Bignum => true | _ => false end.
Definition is_leaf (t : ttype) : bool :=
  is_name t || is_number t ||
  match t with T_NilKeyword | T_TrueKeyword | T_FalseKeyword | T_SelfKeyword => true | _ => false end.
Definition is_binary (t : ttype) : bool :=
  match t with
  | T_Star | T_Slash | T_Percent | T_Plus | T_Minus | T_LeftShift | T_RightShift | T_Ampersand | T_Pipe
  | T_Caret | T_LessThan | T_LessThanOrEqual | T_GreaterThan | T_GreaterThanOrEqual | T_Comparison
  | T_EqualEqual | T_EqualEqualEqual | T_NotEqual | T_StarStar
  | T_AmpersandAmpersand | T_PipePipe | T_AndKeyword | T_OrKeyword => true
  | _ => false
  end.
Definition is_unary (t : ttype) : bool :=
  match t with T_Minus | T_Plus | T_Tilde | T_Not | T_NotKeyword => true | _ => false end.
Definition is_sign (t : ttype) : bool := match t with T_Plus | T_Minus => true | _ => false end.

(** A number, possibly in parentheses (a sign before it belongs to the literal). *)
Fixpoint number (e : expr) : bool :=
  match e with E_leaf t => is_number (ty t) | E_paren _ e _ => number e | _ => false end.

(** The tokens have the right types; a binary plus or minus with a blank before it has
    one behind it too ([a -b] is a call with an argument). *)
Fixpoint well_formed (e : expr) : Prop :=
  match e with
  | E_leaf t =>
      is_leaf (ty t) = true /\
      (is_name (ty t) || ttype_eqb (ty t) T_Bignum = true -> exists s, lit t = Some s /\ ~ In 0 s)
  | E_paren o e c => ty o = T_LParen /\ ty c = T_RParen /\ well_formed e
  | E_unary t e => is_unary (ty t) = true /\ well_formed e /\ (is_sign (ty t) = true -> number e = false)
  | E_binary l t r =>
      is_binary (ty t) = true /\ well_formed l /\ well_formed r /\
      (is_sign (ty t) = true -> tk_ws t = true -> tk_ws (hd t (text r)) = true)
  end.

(** ** How operators bind *)
Inductive side := ToLeft | ToRight | Nowhere.

Section Binding.
(** The level of an operator (a higher level binds tighter), binary and unary, and the
    side to which equal levels group. *)
Variable level unary_level : ttype -> N.
Variable assoc : ttype -> side.

(** The levels of all operators along the right edge of [e] are [ok]: they bind tight
    enough for an operator behind [e] to take all of [e]. *)
Fixpoint right_edge (ok : N -> bool) (e : expr) : bool :=
  match e with
  | E_leaf _ | E_paren _ _ _ => true
  | E_unary t e => ok (unary_level (ty t)) && right_edge ok e
  | E_binary _ t r => ok (level (ty t)) && right_edge ok r
  end.
(** Likewise along the left edge, for an operator in front of [e]. *)
Fixpoint left_edge (ok : N -> bool) (e : expr) : bool :=
  match e with
  | E_leaf _ | E_paren _ _ _ | E_unary _ _ => true
  | E_binary l t _ => ok (level (ty t)) && left_edge ok l
  end.

(** The expression is grouped as its operators bind: every operand that would be torn
    apart is in parentheses. *)
Fixpoint grouped (e : expr) : bool :=
  match e with
  | E_leaf _ => true
  | E_paren _ e _ => grouped e
  | E_unary t e => grouped e && left_edge (fun l => unary_level (ty t) <? l) e
  | E_binary l t r =>
      grouped l && grouped r &&
      right_edge (fun x => match assoc (ty t) with
                           | ToLeft => level (ty t) <=? x | _ => level (ty t) <? x end) l &&
      left_edge (fun x => match assoc (ty t) with
                          | ToRight => level (ty t) <=? x | _ => level (ty t) <? x end) r
  end.
End Binding.

(** ** Ruby's table *)
Definition ruby_level (t : ttype) : N :=
  match t with
  | T_StarStar => 15
  | T_Star | T_Slash | T_Percent => 13
  | T_Plus | T_Minus => 12
  | T_LeftShift | T_RightShift => 11
  | T_Ampersand => 10
  | T_Pipe | T_Caret => 9
  | T_GreaterThan | T_GreaterThanOrEqual | T_LessThan | T_LessThanOrEqual => 8
  | T_Comparison | T_EqualEqual | T_EqualEqualEqual | T_NotEqual => 7
  | T_AmpersandAmpersand => 6
  | T_PipePipe => 5
  | _ => 1
  end.
Definition ruby_unary (t : ttype) : N :=
  match t with T_Not | T_Tilde | T_Plus => 16 | T_Minus => 14 | _ => 2 end.
Definition ruby_assoc (t : ttype) : side :=
  match t with
  | T_StarStar => ToRight
  | T_Comparison | T_EqualEqual | T_EqualEqualEqual | T_NotEqual => Nowhere
  | _ => ToLeft
  end.
Definition ruby_grouped : expr -> bool := grouped ruby_level ruby_unary ruby_assoc.

(** ** What an expression stands for *)
(** Trees with chains of [and] and of [or] as lists: how a chain is nested makes no
    difference. *)
Inductive tree :=
| T_leaf (n : node)
| T_unary (name : str) (v : tree)
| T_not (v : tree)
| T_op (l : tree) (name : str) (r : tree)
| T_and (l : list tree)
| T_or (l : list tree).

Definition conjuncts (v : tree) : list tree := match v with T_and l => l | _ => [v] end.
Definition disjuncts (v : tree) : list tree := match v with T_or l => l | _ => [v] end.
Definition both (v w : tree) : tree := T_and (conjuncts v ++ conjuncts w).
Definition either (v w : tree) : tree := T_or (disjuncts v ++ disjuncts w).

(** The leaf for a token, given the local variables in sight. *)
Definition leaf (locals : list str) (t : token) : node :=
  match ty t with
  | T_Fixnum => N_Fixnum t (fix_ t)
  | T_Float => N_Float t false (dbl t)
  | T_Bignum => N_Bignum t (match lit t with Some s => s | None => [] end)
  | T_NilKeyword => N_NilSexp t
  | T_TrueKeyword => N_True t
  | T_FalseKeyword => N_False t
  | T_SelfKeyword => N_Self t
  | _ => N_Identifier t (match lit t with Some s => existsb (str_eqb s) locals | None => false end)
  end.

Definition operator_name (t : ttype) : string :=
  match t with
  | T_Star => "*" | T_Slash => "/" | T_Percent => "%" | T_Plus => "+" | T_Minus => "-"
  | T_LeftShift => "<<" | T_RightShift => ">>" | T_Ampersand => "&" | T_Pipe => "|" | T_Caret => "^"
  | T_LessThan => "<" | T_LessThanOrEqual => "<=" | T_GreaterThan => ">" | T_GreaterThanOrEqual => ">="
  | T_Comparison => "<=>" | T_EqualEqual => "==" | T_EqualEqualEqual => "===" | T_NotEqual => "!="
  | T_StarStar => "**" | _ => ""
  end%string.
Definition unary_name (t : ttype) : string :=
  match t with T_Minus => "-@" | T_Plus => "+@" | T_Tilde => "~" | _ => "" end%string.

Definition meaning_of (t : ttype) (l r : tree) : tree :=
  match t with
  | T_AmpersandAmpersand | T_AndKeyword => both l r
  | T_PipePipe | T_OrKeyword => either l r
  | x => T_op l (s2l (operator_name x)) r
  end.
Fixpoint meaning (locals : list str) (e : expr) : tree :=
  match e with
  | E_leaf t => T_leaf (leaf locals t)
  | E_paren _ e _ => meaning locals e
  | E_unary t e =>
      match ty t with
      | T_Not | T_NotKeyword => T_not (meaning locals e)
      | x => T_unary (s2l (unary_name x)) (meaning locals e)
      end
  | E_binary l t r =>
      meaning_of (ty t) (meaning locals l) (meaning locals r)
  end.

(** The tree a node of the parser stands for. *)
Fixpoint node_tree (n : node) : tree :=
  match n with
  | N_UnaryOp _ name v => T_unary name (node_tree v)
  | N_Not _ v => T_not (node_tree v)
  | N_InfixOp _ l name r => T_op (node_tree l) name (node_tree r)
  | N_LogicalAnd _ l r => both (node_tree l) (node_tree r)
  | N_LogicalOr _ l r => either (node_tree l) (node_tree r)
  | n => T_leaf n
  end.

(** ** Where the parser's table departs from Ruby's *)
(** Some operator along the left edge satisfies [p]. *)
Fixpoint on_left (p : ttype -> bool) (e : expr) : bool :=
  match e with E_binary l t _ => p (ty t) || on_left p l | _ => false end.
Definition is_comparison (t : ttype) : bool :=
  match t with T_LessThan | T_LessThanOrEqual | T_GreaterThan | T_GreaterThanOrEqual => true | _ => false end.
Definition is_logical (t : ttype) : bool := match t with T_AmpersandAmpersand | T_PipePipe => true | _ => false end.

(** None of: a ** b ** c; a <=> b < c; not a && b. *)
Fixpoint unexceptional (e : expr) : bool :=
  match e with
  | E_leaf _ => true
  | E_paren _ e _ => unexceptional e
  | E_unary t e => unexceptional e && (if ttype_eqb (ty t) T_NotKeyword then negb (on_left is_logical e) else true)
  | E_binary l t r =>
      unexceptional l && unexceptional r &&
      (if ttype_eqb (ty t) T_StarStar then negb (on_left (fun x => ttype_eqb x T_StarStar) r) else true) &&
      (if ttype_eqb (ty t) T_Comparison then negb (on_left is_comparison r) else true)
  end.

(** ** Chains *)
(** [a op b op c ...] without parentheses, grouped to the left. *)
Definition chain (first : expr) (more : list (token * expr)) : expr :=
  fold_left (fun l p => E_binary l (fst p) (snd p)) more first.
(** Operands that no operator of a chain can tear apart. *)
Definition closed (e : expr) : Prop := match e with E_leaf _ | E_paren _ _ _ => True | _ => False end.

(** The leaves, from left to right. *)
Fixpoint leaves (e : expr) : list token :=
  match e with
  | E_leaf t => [t]
  | E_paren _ e _ | E_unary _ e => leaves e
  | E_binary l _ r => leaves l ++ leaves r
  end.
Fixpoint node_leaves (n : node) : list node :=
  match n with
  | N_UnaryOp _ _ v | N_Not _ v => node_leaves v
  | N_InfixOp _ l _ r | N_LogicalAnd _ l r | N_LogicalOr _ l r => node_leaves l ++ node_leaves r
  | n => [n]
  end.

(** * SpecRuby: a large part of Ruby's grammar, and what its sentences stand for

    A specification, not a model of code: programs as trees that carry the tokens they
    are written with, which of them are Ruby ([fits]), which local variables they
    bring into scope ([after]), and the s-expression each stands for ([meaning]). *)
From Coq Require Import Strings.String NArith ZArith Bool List.
From Verif Require Import Node ParserBase ParserModel Sexp Base Token.
Import ListNotations.
Open Scope N_scope.
Open Scope list_scope.

(** ** Programs *)
(** A pair of a hash, with the token behind it. *)
Inductive pair (A : Type) :=
| P_key (k : token) (v : A) (s : token)                 (* [k: v] *)
| P_rocket (k : A) (t : token) (v : A) (s : token)      (* [k => v] *)
| P_double (t : token) (v : A) (s : token).             (* [**v] *)
Arguments P_key {A}. Arguments P_rocket {A}. Arguments P_double {A}.

(** The arguments of a call, in parentheses; every argument with the token behind it. *)
Inductive args (A : Type) :=
| A_none
| A_empty (o c : token)
| A_some (o : token) (l : list (A * token)) (ps : list (pair A))
| A_pass (o : token) (l : list (A * token)) (ps : list (pair A)) (t : token) (e : A) (c : token). (* [(l, ps, &e)] *)
Arguments A_none {A}. Arguments A_empty {A}. Arguments A_some {A}. Arguments A_pass {A}.

(** A receiver and the dot behind it. *)
Inductive recv (A : Type) := V_none | V_dot (r : A) (d : token).
Arguments V_none {A}. Arguments V_dot {A}.

(** A parameter of a method or a block. *)
Inductive param (A : Type) :=
| P_req (n : token)                                     (* [n] *)
| P_opt (n q : token) (d : A)                           (* [n = d] *)
| P_splat (s n : token)                                 (* [*n] *)
| P_kreq (k : token)                                    (* [k:] *)
| P_kopt (k : token) (d : A)                            (* [k: d] *)
| P_ksplat (s n : token)                                (* [**n] *)
| P_block (s n : token).                                (* [&n] *)
Arguments P_req {A}. Arguments P_opt {A}. Arguments P_splat {A}. Arguments P_kreq {A}.
Arguments P_kopt {A}. Arguments P_ksplat {A}. Arguments P_block {A}.

(** The parameters of a definition: none, an empty pair of parentheses or bars, or a
    list, every parameter with the token behind it. *)
Inductive params (A : Type) :=
| F_none
| F_empty (o c : token)
| F_some (o : token) (l : list (param A * token)).
Arguments F_none {A}. Arguments F_empty {A}. Arguments F_some {A}.

(** Separators, and statements, each with the separators behind it. *)
Definition body (A : Type) : Type := list token * list (A * list token).

(** A piece of a quoted literal: text, or interpolated code. *)
Inductive piece (A : Type) :=
| S_text (t : token)                                    (* [abc] *)
| S_code (o : token) (b : body A) (c : token).          (* [#{b}] *)
Arguments S_text {A}. Arguments S_code {A}.

(** A [rescue] clause: the exceptions, a comma in front of each but the first; the
    variable behind [=>]; the body. *)
Inductive clause (A : Type) :=
| C_rescue (k : token) (es : option (A * list (token * A))) (n : option (token * token)) (b : body A).
Arguments C_rescue {A}.

Inductive rb :=
| R_leaf (t : token)
| R_group (o : token) (e : rb) (c : token)
| R_unary (t : token) (e : rb)
| R_binary (l : rb) (t : token) (r : rb)
| R_ternary (c : rb) (q : token) (a : rb) (k : token) (b : rb)
| R_assign (n q : token) (e : rb)
| R_op_assign (n q : token) (e : rb)
| R_empty_array (t : token)
| R_array (o : token) (l : list (rb * token))
| R_empty_hash (o c : token)
| R_hash (o : token) (ps : list (pair rb))
| R_call (r : recv rb) (n : token) (a : args rb)
| R_index (r : rb) (o : token) (l : list (rb * token))
| R_scope (r : rb) (t n : token)
| R_top (t n : token)
| R_command (r : recv rb) (n : token) (l : list (rb * token)) (e : rb)
| R_block (c : rb) (o : token) (p : params rb) (b : body rb) (f : token)
| R_if (k : token) (c : rb) (b : body rb) (l : list (token * (rb * body rb)))
    (e : option (token * body rb)) (f : token)
| R_unless (k : token) (c : rb) (b : body rb) (e : option (token * body rb)) (f : token)
| R_while (k : token) (c : rb) (b : body rb) (f : token)
| R_modifier (e : rb) (k : token) (c : rb)
| R_case (k : token) (c : rb) (s : list token) (l : list (list (token * rb) * body rb))
    (e : option (token * body rb)) (f : token)
| R_def (k : token) (s : option (token * token)) (n : token) (p : params rb) (b : body rb) (f : token)
| R_class (k : token) (n : rb) (s : option (token * rb)) (b : body rb) (f : token)
| R_module (k : token) (n : rb) (b : body rb) (f : token)
| R_jump (k : token) (v : option rb)
| R_keyword (k : token) (a : args rb)
| R_quoted (o : token) (ps : list (piece rb)) (c : token)
| R_attr (r : rb) (d n q : token) (e : rb)              (* [r.n = e] *)
| R_element (r : rb) (o : token) (l : list (rb * token)) (q : token) (e : rb) (* [r[l] = e] *)
| R_defined (k o : token) (e : rb) (c : token)          (* [defined?(e)] *)
| R_lambda (k : token) (p : option (token * token)) (o : token) (b : body rb) (f : token)
| R_sclass (k t : token) (e : rb) (b : body rb) (f : token) (* [class << e] *)
| R_begin (k : token) (b : body rb) (cs : list (clause rb)) (e n : option (token * body rb)) (f : token)
| R_for (k n i : token) (e : rb) (b : body rb) (f : token)
| R_splat (t : token) (e : rb)                          (* [*e], in a list *)
| R_keywords (r : recv rb) (n : token) (l : list (rb * token)) (ps : list (pair rb))
    (k : option rb) (t : token) (e : rb)                (* [n l, ps, k => e] or [n l, ps, t: e] *)
| R_alias (k a b : token)                               (* [alias a b] *)
| R_undef (k a : token)                                 (* [undef a] *)
| R_yield (k : token) (l : list (rb * token)) (e : rb). (* [yield l, e], [super l, e] *)

(** ** The tokens of a program *)
Section Text.
Context {A : Type} (text : A -> list token).
Definition items_text (l : list (A * token)) : list token := flat_map (fun x => text (fst x) ++ [snd x]) l.
Definition pair_text (p : pair A) : list token :=
  match p with
  | P_key k v s => k :: text v ++ [s]
  | P_rocket k t v s => text k ++ t :: text v ++ [s]
  | P_double t v s => t :: text v ++ [s]
  end.
Definition args_text (a : args A) : list token :=
  match a with
  | A_none => []
  | A_empty o c => [o; c]
  | A_some o l ps => o :: items_text l ++ flat_map pair_text ps
  | A_pass o l ps t e c => o :: (items_text l ++ flat_map pair_text ps) ++ t :: text e ++ [c]
  end.
Definition recv_text (r : recv A) : list token :=
  match r with V_none => [] | V_dot r d => text r ++ [d] end.
Definition param_text (p : param A) : list token :=
  match p with
  | P_req n => [n]
  | P_opt n q d => n :: q :: text d
  | P_splat s n | P_ksplat s n | P_block s n => [s; n]
  | P_kreq k => [k]
  | P_kopt k d => k :: text d
  end.
Definition params_text (p : params A) : list token :=
  match p with
  | F_none => []
  | F_empty o c => [o; c]
  | F_some o l => o :: flat_map (fun x => param_text (fst x) ++ [snd x]) l
  end.
Definition body_text (b : body A) : list token :=
  fst b ++ flat_map (fun x => text (fst x) ++ snd x) (snd b).
Definition else_text (e : option (token * body A)) : list token :=
  match e with Some (k, b) => k :: body_text b | None => [] end.
Definition piece_text (p : piece A) : list token :=
  match p with S_text t => [t] | S_code o b c => o :: body_text b ++ [c] end.
Definition tail_text (xs : list (token * A)) : list token := flat_map (fun y => fst y :: text (snd y)) xs.
Definition clause_text (c : clause A) : list token :=
  match c with
  | C_rescue k es n b =>
      k :: match es with Some (e, xs) => text e ++ tail_text xs | None => [] end ++
      match n with Some (t, n) => [t; n] | None => [] end ++ body_text b
  end.
End Text.

Fixpoint text (e : rb) : list token :=
  match e with
  | R_leaf t => [t]
  | R_group o e c => o :: text e ++ [c]
  | R_unary t e => t :: text e
  | R_binary l t r => text l ++ t :: text r
  | R_ternary c q a k b => text c ++ q :: text a ++ k :: text b
  | R_assign n q e | R_op_assign n q e => n :: q :: text e
  | R_empty_array t => [t]
  | R_array o l => o :: items_text text l
  | R_empty_hash o c => [o; c]
  | R_hash o ps => o :: flat_map (pair_text text) ps
  | R_call r n a => recv_text text r ++ n :: args_text text a
  | R_index r o l => text r ++ o :: items_text text l
  | R_scope r t n => text r ++ [t; n]
  | R_top t n => [t; n]
  | R_command r n l e => recv_text text r ++ n :: items_text text l ++ text e
  | R_block c o p b f => text c ++ o :: params_text text p ++ body_text text b ++ [f]
  | R_if k c b l e f =>
      k :: text c ++ body_text text b ++
      flat_map (fun x => fst x :: text (fst (snd x)) ++ body_text text (snd (snd x))) l ++
      else_text text e ++ [f]
  | R_unless k c b e f => k :: text c ++ body_text text b ++ else_text text e ++ [f]
  | R_while k c b f => k :: text c ++ body_text text b ++ [f]
  | R_modifier e k c => text e ++ k :: text c
  | R_case k c s l e f =>
      k :: text c ++ s ++
      flat_map (fun x => flat_map (fun y => fst y :: text (snd y)) (fst x) ++ body_text text (snd x)) l ++
      else_text text e ++ [f]
  | R_def k s n p b f =>
      k :: match s with Some (s, d) => [s; d] | None => [] end ++
      n :: params_text text p ++ body_text text b ++ [f]
  | R_class k n s b f =>
      k :: text n ++ match s with Some (t, e) => t :: text e | None => [] end ++ body_text text b ++ [f]
  | R_module k n b f => k :: text n ++ body_text text b ++ [f]
  | R_jump k v => k :: match v with Some e => text e | None => [] end
  | R_alias k a b => [k; a; b]
  | R_undef k a => [k; a]
  | R_yield k l e => k :: items_text text l ++ text e
  | R_keyword k a => k :: args_text text a
  | R_quoted o ps c => o :: flat_map (piece_text text) ps ++ [c]
  | R_attr r d n q e => text r ++ d :: n :: q :: text e
  | R_element r o l q e => text r ++ o :: items_text text l ++ q :: text e
  | R_defined k o e c => k :: o :: text e ++ [c]
  | R_lambda k p o b f =>
      k :: match p with Some (x, y) => [x; y] | None => [] end ++ o :: body_text text b ++ [f]
  | R_sclass k t e b f => k :: t :: text e ++ body_text text b ++ [f]
  | R_begin k b cs e n f =>
      k :: body_text text b ++ flat_map (clause_text text) cs ++ else_text text e ++ else_text text n ++ [f]
  | R_for k n i e b f => k :: n :: i :: text e ++ body_text text b ++ [f]
  | R_splat t e => t :: text e
  | R_keywords r n l ps k t e =>
      recv_text text r ++
      n :: items_text text l ++ flat_map (pair_text text) ps ++
      match k with Some k => text k | None => [] end ++ t :: text e
  end.

(** ** Local variables *)
Definition name (t : token) : str := match lit t with Some s => s | None => [] end.
Definition bound (l : list str) (s : str) : bool := existsb (str_eqb s) l.

(** Going through a sequence, every element with the variables its predecessors leave. *)
Section Sequence.
Context {A B : Type} (after : list str -> A -> list str) (f : list str -> A -> B).
Fixpoint after_all (l : list str) (xs : list A) : list str :=
  match xs with [] => l | x :: r => after_all (after l x) r end.
Fixpoint map_all (l : list str) (xs : list A) : list B :=
  match xs with [] => [] | x :: r => f l x :: map_all (after l x) r end.
End Sequence.

Section After.
Context {A : Type} (after : list str -> A -> list str).
Definition items_after (l : list str) (xs : list (A * token)) : list str :=
  after_all (fun l x => after l (fst x)) l xs.
Definition pair_after (l : list str) (p : pair A) : list str :=
  match p with P_key _ v _ | P_double _ v _ => after l v | P_rocket k _ v _ => after (after l k) v end.
Definition args_after (l : list str) (a : args A) : list str :=
  match a with
  | A_some _ xs ps => after_all pair_after (items_after l xs) ps
  | A_pass _ xs ps _ e _ => after (after_all pair_after (items_after l xs) ps) e
  | _ => l
  end.
Definition key_after (l : list str) (k : option A) : list str := match k with Some k => after l k | None => l end.
Definition recv_after (l : list str) (r : recv A) : list str :=
  match r with V_none => l | V_dot r _ => after l r end.
Definition param_after (l : list str) (p : param A) : list str :=
  match p with
  | P_req n | P_splat _ n | P_ksplat _ n | P_block _ n | P_kreq n => name n :: l
  | P_opt n _ d => after (name n :: l) d
  | P_kopt k d => name k :: after l d
  end.
Definition params_after (l : list str) (p : params A) : list str :=
  match p with F_some _ xs => after_all (fun l x => param_after l (fst x)) l xs | _ => l end.
Definition body_after (l : list str) (b : body A) : list str :=
  after_all (fun l x => after l (fst x)) l (snd b).
Definition else_after (l : list str) (e : option (token * body A)) : list str :=
  match e with Some (_, b) => body_after l b | None => l end.
Definition elsif_after (l : list str) (x : token * (A * body A)) : list str :=
  body_after (after l (fst (snd x))) (snd (snd x)).
Definition tests_after (l : list str) (xs : list (token * A)) : list str :=
  after_all (fun l x => after l (snd x)) l xs.
Definition when_after (l : list str) (x : list (token * A) * body A) : list str :=
  body_after (tests_after l (fst x)) (snd x).
Definition piece_after (l : list str) (p : piece A) : list str :=
  match p with S_text _ => l | S_code _ b _ => body_after l b end.
Definition assigned (l : list str) (n : token) : list str :=
  if ttype_eqb (ty n) T_BareName then name n :: l else l.
Definition exceptions_after (l : list str) (es : option (A * list (token * A))) : list str :=
  match es with Some (e, xs) => tests_after (after l e) xs | None => l end.
Definition naming_after (l : list str) (n : option (token * token)) : list str :=
  match n with Some (_, n) => assigned l n | None => l end.
Definition clause_after (l : list str) (c : clause A) : list str :=
  match c with C_rescue _ es n b => body_after (naming_after (exceptions_after l es) n) b end.
End After.

(** The local variables in scope behind [e], those in front of it being [l]. *)
Fixpoint after (l : list str) (e : rb) : list str :=
  match e with
  | R_leaf _ | R_empty_array _ | R_empty_hash _ _ | R_top _ _ | R_alias _ _ _ | R_undef _ _ => l
  | R_group _ e _ | R_unary _ e => after l e
  | R_binary a _ b => after (after l a) b
  | R_ternary c _ a _ b => after (after (after l c) a) b
  | R_assign n _ e | R_op_assign n _ e =>
      after (if ttype_eqb (ty n) T_BareName then name n :: l else l) e
  | R_array _ xs => items_after after l xs
  | R_hash _ ps => after_all (pair_after after) l ps
  | R_call r _ a => args_after after (recv_after after l r) a
  | R_index r _ xs => items_after after (after l r) xs
  | R_scope r _ _ => after l r
  | R_command r _ xs e => after (items_after after (recv_after after l r) xs) e
  | R_block c _ _ _ _ => after l c
  | R_if _ c b xs e _ =>
      else_after after
        (after_all (elsif_after after) (body_after after (after l c) b) xs) e
  | R_unless _ c b e _ => else_after after (body_after after (after l c) b) e
  | R_while _ c b _ => body_after after (after l c) b
  | R_modifier e _ c => after (after l e) c
  | R_case _ c _ xs e _ =>
      else_after after
        (after_all (when_after after) (after l c) xs) e
  | R_def _ _ _ _ _ _ | R_class _ _ _ _ _ | R_module _ _ _ _ => l
  | R_jump _ v => match v with Some e => after l e | None => l end
  | R_yield _ xs e => after (items_after after l xs) e
  | R_keyword _ a => args_after after l a
  | R_quoted _ ps _ => after_all (piece_after after) l ps
  | R_attr r _ _ _ e => after (after l r) e
  | R_element r _ xs _ e => after (items_after after (after l r) xs) e
  | R_defined _ _ e _ => after l e
  | R_lambda _ _ _ _ _ | R_sclass _ _ _ _ _ => l
  | R_begin _ b cs e n _ =>
      else_after after (else_after after (after_all (clause_after after) (body_after after l b) cs) e) n
  | R_for _ n _ e b _ => body_after after (after (assigned l n) e) b
  | R_splat _ e => after l e
  | R_keywords r _ xs ps k _ e =>
      after (key_after after (after_all (pair_after after) (items_after after (recv_after after l r) xs) ps) k) e
  end.

(** The name of a method: a keyword is one too. *)
Definition keyword_name (t : ttype) : option string :=
  match t with
  | T_AndKeyword => Some "and" | T_BeginKeyword => Some "begin" | T_CaseKeyword => Some "case"
  | T_ClassKeyword => Some "class" | T_DefKeyword => Some "def" | T_DoKeyword => Some "do"
  | T_ElseKeyword => Some "else" | T_EndKeyword => Some "end" | T_FalseKeyword => Some "false"
  | T_IfKeyword => Some "if" | T_InKeyword => Some "in" | T_NextKeyword => Some "next"
  | T_NilKeyword => Some "nil" | T_NotKeyword => Some "not" | T_OrKeyword => Some "or"
  | T_ReturnKeyword => Some "return" | T_SelfKeyword => Some "self" | T_SuperKeyword => Some "super"
  | T_ThenKeyword => Some "then" | T_TrueKeyword => Some "true" | T_UnlessKeyword => Some "unless"
  | T_UntilKeyword => Some "until" | T_WhenKeyword => Some "when" | T_WhileKeyword => Some "while"
  | T_YieldKeyword => Some "yield" | _ => None
  end%string.
Definition method_name (t : token) : str :=
  match keyword_name (ty t) with Some s => s2l s | None => name t end.

(** ** What a program stands for *)
(** An s-expression without its place in the source. *)
Definition sx (tag : string) (l : list sexp) : sexp := Sexp 0 0 None (SSym (s2l tag) :: l).

(** The operands of a chain of [&&] or [||]: how a chain is nested makes no difference. *)
Definition chain (tag : str) (v : sexp) : list sexp :=
  match v with
  | Sexp _ _ _ (SSym s :: l) => if str_eqb s tag then l else [v]
  | _ => [v]
  end.
Definition both (tag : string) (v w : sexp) : sexp := sx tag (chain (s2l tag) v ++ chain (s2l tag) w).

Definition leaf (l : list str) (t : token) : sexp :=
  match ty t with
  | T_Fixnum => sx "lit" [SInt (fix_ t)]
  | T_Float => sx "lit" [SFloat false (dbl t)]
  | T_Bignum => sx "lit" [SBig (name t)]
  | T_NilKeyword => sx "nil" []
  | T_TrueKeyword => sx "true" []
  | T_FalseKeyword => sx "false" []
  | T_SelfKeyword => sx "self" []
  | T_String => sx "str" [SStr (name t)]
  | T_Symbol => sx "lit" [SSym (name t)]
  | T_Constant => sx "const" [SSym (name t)]
  | T_InstanceVariable => sx "ivar" [SSym (name t)]
  | T_ClassVariable => sx "cvar" [SSym (name t)]
  | T_GlobalVariable => sx "gvar" [SSym (name t)]
  | T_NthRef => sx "nth_ref" [SInt (fix_ t)]
  | T_BackRef => sx "back_ref" [SSym (name t)]
  | T_ENCODINGKeyword => sx "colon2" [sx "const" [SSym (s2l "Encoding")]; SSym (s2l "UTF_8")]
  | _ => if bound l (name t) then sx "lvar" [SSym (name t)] else sx "call" [SNil; SSym (name t)]
  end.

Definition operator (t : ttype) : string :=
  match t with
  | T_Star | T_StarEqual => "*" | T_Slash | T_SlashEqual => "/" | T_Percent | T_PercentEqual => "%"
  | T_Plus | T_PlusEqual => "+" | T_Minus | T_MinusEqual => "-"
  | T_LeftShift | T_LeftShiftEqual => "<<" | T_RightShift | T_RightShiftEqual => ">>"
  | T_Ampersand | T_AmpersandEqual => "&" | T_Pipe | T_PipeEqual => "|" | T_Caret | T_CaretEqual => "^"
  | T_LessThan => "<" | T_LessThanOrEqual => "<=" | T_GreaterThan => ">" | T_GreaterThanOrEqual => ">="
  | T_Comparison => "<=>" | T_EqualEqual => "==" | T_EqualEqualEqual => "===" | T_NotEqual => "!="
  | T_StarStar | T_StarStarEqual => "**" | T_Match => "=~" | _ => ""
  end%string.

(** A literal integer, or number, with its sign. *)
Definition integer (v : sexp) : option Z :=
  match v with Sexp _ _ _ [SSym s; SInt z] => if str_eqb s (s2l "lit") then Some z else None | _ => None end.
Definition negated (v : sexp) : sexp :=
  match v with
  | Sexp _ _ _ [_; SInt z] => sx "lit" [SInt (- z)]
  | Sexp _ _ _ [_; SFloat n s] => sx "lit" [SFloat (negb n) s]
  | Sexp _ _ _ [_; SBig s] => sx "lit" [SBig ("-"%ch :: s)]
  | _ => v
  end.
Definition is_number (t : ttype) : bool :=
  match t with T_Fixnum | T_Float | T_Bignum => true | _ => false end.
Definition literal_number (e : rb) : bool := match e with R_leaf t => is_number (ty t) | _ => false end.

(** A sign in front of a literal number is part of the number. *)
Definition unary (t : ttype) (number : bool) (v : sexp) : sexp :=
  match t with
  | T_Not | T_NotKeyword => sx "call" [v; SSym (s2l "!")]
  | T_Tilde => sx "call" [v; SSym (s2l "~")]
  | T_Minus => if number then negated v else sx "call" [v; SSym (s2l "-@")]
  | _ => if number then v else sx "call" [v; SSym (s2l "+@")]
  end.
Definition binary (t : ttype) (a b : sexp) : sexp :=
  match t with
  | T_AmpersandAmpersand | T_AndKeyword => both "and" a b
  | T_PipePipe | T_OrKeyword => both "or" a b
  | T_DotDot | T_DotDotDot =>
      let open := ttype_eqb t T_DotDotDot in
      match integer a, integer b with
      | Some x, Some y => sx "lit" [SRange x y open]
      | _, _ => sx (if open then "dot3" else "dot2") [a; b]
      end
  | _ => sx "call" [a; SSym (s2l (operator t)); b]
  end.

(** The target of an assignment, with the value behind it. *)
Definition assign (n : token) (v : sexp) : sexp :=
  sx (match ty n with
      | T_InstanceVariable => "iasgn" | T_ClassVariable => "cvdecl" | T_GlobalVariable => "gasgn"
      | T_Constant => "cdecl" | _ => "lasgn" end%string) [SSym (name n); v].
Definition declare (n : token) : sexp :=
  match assign n SNil with Sexp a b c l => Sexp a b c (removelast l) | v => v end.
(** A variable, read where it is also assigned to. *)
Definition variable (n : token) : sexp := leaf [name n] n.

Definition op_assign (n : token) (q : ttype) (v : sexp) : sexp :=
  match q with
  | T_AmpersandAmpersandEqual => sx "op_asgn_and" [variable n; assign n v]
  | T_PipePipeEqual => sx "op_asgn_or" [variable n; assign n v]
  | x => assign n (sx "call" [variable n; SSym (s2l (operator x)); v])
  end.
(** Assignment to an attribute [n] of [r], and to an element. *)
Definition attr_assign (safe : bool) (r : sexp) (n : str) (q : ttype) (v : sexp) : sexp :=
  let set := sx (if safe then "safe_attrasgn" else "attrasgn") [r; SSym (n ++ s2l "="); v] in
  let get := sx (if safe then "safe_call" else "call") [r; SSym n] in
  match q with
  | T_Equal => set
  | T_AmpersandAmpersandEqual => sx "op_asgn_and" [get; set]
  | T_PipePipeEqual => sx "op_asgn_or" [get; set]
  | x => sx (if safe then "safe_op_asgn2" else "op_asgn2") [r; SSym (n ++ s2l "="); SSym (s2l (operator x)); v]
  end.
Definition element_assign (r : sexp) (l : list sexp) (q : ttype) (v : sexp) : sexp :=
  let op x := sx "op_asgn1" [r; sx "arglist" l; SSym (s2l x); v] in
  match q with
  | T_Equal => sx "attrasgn" (r :: SSym (s2l "[]=") :: l ++ [v])
  | T_AmpersandAmpersandEqual => op "&&"%string
  | T_PipePipeEqual => op "||"%string
  | x => op (operator x)
  end.
(** [v] with a modifier and the condition [w]; of a loop, [first] says whether to start
    with the condition. *)
Definition modified (first : bool) (k : ttype) (v w : sexp) : sexp :=
  let start := if first then STrue else SFalse in
  match k with
  | T_IfKeyword => sx "if" [w; v; SNil]
  | T_UnlessKeyword => sx "if" [w; SNil; v]
  | T_UntilKeyword => sx "until" [w; v; start]
  | _ => sx "while" [w; v; start]
  end.

(** Statements as one expression, or as the tail of an expression. *)
Definition block (l : list sexp) : list sexp :=
  match l with [] => [] | [v] => [v] | _ => [sx "block" l] end.
Definition or_nil (l : list sexp) : sexp := match l with [v] => v | _ => SNil end.
(** The comment in front of a definition. *)
Definition documented (t : token) (v : sexp) : sexp :=
  match v with Sexp a b _ l => Sexp a b (doc t) l | _ => v end.

(** The empty body of a method is [nil]; of a clause of a [case], nothing. *)
Definition def_body (l : list sexp) : list sexp := match l with [] => [sx "nil" []] | _ => l end.
Definition when_body (l : list sexp) : list sexp := match l with [] => [SNil] | _ => l end.

(** *** Quoted literals *)
(** The text of a literal without code. *)
Definition only_text {A} (ps : list (piece A)) : option str :=
  match ps with [] => Some [] | [S_text t] => Some (name t) | _ => None end.
(** A literal string without code; one of nothing but code. *)
Fixpoint plain_string (e : rb) : bool :=
  match e with
  | R_leaf t => ttype_eqb (ty t) T_String
  | R_group _ e _ => plain_string e
  | R_quoted o ps _ =>
      ttype_eqb (ty o) T_InterpolatedStringBegin && match only_text ps with Some _ => true | None => false end
  | _ => false
  end.
Fixpoint only_code (e : rb) : bool :=
  match e with
  | R_group _ e _ => only_code e
  | R_quoted o [S_code _ b _] _ =>
      ttype_eqb (ty o) T_InterpolatedStringBegin &&
      match snd b with [(x, _)] => negb (plain_string x) | _ => true end
  | _ => false
  end.
(** [begin] with [rescue] or [ensure]. *)
Fixpoint rescued (e : rb) : bool :=
  match e with R_group _ e _ => rescued e | R_begin _ _ _ _ _ _ => true | _ => false end.
Definition begin_meaning (b cs e : list sexp) (n : option (list sexp)) : sexp :=
  let main := block b ++ cs ++ block e in
  match n with
  | None => sx "rescue" main
  | Some n =>
      let last := match block n with [v] => v | _ => sx "nil" [] end in
      match cs with [] => sx "ensure" (main ++ [last]) | _ => sx "ensure" [sx "rescue" main; last] end
  end.
(** The first texts of a string are one; other literals start with a text, or with none. *)
Fixpoint leading (s : str) (l : list sexp) : str * list sexp :=
  match l with
  | (Sexp _ _ _ [SSym tag; SStr x] as v) :: r => if str_eqb tag (s2l "str") then leading (s ++ x) r else (s, l)
  | _ => (s, l)
  end.
Definition string_meaning (l : list sexp) : sexp :=
  match leading [] l with
  | (s, []) => sx "str" [SStr s]
  | (s, r) => sx "dstr" (SStr s :: r)
  end.
Definition interpolated (tag : string) (l : list sexp) : sexp :=
  match l with
  | Sexp _ _ _ [SSym str; SStr x] :: r =>
      if str_eqb str (s2l "str") then sx tag (SStr x :: r) else sx tag (SStr [] :: l)
  | _ => sx tag (SStr [] :: l)
  end.
Section Meaning.
Context {A : Type} (after : list str -> A -> list str) (meaning : list str -> A -> sexp).
Definition items_meaning (l : list str) (xs : list (A * token)) : list sexp :=
  map_all (fun l x => after l (fst x)) (fun l x => meaning l (fst x)) l xs.
Definition pair_meaning (l : list str) (p : pair A) : list sexp :=
  match p with
  | P_key k v _ => [sx "lit" [SSym (name k)]; meaning l v]
  | P_rocket k _ v _ => [meaning l k; meaning (after l k) v]
  | P_double _ v _ => [sx "kwsplat" [meaning l v]]
  end.
Definition pairs_meaning (l : list str) (ps : list (pair A)) : list sexp :=
  concat (map_all (pair_after after) pair_meaning l ps).
Definition listed_meaning (l : list str) (xs : list (A * token)) (ps : list (pair A)) : list sexp :=
  match ps with
  | [] => items_meaning l xs
  | _ => items_meaning l xs ++ [sx "bare_hash" (pairs_meaning (items_after after l xs) ps)]
  end.
Definition args_meaning (l : list str) (a : args A) : list sexp :=
  match a with
  | A_none | A_empty _ _ => []
  | A_some _ xs ps => listed_meaning l xs ps
  | A_pass _ xs ps _ e _ =>
      listed_meaning l xs ps ++
      [sx "block_pass" [meaning (after_all (pair_after after) (items_after after l xs) ps) e]]
  end.
Definition last_meaning (l : list str) (k : option A) (t : token) (e : A) : list sexp :=
  match k with
  | Some k => [meaning l k; meaning (after l k) e]
  | None => [sx "lit" [SSym (name t)]; meaning l e]
  end.
Definition recv_meaning (l : list str) (r : recv A) : sexp :=
  match r with V_none => SNil | V_dot r _ => meaning l r end.
Definition call_tag (r : recv A) : string :=
  match r with
  | V_dot _ d => if ttype_eqb (ty d) T_SafeNavigation then "safe_call" else "call"
  | V_none => "call"
  end%string.
Definition param_meaning (l : list str) (p : param A) : sexp :=
  match p with
  | P_req n => SSym (name n)
  | P_opt n _ d => sx "lasgn" [SSym (name n); meaning (name n :: l) d]
  | P_splat _ n => SSym ("*"%ch :: name n)
  | P_kreq k => sx "kwarg" [SSym (name k)]
  | P_kopt k d => sx "kwarg" [SSym (name k); meaning l d]
  | P_ksplat _ n => SSym ("*"%ch :: "*"%ch :: name n)
  | P_block _ n => SSym ("&"%ch :: name n)
  end.
Definition params_meaning (l : list str) (p : params A) : sexp :=
  sx "args"
    (match p with
     | F_some _ xs => map_all (fun l x => param_after after l (fst x)) (fun l x => param_meaning l (fst x)) l xs
     | _ => []
     end).
Definition body_meaning (l : list str) (b : body A) : list sexp :=
  map_all (fun l x => after l (fst x)) (fun l x => meaning l (fst x)) l (snd b).
Definition else_meaning (l : list str) (e : option (token * body A)) : sexp :=
  match e with Some (_, b) => or_nil (block (body_meaning l b)) | None => SNil end.
Fixpoint elsif_meaning (l : list str) (xs : list (token * (A * body A))) (last : sexp) : sexp :=
  match xs with
  | [] => last
  | (_, (c, b)) :: r =>
      sx "if" [meaning l c; or_nil (block (body_meaning (after l c) b));
               elsif_meaning (body_after after (after l c) b) r last]
  end.
Definition when_meaning (l : list str) (x : list (token * A) * body A) : sexp :=
  sx "when"
    (sx "array" (map_all (fun l x => after l (snd x)) (fun l x => meaning l (snd x)) l (fst x)) ::
     when_body (body_meaning (tests_after after l (fst x)) (snd x))).
Definition exceptions_meaning (l : list str) (es : option (A * list (token * A))) : list sexp :=
  match es with
  | Some (e, xs) => meaning l e :: map_all (fun l x => after l (snd x)) (fun l x => meaning l (snd x)) (after l e) xs
  | None => []
  end.
Definition clause_meaning (l : list str) (c : clause A) : sexp :=
  match c with
  | C_rescue _ es n b =>
      sx "resbody"
        (sx "array"
           (exceptions_meaning l es ++
            match n with Some (_, n) => [assign n (sx "gvar" [SSym (s2l "$!")])] | None => [] end) ::
         when_body (body_meaning (naming_after (exceptions_after after l es) n) b))
  end.
Definition option_meaning (l : list str) (e : option (token * body A)) : option (list sexp) :=
  match e with Some (_, b) => Some (body_meaning l b) | None => None end.
(** A literal in the code is part of the literal around it; in a string, so is the code
    of a literal that is nothing else. *)
Definition code_meaning (l : list str) (b : body A) : sexp := sx "evstr" (block (body_meaning l b)).
Definition piece_meaning (string : bool) (plain code : A -> bool) (inner : list str -> A -> sexp) (l : list str) (p : piece A) : sexp :=
  match p with
  | S_text t => sx "str" [SStr (name t)]
  | S_code _ b _ =>
      match snd b with
      | [(x, _)] =>
          if plain x then meaning l x
          else if string && code x then inner l x
          else code_meaning l b
      | _ => code_meaning l b
      end
  end.
Definition quoted_meaning (plain code : A -> bool) (inner : list str -> A -> sexp) (l : list str) (o : token) (ps : list (piece A)) : sexp :=
  let parts string := map_all (piece_after after) (piece_meaning string plain code inner) l ps in
  match ty o with
  | T_InterpolatedSymbolBegin =>
      match only_text ps with Some s => sx "lit" [SSym s] | None => interpolated "dsym" (parts false) end
  | T_InterpolatedShellBegin =>
      match only_text ps with Some s => sx "xstr" [SStr s] | None => interpolated "dxstr" (parts false) end
  | _ => string_meaning (parts true)
  end.
End Meaning.

Fixpoint meaning (l : list str) (e : rb) : sexp :=
  match e with
  | R_leaf t => leaf l t
  | R_group _ e _ => meaning l e
  | R_unary t e => unary (ty t) (literal_number e) (meaning l e)
  | R_binary a t b => binary (ty t) (meaning l a) (meaning (after l a) b)
  | R_ternary c _ a _ b =>
      sx "if" [meaning l c; meaning (after l c) a; meaning (after (after l c) a) b]
  | R_assign n _ e => assign n (meaning (if ttype_eqb (ty n) T_BareName then name n :: l else l) e)
  | R_op_assign n q e =>
      op_assign n (ty q) (meaning (if ttype_eqb (ty n) T_BareName then name n :: l else l) e)
  | R_empty_array _ => sx "array" []
  | R_array _ xs => sx "array" (items_meaning after meaning l xs)
  | R_empty_hash _ _ => sx "hash" []
  | R_hash _ ps => sx "hash" (pairs_meaning after meaning l ps)
  | R_call r n a =>
      sx (call_tag r)
        (recv_meaning meaning l r :: SSym (method_name n) :: args_meaning after meaning (recv_after after l r) a)
  | R_index r _ xs =>
      sx "call" (meaning l r :: SSym (s2l "[]") :: items_meaning after meaning (after l r) xs)
  | R_scope r _ n => sx "colon2" [meaning l r; SSym (name n)]
  | R_top _ n => sx "colon3" [SSym (name n)]
  | R_command r n xs e =>
      sx (call_tag r)
        (recv_meaning meaning l r :: SSym (method_name n) ::
         items_meaning after meaning (recv_after after l r) xs ++
         [meaning (items_after after (recv_after after l r) xs) e])
  | R_block c _ p b _ =>
      sx "iter"
        (meaning l c ::
         match p with F_none => SInt 0 | _ => params_meaning after meaning (after l c) p end ::
         block (body_meaning after meaning (params_after after (after l c) p) b))
  | R_if _ c b xs e _ =>
      sx "if" [meaning l c; or_nil (block (body_meaning after meaning (after l c) b));
               elsif_meaning after meaning (body_after after (after l c) b) xs
                 (else_meaning after meaning (after_all (elsif_after after) (body_after after (after l c) b) xs) e)]
  | R_unless _ c b e _ =>
      sx "if" [meaning l c; else_meaning after meaning (body_after after (after l c) b) e;
               or_nil (block (body_meaning after meaning (after l c) b))]
  | R_while k c b _ =>
      sx (if ttype_eqb (ty k) T_UntilKeyword then "until" else "while")
        [meaning l c; or_nil (block (body_meaning after meaning (after l c) b)); STrue]
  | R_modifier e k c =>
      modified (match e with R_begin _ _ _ _ _ _ => false | _ => true end) (ty k) (meaning l e)
        (meaning (after l e) c)
  | R_case _ c _ xs e _ =>
      sx "case"
        (meaning l c :: map_all (when_after after) (when_meaning after meaning) (after l c) xs ++
         [else_meaning after meaning (after_all (when_after after) (after l c) xs) e])
  | R_def k s n p b _ =>
      documented k
        (sx (match s with Some _ => "defs" | None => "defn" end)
           (match s with Some _ => [sx "self" []] | None => [] end ++
            SSym (name n) :: params_meaning after meaning [] p ::
            def_body (body_meaning after meaning (params_after after [] p) b)))
  | R_class k n s b _ =>
      documented k
        (sx "class"
           (match n with R_leaf t => SSym (name t) | _ => meaning l n end ::
            match s with Some (_, e) => meaning l e | None => SNil end ::
            body_meaning after meaning [] b))
  | R_module k n b _ =>
      documented k
        (sx "module"
           (match n with R_leaf t => SSym (name t) | _ => meaning l n end ::
            body_meaning after meaning [] b))
  | R_jump k v =>
      sx (match ty k with
          | T_ReturnKeyword => "return" | T_BreakKeyword => "break" | T_NextKeyword => "next"
          | T_RedoKeyword => "redo" | _ => "retry"
          end%string)
        (match v with Some e => [meaning l e] | None => [] end)
  | R_alias _ a b =>
      if ttype_eqb (ty a) T_GlobalVariable then sx "valias" [SSym (name a); SSym (name b)]
      else sx "alias" [sx "lit" [SSym (name a)]; sx "lit" [SSym (name b)]]
  | R_undef _ a => sx "undef" [sx "lit" [SSym (name a)]]
  | R_yield k xs e =>
      sx (if ttype_eqb (ty k) T_YieldKeyword then "yield" else "super")
        (items_meaning after meaning l xs ++ [meaning (items_after after l xs) e])
  | R_keyword k a =>
      sx (if ttype_eqb (ty k) T_YieldKeyword then "yield"
          else match a with A_none => "zsuper" | _ => "super" end)
        (args_meaning after meaning l a)
  | R_quoted o ps _ => quoted_meaning after meaning plain_string only_code inner_code l o ps
  | R_attr r d n q e =>
      attr_assign (ttype_eqb (ty d) T_SafeNavigation) (meaning l r) (method_name n) (ty q)
        (meaning (after l r) e)
  | R_element r _ xs q e =>
      element_assign (meaning l r) (items_meaning after meaning (after l r) xs) (ty q)
        (meaning (items_after after (after l r) xs) e)
  | R_defined _ _ e _ => sx "defined" [meaning l e]
  | R_lambda _ p _ b _ =>
      sx "iter"
        (sx "lambda" [] :: match p with Some _ => sx "args" [] | None => SInt 0 end ::
         block (body_meaning after meaning l b))
  | R_sclass _ _ e b _ => sx "sclass" (meaning l e :: body_meaning after meaning [] b)
  | R_begin _ b cs e n _ =>
      let l1 := body_after after l b in
      let l2 := after_all (clause_after after) l1 cs in
      begin_meaning (body_meaning after meaning l b) (map_all (clause_after after) (clause_meaning after meaning) l1 cs)
        match option_meaning after meaning l2 e with Some x => x | None => [] end
        (option_meaning after meaning (else_after after l2 e) n)
  | R_for _ n _ e b _ =>
      sx "for"
        (meaning (assigned l n) e :: declare n ::
         block (body_meaning after meaning (after (assigned l n) e) b))
  | R_splat _ e => sx "splat" [meaning l e]
  | R_keywords r n xs ps k t e =>
      let l1 := recv_after after l r in
      sx (call_tag r)
        (recv_meaning meaning l r :: SSym (method_name n) ::
         items_meaning after meaning l1 xs ++
         [sx "bare_hash"
            (pairs_meaning after meaning (items_after after l1 xs) ps ++
             last_meaning after meaning (after_all (pair_after after) (items_after after l1 xs) ps) k t e)])
  end
(** The code of a literal that is nothing else. *)
with inner_code (l : list str) (e : rb) : sexp :=
  match e with
  | R_group _ e _ => inner_code l e
  | R_quoted _ [S_code _ b _] _ => code_meaning after meaning l b
  | _ => SNil
  end.

(** ** Which programs are Ruby *)
Definition is_variable (t : ttype) : bool :=
  match t with
  | T_BareName | T_Constant | T_InstanceVariable | T_ClassVariable | T_GlobalVariable => true
  | _ => false
  end.
Definition is_leaf (t : ttype) : bool :=
  is_variable t || is_number t ||
  match t with
  | T_NilKeyword | T_TrueKeyword | T_FalseKeyword | T_SelfKeyword | T_String | T_Symbol
  | T_NthRef | T_BackRef | T_ENCODINGKeyword => true
  | _ => false
  end.
(** The token carries a name; names have no NUL in them. *)
Definition named (t : token) : bool :=
  match lit t with Some s => negb (existsb (N.eqb 0) s) | None => false end.
Definition is_a (x : ttype) (t : token) : bool := ttype_eqb (ty t) x.

(** The levels of operators: a higher level binds tighter. *)
Definition binary_level (t : ttype) : option N :=
  match t with
  | T_StarStar => Some 15
  | T_Star | T_Slash | T_Percent => Some 13
  | T_Plus | T_Minus => Some 12
  | T_LeftShift | T_RightShift => Some 11
  | T_Ampersand => Some 10
  | T_Pipe | T_Caret => Some 9
  | T_GreaterThan | T_GreaterThanOrEqual | T_LessThan | T_LessThanOrEqual => Some 8
  | T_Comparison | T_EqualEqual | T_EqualEqualEqual | T_NotEqual | T_Match => Some 7
  | T_AmpersandAmpersand => Some 6
  | T_PipePipe => Some 5
  | T_DotDot | T_DotDotDot => Some 4
  | T_AndKeyword | T_OrKeyword => Some 1
  | _ => None
  end.
Definition unary_level (t : ttype) : option N :=
  match t with
  | T_Not | T_Tilde | T_Plus => Some 16 | T_Minus => Some 14 | T_NotKeyword => Some 2 | _ => None
  end.
(** The levels of: an operand that nothing can tear apart; conditional expressions and
    assignments; commands; statements with a modifier. *)
Definition PRIMARY : N := 17.
Definition ARGUMENT : N := 3.
Definition COMMAND : N := 2.
Definition EXPRESSION : N := 1.
Definition level_of (o : option N) : N := match o with Some n => n | None => 0 end.

(** A number, as the receiver of a call. *)
Fixpoint number (e : rb) : bool :=
  match e with
  | R_leaf t => is_number (ty t)
  | R_group _ e _ => number e
  | R_unary t e => (is_a T_Minus t || is_a T_Plus t) && literal_number e
  | _ => false
  end.

(** The lowest level along the right edge and along the left edge. *)
Fixpoint right (e : rb) : N :=
  match e with
  | R_unary t e => N.min (level_of (unary_level (ty t))) (right e)
  | R_binary _ t e => N.min (level_of (binary_level (ty t))) (right e)
  | R_ternary _ _ _ _ _ | R_assign _ _ _ | R_op_assign _ _ _ | R_attr _ _ _ _ _ | R_element _ _ _ _ _ => ARGUMENT
  | R_command _ _ _ _ | R_keywords _ _ _ _ _ _ _ | R_jump _ _ | R_yield _ _ _ => COMMAND
  | R_modifier _ _ _ | R_alias _ _ _ | R_undef _ _ => 0
  | _ => PRIMARY
  end.
Fixpoint left (e : rb) : N :=
  match e with
  | R_binary e t _ => N.min (level_of (binary_level (ty t))) (left e)
  | R_ternary _ _ _ _ _ | R_assign _ _ _ | R_op_assign _ _ _ => ARGUMENT
  | R_attr r _ _ _ _ | R_element r _ _ _ _ => N.min ARGUMENT (left r)
  | R_command _ _ _ _ | R_keywords _ _ _ _ _ _ _ | R_jump _ _ | R_yield _ _ _ => COMMAND
  | R_modifier _ _ _ | R_alias _ _ _ | R_undef _ _ => 0
  | R_call (V_dot r _) _ _ => if number r then 13 else left r
  | R_index r _ _ | R_scope r _ _ | R_block r _ _ _ _ => left r
  | _ => PRIMARY
  end.
Definition at_least (n : N) (e : rb) : bool := (n <=? left e) && (n <=? right e).

(** An assignment at the right edge: it would take a comma behind it for its own. *)
Fixpoint assigns (e : rb) : bool :=
  match e with
  | R_assign _ _ _ => true
  | R_attr _ _ _ q e | R_element _ _ _ q e => ttype_eqb (ty q) T_Equal || assigns e
  | R_op_assign _ _ e | R_ternary _ _ _ _ e | R_binary _ _ e | R_unary _ e => assigns e
  | _ => false
  end.
Definition comma_safe (e : rb) : bool :=
  match e with
  | R_assign _ _ e | R_attr _ _ _ _ e | R_element _ _ _ _ e => negb (assigns e)
  | _ => negb (assigns e)
  end.
(** A [return] without a value at the right edge. *)
Fixpoint returns (e : rb) : bool :=
  match e with
  | R_jump k None => is_a T_ReturnKeyword k
  | R_binary _ _ e | R_unary _ e | R_modifier _ _ e => returns e
  | _ => false
  end.

(** Separators. *)
Definition separator (t : token) : bool := is_a T_Newline t || is_a T_Semicolon t.
Definition then_ (t : token) : bool := separator t || is_a T_ThenKeyword t.

(** Commas between the elements of a list and a closing token behind the last. *)
Fixpoint closed (close : ttype) (l : list token) : bool :=
  match l with
  | [] => false
  | [t] => is_a close t
  | t :: l => is_a T_Comma t && closed close l
  end.
Definition pair_end {A} (p : pair A) : token := match p with P_key _ _ s | P_rocket _ _ _ s | P_double _ _ s => s end.

(** A token that begins a quoted literal. *)
Definition is_quote (t : ttype) : bool :=
  match t with
  | T_InterpolatedStringBegin | T_InterpolatedSymbolBegin | T_InterpolatedShellBegin => true
  | _ => false
  end.
Definition quote_end (t : ttype) : ttype :=
  match t with
  | T_InterpolatedSymbolBegin => T_InterpolatedSymbolEnd
  | T_InterpolatedShellBegin => T_InterpolatedShellEnd
  | _ => T_InterpolatedStringEnd
  end.
(** A token that begins the argument of a call without parentheses. *)
Definition begins_argument (t : token) : bool :=
  is_leaf (ty t) || is_quote (ty t) ||
  (is_a T_LBracket t || is_a T_LBracketRBracket t || is_a T_ConstantResolution t) && tk_ws t ||
  match ty t with
  | T_Not | T_Tilde | T_Arrow | T_DefKeyword | T_DefinedKeyword | T_BeginKeyword | T_YieldKeyword | T_SuperKeyword => true
  | _ => false
  end.

(** An operator that looks like the beginning of an argument. *)
Definition ambiguous (t : ttype) : bool :=
  match t with
  | T_Plus | T_Minus | T_Star | T_StarStar | T_Ampersand | T_Slash | T_Percent | T_LeftShift => true
  | _ => false
  end.
Definition op_assign_type (t : ttype) : bool :=
  match t with
  | T_AmpersandAmpersandEqual | T_PipePipeEqual | T_AmpersandEqual | T_CaretEqual | T_LeftShiftEqual
  | T_MinusEqual | T_PercentEqual | T_PipeEqual | T_PlusEqual | T_RightShiftEqual | T_SlashEqual
  | T_StarEqual | T_StarStarEqual => true
  | _ => false
  end.

(** The order of parameters: plain, optional, splat, plain, keywords, keyword splat, block. *)
Definition stage {A} (last : N) (p : param A) : N :=
  match p with
  | P_req _ => if last <=? 0 then 0 else 3
  | P_opt _ _ _ => 1
  | P_splat _ _ => 2
  | P_kreq _ | P_kopt _ _ => 4
  | P_ksplat _ _ => 5
  | P_block _ _ => 6
  end.
Definition once {A} (p : param A) : bool :=
  match p with P_splat _ _ | P_ksplat _ _ | P_block _ _ => true | _ => false end.
Fixpoint in_order {A} (last : N) (l : list (param A)) : bool :=
  match l with
  | [] => true
  | p :: l =>
      (if once p then last <? stage last p else last <=? stage last p) && in_order (stage last p) l
  end.

(** A command or a [do] block in a place where a command around it would see it. *)
Section Shallow.
Context {A : Type} (shallow : A -> bool).
Definition pair_shallow (p : pair A) : bool :=
  match p with P_key _ v _ | P_double _ v _ => shallow v | P_rocket k _ v _ => shallow k || shallow v end.
Definition items_shallow (l : list (A * token)) : bool := existsb (fun x => shallow (fst x)) l.
Definition args_shallow (a : args A) : bool :=
  match a with
  | A_some _ l ps => items_shallow l || existsb pair_shallow ps
  | A_pass _ l ps _ e _ => items_shallow l || existsb pair_shallow ps || shallow e
  | _ => false
  end.
Definition recv_shallow (r : recv A) : bool := match r with V_none => false | V_dot r _ => shallow r end.
Definition param_shallow (p : param A) : bool :=
  match p with P_opt _ _ d | P_kopt _ d => shallow d | _ => false end.
Definition params_shallow (p : params A) : bool :=
  match p with F_some _ l => existsb (fun x => param_shallow (fst x)) l | _ => false end.
Definition body_shallow (b : body A) : bool := existsb (fun x => shallow (fst x)) (snd b).
Definition piece_shallow (p : piece A) : bool :=
  match p with S_text _ => false | S_code _ b _ => body_shallow b end.
Definition clause_shallow (c : clause A) : bool :=
  match c with
  | C_rescue _ (Some (e, xs)) _ _ => shallow e || existsb (fun y => shallow (snd y)) xs
  | _ => false
  end.
End Shallow.
Fixpoint shallow (e : rb) : bool :=
  match e with
  | R_leaf _ | R_group _ _ _ | R_empty_array _ | R_array _ _ | R_empty_hash _ _ | R_top _ _ | R_alias _ _ _ | R_undef _ _ => false
  | R_unary _ e | R_assign _ _ e | R_op_assign _ _ e | R_scope e _ _ => shallow e
  | R_binary a _ b | R_modifier a _ b => shallow a || shallow b
  | R_ternary c _ a _ b => shallow c || shallow a || shallow b
  | R_hash _ ps => existsb (pair_shallow shallow) ps
  | R_call r _ a => recv_shallow shallow r || args_shallow shallow a
  | R_index r _ l => shallow r || items_shallow shallow l
  | R_command _ _ _ _ | R_keywords _ _ _ _ _ _ _ | R_yield _ _ _ => true
  | R_splat _ e => shallow e
  | R_block c o p _ _ => is_a T_DoKeyword o || shallow c || params_shallow shallow p
  | R_if _ c b l e _ =>
      shallow c || body_shallow shallow b ||
      existsb (fun x => shallow (fst (snd x)) || body_shallow shallow (snd (snd x))) l ||
      match e with Some (_, b) => body_shallow shallow b | None => false end
  | R_unless _ c b e _ =>
      shallow c || body_shallow shallow b ||
      match e with Some (_, b) => body_shallow shallow b | None => false end
  | R_while _ c _ _ => shallow c
  | R_case _ c _ l _ _ =>
      shallow c ||
      existsb (fun x => existsb (fun y => shallow (snd y)) (fst x) || body_shallow shallow (snd x)) l
  | R_def _ _ _ p _ _ => params_shallow shallow p
  | R_class _ _ _ _ _ | R_module _ _ _ _ => false
  | R_jump _ v => match v with Some e => shallow e | None => false end
  | R_keyword _ a => args_shallow shallow a
  | R_quoted _ ps _ => existsb (piece_shallow shallow) ps
  | R_attr r _ _ _ e => shallow r || shallow e
  | R_element r _ l _ e => shallow r || items_shallow shallow l || shallow e
  | R_defined _ _ e _ | R_sclass _ _ e _ _ => shallow e
  | R_lambda _ _ _ _ _ | R_for _ _ _ _ _ _ => false
  | R_begin _ _ cs _ _ _ => existsb (clause_shallow shallow) cs
  end.

(** A call that can have a block: [private] and alike cannot; braces need an argument
    list in parentheses, or none. *)
Definition takes_block (s : str) : bool :=
  negb (str_eqb s (s2l "private") || str_eqb s (s2l "protected") || str_eqb s (s2l "public")).
Definition passes {A} (a : args A) : bool := match a with A_pass _ _ _ _ _ _ => true | _ => false end.
Definition blockable (l : list str) (braces : bool) (e : rb) : bool :=
  match e with
  | R_leaf t => is_a T_BareName t && negb (bound l (name t))
  | R_call _ n a => takes_block (method_name n) && negb (passes a)
  | R_command _ n _ _ | R_keywords _ n _ _ _ _ _ => negb braces && takes_block (method_name n)
  | R_keyword k a => is_a T_SuperKeyword k && negb (passes a)
  | _ => false
  end.

(** The path of a constant. *)
Fixpoint path (e : rb) : bool :=
  match e with
  | R_leaf t => is_a T_Constant t && named t
  | R_scope r t n => path r && is_a T_ConstantResolution t && negb (tk_ws t) && is_a T_Constant n && named n
  | R_top t n => is_a T_ConstantResolution t && is_a T_Constant n && named n
  | _ => false
  end.

Section Fits.
Context {A : Type} (after : list str -> A -> list str) (fits : list str -> A -> bool).
Definition all_fit (l : list str) (xs : list (A * token)) : bool :=
  forallb (fun b => b) (map_all (fun l x => after l (fst x)) (fun l x => fits l (fst x)) l xs).
Definition pair_fits (operand : list str -> A -> bool) (l : list str) (p : pair A) : bool :=
  match p with
  | P_key k v _ => is_a T_SymbolKey k && named k && fits l v
  | P_rocket k t v _ => is_a T_HashRocket t && fits l k && fits (after l k) v
  | P_double t v _ => is_a T_StarStar t && operand l v
  end.
Definition pairs_fit (operand : list str -> A -> bool) (l : list str) (ps : list (pair A)) : bool :=
  forallb (fun b => b) (map_all (pair_after after) (pair_fits operand) l ps).
Definition args_fit (item : list str -> list (A * token) -> bool) (operand : list str -> A -> bool) (l : list str) (a : args A) : bool :=
  match a with
  | A_none => true
  | A_empty o c => is_a T_LParen o && negb (tk_ws o) && is_a T_RParen c
  | A_some o xs ps =>
      is_a T_LParen o && negb (tk_ws o) && closed T_RParen (map snd xs ++ map pair_end ps) &&
      item l xs && pairs_fit operand (items_after after l xs) ps
  | A_pass o xs ps t e c =>
      is_a T_LParen o && negb (tk_ws o) && forallb (fun x => is_a T_Comma (snd x)) xs &&
      forallb (fun x => is_a T_Comma (pair_end x)) ps && item l xs && pairs_fit operand (items_after after l xs) ps &&
      is_a T_Ampersand t && is_a T_RParen c && fits (after_all (pair_after after) (items_after after l xs) ps) e
  end.
Definition param_fits (l : list str) (p : param A) : bool :=
  match p with
  | P_req n => is_a T_BareName n && named n
  | P_opt n q d => is_a T_BareName n && named n && is_a T_Equal q && fits (name n :: l) d
  | P_splat s n => is_a T_Star s && is_a T_BareName n && named n
  | P_kreq k => is_a T_SymbolKey k && named k
  | P_kopt k d => is_a T_SymbolKey k && named k && fits l d
  | P_ksplat s n => is_a T_StarStar s && is_a T_BareName n && named n
  | P_block s n => is_a T_Ampersand s && is_a T_BareName n && named n
  end.
Definition params_fit (open close : ttype) (l : list str) (p : params A) : bool :=
  match p with
  | F_none => true
  | F_empty o c => is_a open o && is_a close c
  | F_some o xs =>
      is_a open o && closed close (map snd xs) && in_order 0 (map fst xs) &&
      forallb (fun b => b)
        (map_all (fun l x => param_after after l (fst x)) (fun l x => param_fits l (fst x)) l xs)
  end.
(** Statements: separators between two of them, and behind the last if [strict];
    [fits] says too whether a statement may stand in front of a closing token. *)
Definition statements_fit (strict : bool) (returns : A -> bool) (l : list str) (xs : list (A * list token)) : bool :=
  forallb (fun b => b)
    (map_all (fun l x => after l (fst x))
       (fun l x => fits l (fst x) && forallb separator (snd x)) l xs) &&
  forallb (fun x => match snd x with [] => false | _ => true end) (if strict then xs else removelast xs) &&
  forallb (fun x => match snd x with [] => negb (returns (fst x)) | _ => true end) xs.
(** [first] says what may come before the statements. *)
Definition body_fits (first : list token -> bool) (strict : bool) (returns : A -> bool) (l : list str)
  (b : body A) : bool :=
  first (fst b) && statements_fit strict returns l (snd b).
Definition else_fits (filled : bool) (returns : A -> bool) (l : list str) (e : option (token * body A)) : bool :=
  match e with
  | None => true
  | Some (k, b) =>
      is_a T_ElseKeyword k && body_fits (forallb separator) false returns l b &&
      negb (filled && match snd b with [] => true | _ => false end)
  end.
Definition tests_fit (l : list str) (xs : list (token * A)) : bool :=
  forallb (fun b => b) (map_all (fun l x => after l (snd x)) (fun l x => fits l (snd x)) l xs) &&
  match map fst xs with [] => false | k :: r => is_a T_WhenKeyword k && forallb (is_a T_Comma) r end.
Definition piece_fits (returns : A -> bool) (l : list str) (p : piece A) : bool :=
  match p with
  | S_text t => is_a T_String t && match lit t with Some _ => true | None => false end
  | S_code o b c =>
      is_a T_EvaluateToStringBegin o && is_a T_EvaluateToStringEnd c &&
      body_fits (forallb separator) false returns l b
  end.
(** What may follow a condition, a keyword or a name. *)
Definition separated (l : list token) : bool :=
  match l with [] => false | _ => forallb separator l end.
Definition clause_fits (argument : list str -> A -> bool) (returns : A -> bool) (l : list str) (c : clause A) : bool :=
  match c with
  | C_rescue k es n b =>
      is_a T_RescueKeyword k &&
      match es with
      | Some (e, xs) =>
          argument l e && forallb (fun y => is_a T_Comma (fst y)) xs &&
          forallb (fun b => b) (map_all (fun l x => after l (snd x)) (fun l x => argument l (snd x)) (after l e) xs)
      | None => true
      end &&
      match n with Some (t, n) => is_a T_HashRocket t && is_variable (ty n) && named n | None => true end &&
      body_fits separated true returns (naming_after (exceptions_after after l es) n) b
  end.
End Fits.

Definition then_separated (l : list token) : bool :=
  match l with [] => false | t :: r => then_ t && forallb separator r end.

(** An argument, or an element of a list; the default value of a parameter. *)
Definition as_argument (fits : list str -> rb -> bool) (l : list str) (e : rb) : bool :=
  fits l e && at_least ARGUMENT e && comma_safe e.
(** What stands behind a star or two. *)
Definition as_operand (fits : list str -> rb -> bool) (l : list str) (e : rb) : bool :=
  fits l e && (7 <=? left e) && (ARGUMENT <=? right e) && negb (assigns e).
Definition as_item (fits : list str -> rb -> bool) (l : list str) (e : rb) : bool :=
  match e with
  | R_splat t e => is_a T_Star t && as_operand fits l e
  | _ => as_argument fits l e
  end.
Definition as_default (fits : list str -> rb -> bool) (l : list str) (e : rb) : bool :=
  fits l e && at_least 12 e.

(** The name of a method, as it is written behind [alias] and [undef]. *)
Definition aliased (t : token) : bool :=
  match ty t with
  | T_BareName | T_Constant | T_OperatorName => named t
  | T_Symbol => match lit t with Some _ => true | None => false end
  | _ => false
  end.

(** [fits l e]: [e] is written as Ruby's grammar wants it, the local variables in front
    of it being [l]. *)
Fixpoint fits (l : list str) (e : rb) : bool :=
  match e with
  | R_leaf t =>
      is_leaf (ty t) &&
      match ty t with
      | T_Fixnum => (0 <=? fix_ t)%Z
      | T_Float | T_NilKeyword | T_TrueKeyword | T_FalseKeyword | T_SelfKeyword | T_NthRef | T_ENCODINGKeyword => true
      | T_BackRef => match lit t with Some [c] => negb (c =? 0) | _ => false end
      | T_Bignum => match lit t with Some (c :: _) => negb (c =? "-"%ch) | _ => false end
      | T_String | T_Symbol => match lit t with Some _ => true | None => false end
      | _ => named t
      end
  | R_group o e c => is_a T_LParen o && is_a T_RParen c && negb (returns e) && fits l e
  | R_unary t e =>
      fits l e &&
      match unary_level (ty t) with
      | Some n =>
          (if is_a T_NotKeyword t then 7 <=? left e else n <? left e) && (ARGUMENT <=? right e) &&
          (negb (is_a T_Minus t || is_a T_Plus t) || literal_number e || negb (number e))
      | None => false
      end
  | R_binary a t b =>
      fits l a && fits (after l a) b &&
      match binary_level (ty t) with
      | Some n =>
          (match ty t with
           | T_StarStar | T_Comparison | T_EqualEqual | T_EqualEqualEqual | T_NotEqual | T_Match =>
               n <? right a
           | T_DotDot | T_DotDotDot => 7 <=? right a
           | _ => n <=? right a
           end) &&
          (match ty t with
           | T_Comparison => 8 <? left b | T_DotDot | T_DotDotDot => 7 <=? left b | _ => n <? left b
           end) &&
          ((n <=? EXPRESSION) || (ARGUMENT <=? right b)) &&
          (if ambiguous (ty t) && tk_ws t then tk_ws (hd t (text b)) else true) &&
          negb (returns a)
      | None => false
      end
  | R_ternary c q a k b =>
      is_a T_TernaryQuestion q && is_a T_TernaryColon k && fits l c && fits (after l c) a &&
      fits (after (after l c) a) b && (4 <=? right c) && (4 <=? left c) &&
      at_least ARGUMENT a && at_least ARGUMENT b
  | R_assign n q e =>
      is_variable (ty n) && named n && is_a T_Equal q && at_least ARGUMENT e &&
      fits (if ttype_eqb (ty n) T_BareName then name n :: l else l) e
  | R_op_assign n q e =>
      is_variable (ty n) && named n && op_assign_type (ty q) && at_least ARGUMENT e &&
      fits (if ttype_eqb (ty n) T_BareName then name n :: l else l) e
  | R_empty_array t => is_a T_LBracketRBracket t
  | R_array o xs =>
      is_a T_LBracket o && closed T_RBracket (map snd xs) && all_fit after (as_item fits) l xs
  | R_empty_hash o c => is_a T_LCurlyBrace o && is_a T_RCurlyBrace c
  | R_hash o ps =>
      is_a T_LCurlyBrace o && closed T_RCurlyBrace (map pair_end ps) && pairs_fit after (as_argument fits) (as_operand fits) l ps
  | R_call r n a =>
      match r with
      | V_none =>
          (is_a T_BareName n || is_a T_Constant n) && named n && match a with A_none => false | _ => true end
      | V_dot r d =>
          (is_a T_Dot d || is_a T_SafeNavigation d) && fits l r && (PRIMARY <=? right r) &&
          ((is_a T_BareName n || is_a T_Constant n) && named n ||
           match keyword_name (ty n) with Some _ => true | None => false end)
      end && args_fit after (as_argument fits) (all_fit after (as_item fits)) (as_operand fits) (recv_after after l r) a
  | R_index r o xs =>
      fits l r && (PRIMARY <=? right r) && is_a T_LBracket o && negb (tk_ws o) &&
      closed T_RBracket (map snd xs) && all_fit after (as_item fits) (after l r) xs
  | R_scope r t n =>
      fits l r && (PRIMARY <=? right r) && is_a T_ConstantResolution t && negb (tk_ws t) &&
      is_a T_Constant n && named n
  | R_top t n => is_a T_ConstantResolution t && is_a T_Constant n && named n
  | R_command r n xs e =>
      match r with
      | V_none => negb (bound l (name n))
      | V_dot r d => (is_a T_Dot d || is_a T_SafeNavigation d) && fits l r && (PRIMARY <=? right r)
      end && is_a T_BareName n && named n &&
      forallb (fun x => is_a T_Comma (snd x)) xs &&
      all_fit after (as_item fits) (recv_after after l r) xs &&
      as_argument fits (items_after after (recv_after after l r) xs) e &&
      negb (items_shallow shallow xs || shallow e) &&
      begins_argument (hd n (items_text text xs ++ text e))
  | R_block c o p b f =>
      let close := if is_a T_LCurlyBrace o then T_RCurlyBrace else T_EndKeyword in
      fits l c && (is_a T_LCurlyBrace o || is_a T_DoKeyword o) &&
      blockable l (is_a T_LCurlyBrace o) c && is_a close f &&
      params_fit after (as_default fits) T_Pipe T_Pipe (after l c) p &&
      body_fits after fits (forallb separator) false returns (params_after after (after l c) p) b
  | R_if k c b xs e f =>
      is_a T_IfKeyword k && fits l c && at_least EXPRESSION c && negb (returns c) &&
      body_fits after fits then_separated false returns (after l c) b &&
      forallb (fun b => b)
        (map_all (elsif_after after)
           (fun l x =>
              is_a T_ElsifKeyword (fst x) && fits l (fst (snd x)) && at_least EXPRESSION (fst (snd x)) &&
              negb (returns (fst (snd x))) &&
              body_fits after fits then_separated false returns (after l (fst (snd x))) (snd (snd x)))
           (body_after after (after l c) b) xs) &&
      else_fits after fits false returns (after_all (elsif_after after) (body_after after (after l c) b) xs) e &&
      is_a T_EndKeyword f
  | R_unless k c b e f =>
      is_a T_UnlessKeyword k && fits l c && at_least EXPRESSION c && negb (returns c) &&
      body_fits after fits then_separated false returns (after l c) b &&
      else_fits after fits false returns (body_after after (after l c) b) e && is_a T_EndKeyword f
  | R_while k c b f =>
      (is_a T_WhileKeyword k || is_a T_UntilKeyword k) && fits l c && at_least EXPRESSION c &&
      negb (returns c) && negb (shallow c) &&
      body_fits after fits separated false returns (after l c) b && is_a T_EndKeyword f
  | R_modifier e k c =>
      (is_a T_IfKeyword k || is_a T_UnlessKeyword k || is_a T_WhileKeyword k || is_a T_UntilKeyword k) &&
      fits l e && at_least COMMAND e && fits (after l e) c && at_least EXPRESSION c &&
      match e with R_group _ e _ => negb (rescued e) | _ => true end
  | R_case k c s xs e f =>
      is_a T_CaseKeyword k && fits l c && at_least ARGUMENT c && separated s &&
      forallb (fun b => b)
        (map_all (when_after after)
           (fun l x =>
              tests_fit after (as_argument fits) l (fst x) &&
              body_fits after fits then_separated true returns (tests_after after l (fst x)) (snd x))
           (after l c) xs) &&
      match xs with [] => false | _ => true end &&
      else_fits after fits true returns (after_all (when_after after) (after l c) xs) e && is_a T_EndKeyword f
  | R_def k s n p b f =>
      is_a T_DefKeyword k &&
      match s with Some (s, d) => is_a T_SelfKeyword s && is_a T_Dot d | None => true end &&
      (is_a T_BareName n || is_a T_Constant n) && named n &&
      params_fit after (as_default fits) T_LParen T_RParen [] p &&
      body_fits after fits (match p with F_none => separated | _ => forallb separator end) false returns
        (params_after after [] p) b && is_a T_EndKeyword f
  | R_class k n s b f =>
      is_a T_ClassKeyword k && path n &&
      match s with Some (t, e) => is_a T_LessThan t && path e | None => true end &&
      body_fits after fits separated false returns [] b && is_a T_EndKeyword f
  | R_module k n b f =>
      is_a T_ModuleKeyword k && path n && body_fits after fits separated false returns [] b &&
      is_a T_EndKeyword f
  | R_jump k v =>
      match v with
      | None => is_a T_ReturnKeyword k || is_a T_BreakKeyword k || is_a T_NextKeyword k || is_a T_RedoKeyword k || is_a T_RetryKeyword k
      | Some e =>
          (is_a T_ReturnKeyword k || is_a T_BreakKeyword k || is_a T_NextKeyword k) &&
          fits l e && at_least ARGUMENT e && begins_argument (hd k (text e))
      end
  | R_alias k a b =>
      is_a T_AliasKeyword k &&
      (is_a T_GlobalVariable a && named a && is_a T_GlobalVariable b && named b || aliased a && aliased b)
  | R_undef k a => is_a T_UndefKeyword k && aliased a
  | R_yield k xs e =>
      (is_a T_YieldKeyword k || is_a T_SuperKeyword k) &&
      forallb (fun x => is_a T_Comma (snd x)) xs &&
      all_fit after (as_item fits) l xs && as_argument fits (items_after after l xs) e &&
      negb (items_shallow shallow xs || shallow e) &&
      begins_argument (hd k (items_text text xs ++ text e))
  | R_keyword k a => (is_a T_YieldKeyword k || is_a T_SuperKeyword k) && args_fit after (as_argument fits) (all_fit after (as_item fits)) (as_operand fits) l a
  | R_quoted o ps c =>
      is_quote (ty o) && is_a (quote_end (ty o)) c &&
      forallb (fun b => b) (map_all (piece_after after) (piece_fits after fits returns) l ps)
  | R_attr r d n q e =>
      (is_a T_Dot d || is_a T_SafeNavigation d) && fits l r && (PRIMARY <=? right r) &&
      ((is_a T_BareName n || is_a T_Constant n) && named n ||
       match keyword_name (ty n) with Some _ => true | None => false end) &&
      negb (str_eqb (method_name n) (s2l "[]")) &&
      (is_a T_Equal q || op_assign_type (ty q)) && at_least ARGUMENT e && fits (after l r) e
  | R_element r o xs q e =>
      fits l r && (PRIMARY <=? right r) && is_a T_LBracket o && negb (tk_ws o) &&
      closed T_RBracket (map snd xs) && all_fit after (as_item fits) (after l r) xs &&
      (is_a T_Equal q || op_assign_type (ty q)) && at_least ARGUMENT e &&
      fits (items_after after (after l r) xs) e
  | R_defined k o e c =>
      is_a T_DefinedKeyword k && is_a T_LParen o && negb (tk_ws o) && is_a T_RParen c && at_least ARGUMENT e && fits l e
  | R_lambda k p o b f =>
      let close := if is_a T_LCurlyBrace o then T_RCurlyBrace else T_EndKeyword in
      is_a T_Arrow k && match p with Some (x, y) => is_a T_LParen x && is_a T_RParen y | None => true end &&
      (is_a T_LCurlyBrace o || is_a T_DoKeyword o) && is_a close f &&
      body_fits after fits (forallb separator) false returns l b
  | R_sclass k t e b f =>
      is_a T_ClassKeyword k && is_a T_LeftShift t && at_least ARGUMENT e && fits l e &&
      match l, after l e, body_after after [] b with [], [], [] => true | _, _, _ => false end &&
      body_fits after fits separated false returns [] b && is_a T_EndKeyword f
  | R_begin k b cs e n f =>
      let l1 := body_after after l b in
      let l2 := after_all (clause_after after) l1 cs in
      is_a T_BeginKeyword k && body_fits after fits separated true returns l b &&
      forallb (fun b => b) (map_all (clause_after after) (clause_fits after fits (as_argument fits) returns) l1 cs) &&
      match e with
      | Some (k, b) =>
          is_a T_ElseKeyword k && body_fits after fits separated true returns l2 b &&
          match cs with [] => false | _ => true end
      | None => true
      end &&
      match n with
      | Some (k, b) =>
          is_a T_EnsureKeyword k && body_fits after fits separated false returns (else_after after l2 e) b
      | None => match cs with [] => false | _ => true end
      end && is_a T_EndKeyword f
  | R_for k n i e b f =>
      is_a T_ForKeyword k && is_variable (ty n) && named n && is_a T_InKeyword i &&
      fits (assigned l n) e && at_least ARGUMENT e && negb (shallow e) &&
      body_fits after fits separated false returns (after (assigned l n) e) b && is_a T_EndKeyword f
  | R_splat _ _ => false
  | R_keywords r n xs ps k t e =>
      let l1 := items_after after (recv_after after l r) xs in
      let l2 := after_all (pair_after after) l1 ps in
      match r with
      | V_none => negb (bound l (name n))
      | V_dot r d => (is_a T_Dot d || is_a T_SafeNavigation d) && fits l r && (PRIMARY <=? right r)
      end && is_a T_BareName n && named n &&
      forallb (fun x => is_a T_Comma (snd x)) xs && forallb (fun x => is_a T_Comma (pair_end x)) ps &&
      all_fit after (as_item fits) (recv_after after l r) xs &&
      pairs_fit after (as_argument fits) (as_operand fits) l1 ps &&
      match k with
      | Some k => is_a T_HashRocket t && as_argument fits l2 k && as_argument fits (after l2 k) e && negb (shallow k)
      | None => is_a T_SymbolKey t && named t && as_argument fits l2 e
      end &&
      negb (items_shallow shallow xs || existsb (pair_shallow shallow) ps || shallow e) &&
      let h := hd n (items_text text xs ++ flat_map (pair_text text) ps ++
                     match k with Some k => text k | None => [] end ++ [t]) in
      begins_argument h || is_a T_SymbolKey h
  end.

(** ** Programs and results *)
(** A program: statements up to the end of the file. *)
Definition program_fits (b : body rb) : bool :=
  body_fits after fits (forallb separator) false (fun _ => false) [] b.
Definition program_meaning (b : body rb) : sexp :=
  match body_meaning after meaning [] b with [v] => v | l => sx "block" l end.

(** An s-expression without places, its chains of [&&] and [||] flat. *)
Fixpoint bare (v : sexp) : sexp :=
  match v with
  | Sexp _ _ c (SSym tag :: l) =>
      Sexp 0 0 c
        (SSym tag ::
         (if str_eqb tag (s2l "and") || str_eqb tag (s2l "or")
          then flat_map (chain tag) (map bare l) else map bare l))
  | Sexp _ _ c l => Sexp 0 0 c (map bare l)
  | _ => v
  end.

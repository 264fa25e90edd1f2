(** * ParserBase: parser state, outcomes, token access, errors, precedences

    Modelled code: /repo/src/parser.cpp lines 6-199 and 3083-3269,
    /repo/include/natalie_parser/parser.hpp lines 190-245.

    The token vector and [m_index] are a zipper: [p_prev] holds the tokens before
    [m_index], nearest first, [p_rest] those from [m_index] on.

    Simplifications: a syntax error is a value naming the throwing function and
    its arguments instead of the formatted text; [advance] at the end of the
    vector is the distinct outcome [PRange] (in C++ it only increments
    [m_index]; the theorems show it does not happen). *)
From Coq Require Import NArith ZArith List Bool Strings.String.
From Verif Require Import Base Token Node.
Import ListNotations.
Open Scope N_scope.
Open Scope list_scope.

(** parser.hpp 14-35 ([Parser::SyntaxError]): which function threw it
    (parser.cpp 3122-3164, 3170-3226, 3253-3259) and with which arguments. *)
Inductive serror :=
| SE_unexpected (t : token) (expected : string)
| SE_error (t : token) (error : string)
| SE_unterminated (thing : string) (start : token)
| SE_invalid (t : token)
| SE_invalid_unicode_escape (t : token)
| SE_invalid_character_escape (t : token)
| SE_text (message : string).

(** Ways the C++ program stops without a [SyntaxError]: TM_UNREACHABLE (with its
    place),
    TM_NOT_YET_IMPLEMENTED, a failing [assert], a null pointer read as a C
    string, an index outside a vector. *)
Inductive pcrash := PUnreachable (site : string) | PNotImplemented | PAssert | PNull | PRange.

Inductive pres (S A : Type) :=
| POk (a : A) (s : S)
| PSyn (e : serror)
| PCrash (c : pcrash)
| PNoFuel.
Arguments POk {S A} a s.
Arguments PSyn {S A} e.
Arguments PCrash {S A} c.
Arguments PNoFuel {S A}.

(** parser.hpp 237-242: the members of Parser.  [p_locals] is the
    [LocalsHashmap &] argument passed to every parsing function. *)
Record pstate := PState {
  p_prev : list token;
  p_rest : list token;
  p_precs : list N;
  p_depth : list N;
  p_locals : list str;
  p_file : str
}.

Definition M (A : Type) := pstate -> pres pstate A.

Definition ret {A} (a : A) : M A := fun s => POk a s.
Definition bind {A B} (m : M A) (k : A -> M B) : M B :=
  fun s =>
    match m s with
    | POk a s' => k a s'
    | PSyn e => PSyn e
    | PCrash c => PCrash c
    | PNoFuel => PNoFuel
    end.
Definition crash {A} (c : pcrash) : M A := fun _ => PCrash c.
Definition throw {A} (e : serror) : M A := fun _ => PSyn e.
Definition nofuel {A} : M A := fun _ => PNoFuel.

Declare Scope monad_scope.
Delimit Scope monad_scope with monad.
Notation "x <- m ;; k" := (bind m (fun x => k))
  (at level 61, m at next level, right associativity) : monad_scope.
Notation "' p <- m ;; k" := (bind m (fun p => k))
  (at level 61, p pattern, m at next level, right associativity) : monad_scope.
Notation "m ;;; k" := (bind m (fun _ => k))
  (at level 61, right associativity) : monad_scope.
Open Scope monad_scope.

(** A C++ [while] loop: [body] says whether to go round again ([inl]) or to leave
    ([inr]).  The fuel is shown to suffice. *)
Fixpoint mloop {A B} (fuel : nat) (body : A -> M (A + B)) (a : A) : M B :=
  match fuel with
  | O => nofuel
  | S n =>
      r <- body a ;;
      match r with
      | inl a' => mloop n body a'
      | inr b => ret b
      end
  end.

(** parser.cpp 3093-3097. *)
Definition current (s : pstate) : token := hd no_token (p_rest s).
Definition cur : M token := fun s => POk (current s) s.
(** [current_token().type()]. *)
Definition cty : M ttype := fun s => POk (ty (current s)) s.

(** parser.cpp 3099-3103. *)
Definition peek : M token := fun s => POk (nth 1 (p_rest s) no_token) s.

(** parser.cpp 3087-3091. *)
Definition prev : M token := fun s => POk (hd no_token (p_prev s)) s.

(** parser.hpp 228. *)
Definition advance : M unit := fun s =>
  match p_rest s with
  | [] => PCrash PRange
  | t :: rest => POk tt (PState (t :: p_prev s) rest (p_precs s) (p_depth s) (p_locals s) (p_file s))
  end.

(** parser.hpp 229. *)
Definition rewind : M unit := fun s =>
  match p_prev s with
  | [] => PCrash PRange
  | t :: before => POk tt (PState before (t :: p_rest s) (p_precs s) (p_depth s) (p_locals s) (p_file s))
  end.

(** [m_tokens->insert(m_index, token)] (parser.cpp 295, 2694). *)
Definition insert_token (t : token) : M unit := fun s =>
  POk tt (PState (p_prev s) (t :: p_rest s) (p_precs s) (p_depth s) (p_locals s) (p_file s)).

(** [m_precedence_stack.push/pop/last/size] (parser.cpp 204, 219-222, 507, 2299). *)
Definition push_prec (p : N) : M unit := fun s =>
  POk tt (PState (p_prev s) (p_rest s) (p :: p_precs s) (p_depth s) (p_locals s) (p_file s)).
Definition pop_prec : M unit := fun s =>
  match p_precs s with
  | [] => PCrash PRange
  | _ :: l => POk tt (PState (p_prev s) (p_rest s) l (p_depth s) (p_locals s) (p_file s))
  end.
Definition precs : M (list N) := fun s => POk (p_precs s) s.

(** [m_call_depth.push/pop/last] and [++]/[--] on the unsigned int on top
    (parser.cpp 84, 247, 265, 2421-2440). *)
Definition set_depth (d : list N) : M unit := fun s =>
  POk tt (PState (p_prev s) (p_rest s) (p_precs s) d (p_locals s) (p_file s)).
Definition depth_stack : M (list N) := fun s => POk (p_depth s) s.
Definition push_depth (n : N) : M unit := d <- depth_stack ;; set_depth (n :: d).
Definition pop_depth : M unit :=
  d <- depth_stack ;;
  match d with [] => crash PRange | _ :: d' => set_depth d' end.
Definition uint_max : N := 4294967295.
Definition incr_depth : M unit :=
  d <- depth_stack ;;
  match d with
  | [] => crash PRange
  | n :: d' => set_depth ((if n =? uint_max then 0 else n + 1) :: d')
  end.
Definition decr_depth : M unit :=
  d <- depth_stack ;;
  match d with
  | [] => crash PRange
  | n :: d' => set_depth ((if n =? 0 then uint_max else n - 1) :: d')
  end.

(** [locals.set(name->c_str())], [locals.get(name->c_str())]: the map is keyed by
    C strings. *)
Definition set_locals (l : list str) : M unit := fun s =>
  POk tt (PState (p_prev s) (p_rest s) (p_precs s) (p_depth s) l (p_file s)).
Definition get_locals : M (list str) := fun s => POk (p_locals s) s.
Definition add_local (name : str) : M unit :=
  l <- get_locals ;; set_locals (cstr name :: l).
Definition is_local (name : str) : M bool :=
  l <- get_locals ;; ret (existsb (str_eqb (cstr name)) l).
Definition get_file : M str := fun s => POk (p_file s) s.

(** [LocalsHashmap our_locals { ... }] passed to the functions called by [m]; the
    map of the caller is back in use afterwards. *)
Definition with_locals {A} (l : list str) (m : M A) : M A :=
  outer <- get_locals ;;
  set_locals l ;;;
  a <- m ;;
  set_locals outer ;;;
  ret a.

(** token.hpp 240-243: [literal_string()] asserts that there is a literal. *)
Definition literal_string (t : token) : M str :=
  match lit t with Some l => ret l | None => crash PAssert end.

(** [new String(token.type_value())]: [type_value()] may be a null pointer. *)
Definition type_name (t : token) : M str :=
  match type_value (ty t) with Some l => ret l | None => crash PNull end.

(** parser.cpp 3126-3164.  For [Token::Type::Invalid] the literal is formatted
    without a check. *)
Definition throw_unexpected {A} (t : token) (expected : string) : M A :=
  match ty t, lit t with
  | T_Invalid, None => crash PNull
  | _, _ => throw (SE_unexpected t expected)
  end.

(** parser.cpp 3122-3124. *)
Definition throw_error {A} (t : token) (error : string) : M A :=
  match ty t, lit t with
  | T_Invalid, None => crash PNull
  | _, _ => throw (SE_error t error)
  end.

(** parser.cpp 3166-3168. *)
Definition unexpected {A} (expected : string) : M A :=
  t <- cur ;; throw_unexpected t expected.

(** parser.cpp 3193-3217: the kind of literal named in the message. *)
Definition unterminated_thing (t : ttype) : option string :=
  match t with
  | T_InterpolatedRegexpBegin | T_UnterminatedRegexp => Some "regexp"%string
  | T_InterpolatedShellBegin => Some "shell"%string
  | T_InterpolatedStringBegin | T_String | T_UnterminatedString => Some "string"%string
  | T_InterpolatedSymbolBegin => Some "symbol"%string
  | T_UnterminatedWordArray => Some "word array"%string
  | _ => None
  end.

(** parser.cpp 3170-3227. *)
Definition throw_unterminated_thing {A} (t start : token) : M A :=
  let start := if is_valid (ty start) then start else t in
  match unterminated_thing (ty t) with
  | Some thing => throw (SE_unterminated thing start)
  | None => crash (PUnreachable "parser.cpp:3219")
  end.

(** parser.cpp 3251-3269. *)
Definition validate_current_token : M unit :=
  t <- cur ;;
  match ty t with
  | T_Invalid => throw (SE_invalid t)
  | T_InvalidUnicodeEscape => throw (SE_invalid_unicode_escape t)
  | T_InvalidCharacterEscape => throw (SE_invalid_character_escape t)
  | T_UnterminatedRegexp | T_UnterminatedString | T_UnterminatedWordArray =>
      throw_unterminated_thing t no_token
  | x => match type_value x with Some _ => ret tt | None => crash PAssert end
  end.

(** parser.cpp 3112-3115.  The loop stops at the end of the vector, where the
    current token is [Token::invalid()]. *)
Fixpoint skip_eol (before rest : list token) : list token * list token :=
  match rest with
  | t :: rest' => if is_end_of_line (ty t) then skip_eol (t :: before) rest' else (before, rest)
  | [] => (before, rest)
  end.
Definition skip_newlines : M unit := fun s =>
  let '(before, rest) := skip_eol (p_prev s) (p_rest s) in
  POk tt (PState before rest (p_precs s) (p_depth s) (p_locals s) (p_file s)).

(** parser.cpp 3105-3110. *)
Definition next_expression : M unit :=
  t <- cty ;;
  if negb (is_end_of_expression t) then unexpected "end-of-line" else skip_newlines.

(** parser.cpp 3117-3120. *)
Definition expect (t : ttype) (expected : string) : M unit :=
  c <- cty ;;
  if ttype_eqb c t then ret tt else unexpected expected.

(** parser.cpp 6-47: the order of the enumerators is their precedence. *)
Definition LOWEST : N := 0.
Definition ARRAY : N := 1.
Definition WORD_ARRAY : N := 2.
Definition HASH : N := 3.
Definition CASE : N := 4.
Definition COMPOSITION : N := 5.
Definition EXPR_MODIFIER : N := 6.
Definition TERNARY_FALSE : N := 7.
Definition ASSIGNMENT_RHS : N := 8.
Definition INLINE_RESCUE : N := 9.
Definition ITER_BLOCK : N := 10.
Definition BARE_CALL_ARG : N := 11.
Definition OP_ASSIGNMENT_RHS : N := 12.
Definition TERNARY_TRUE : N := 13.
Definition CALL_ARG : N := 14.
Definition TERNARY_QUESTION : N := 15.
Definition LOGICAL_OR : N := 16.
Definition LOGICAL_AND : N := 17.
Definition ASSIGNMENT_LHS : N := 18.
Definition SPLAT : N := 19.
Definition RANGE : N := 20.
Definition LOGICAL_NOT : N := 21.
Definition EQUALITY : N := 22.
Definition LESS_GREATER : N := 23.
Definition OP_ASSIGNMENT_LHS : N := 24.
Definition BITWISE_OR : N := 25.
Definition BITWISE_AND : N := 26.
Definition BITWISE_SHIFT : N := 27.
Definition DEF_ARG : N := 28.
Definition SUM : N := 29.
Definition PRODUCT : N := 30.
Definition NUMBER_DOT : N := 31.
Definition UNARY_MINUS : N := 32.
Definition EXPONENT : N := 33.
Definition UNARY_PLUS : N := 34.
Definition ITER_CURLY : N := 35.
Definition CONSTANT_RESOLUTION : N := 36.
Definition DOT : N := 37.
Definition CALL : N := 38.
Definition REF : N := 39.

(** parser.hpp 52-56. *)
Inductive iter_allow := IA_NONE | IA_CURLY_ONLY | IA_CURLY_AND_BLOCK.

(** parser.hpp 199-201. *)
Definition treat_left_bracket_as_element_reference (left : node) (t : token) : bool :=
  negb (tk_ws t) || match left with N_Identifier _ lvar => lvar | _ => false end.

(** parser.cpp 3083-3085. *)
Definition is_first_arg_of_call_without_parens (left : node) (t : token) : bool :=
  is_callable left && can_be_first_arg_of_implicit_call (ty t).

(** parser.cpp 95-199, called with [token] = [current_token()] in both places
    (lines 50 and, with no [left], 2077). *)
Definition get_precedence (t : token) (left : option node) : N :=
  let otherwise :=
    match left with
    | Some l => if is_first_arg_of_call_without_parens l t then CALL else LOWEST
    | None => LOWEST
    end in
  match ty t with
  | T_Plus => match left with Some _ => SUM | None => UNARY_PLUS end
  | T_Minus => match left with Some _ => SUM | None => UNARY_MINUS end
  | T_Equal => ASSIGNMENT_LHS
  | T_AmpersandAmpersandEqual | T_AmpersandEqual | T_CaretEqual | T_LeftShiftEqual
  | T_MinusEqual | T_PipePipeEqual | T_PercentEqual | T_PipeEqual | T_PlusEqual
  | T_RightShiftEqual | T_SlashEqual | T_StarEqual | T_StarStarEqual => OP_ASSIGNMENT_LHS
  | T_Ampersand => BITWISE_AND
  | T_Caret | T_Pipe => BITWISE_OR
  | T_Comma => ARRAY
  | T_LeftShift | T_RightShift => BITWISE_SHIFT
  | T_LParen => CALL
  | T_AndKeyword | T_OrKeyword => COMPOSITION
  | T_ConstantResolution => CONSTANT_RESOLUTION
  | T_Dot | T_SafeNavigation =>
      match left with Some l => if is_numeric l then NUMBER_DOT else DOT | None => DOT end
  | T_EqualEqual | T_EqualEqualEqual | T_NotEqual | T_Match | T_NotMatch => EQUALITY
  | T_StarStar => EXPONENT
  | T_IfKeyword | T_UnlessKeyword | T_WhileKeyword | T_UntilKeyword => EXPR_MODIFIER
  | T_RescueKeyword => INLINE_RESCUE
  | T_DoKeyword => ITER_BLOCK
  | T_LCurlyBrace => ITER_CURLY
  | T_Comparison | T_LessThan | T_LessThanOrEqual | T_GreaterThan | T_GreaterThanOrEqual =>
      LESS_GREATER
  | T_AmpersandAmpersand => LOGICAL_AND
  | T_NotKeyword => LOGICAL_NOT
  | T_PipePipe => LOGICAL_OR
  | T_Percent | T_Slash | T_Star => PRODUCT
  | T_DotDot | T_DotDotDot => RANGE
  | T_LBracket | T_LBracketRBracket =>
      match left with
      | Some l => if treat_left_bracket_as_element_reference l t then REF else otherwise
      | None => otherwise
      end
  | T_TernaryQuestion => TERNARY_QUESTION
  | T_TernaryColon => TERNARY_FALSE
  | T_Not | T_Tilde => UNARY_PLUS
  | _ => otherwise
  end.

(** parser.cpp 49-93.  [m_call_depth.last()] is only read for a [do]. *)
Definition higher_precedence (t : token) (left : node) (current_precedence : N) (ia : iter_allow)
  : M bool :=
  let next_precedence := get_precedence t (Some left) in
  if node_is_symbol_key left then ret false
  else if next_precedence =? ITER_BLOCK then
    match ia with
    | IA_CURLY_AND_BLOCK =>
        d <- depth_stack ;;
        match d with [] => crash PRange | n :: _ => ret (n =? 0) end
    | _ => ret false
    end
  else if next_precedence =? ITER_CURLY then
    ret (match ia with IA_NONE => false | _ => is_callable left end)
  else ret (current_precedence <? next_precedence).

(** * ParserModel: the parsing functions

    Modelled code: /repo/src/parser.cpp lines 201-3081, function by function.

    The functions call each other through [parse_expression].  They are written
    in a section over that one function ([expr]) and over the fuel of the loops
    and of the local recursions ([fuel]); [parse_expression] at the end ties the
    knot.  The fuel is shown to suffice.

    A [SharedPtr<BlockNode>] is a pair of its token and its nodes. *)
From Coq Require Import Strings.String NArith ZArith Bool List.
From Verif Require Import Base Token Node ParserBase.
Import ListNotations.
Open Scope N_scope.
Open Scope list_scope.
Open Scope monad_scope.

(** [current_token().type() == x]. *)
Definition cur_is (x : ttype) : M bool := fun s => POk (ttype_eqb (ty (current s)) x) s.

(** parser.hpp 48-50 ([ArgsContext]). *)
Inductive args_context := Ctx_Block | Ctx_Method | Ctx_Proc.

(** block_node.hpp 28-30, 38-41: [has_one_node()], [take_first_node()], used
    together; otherwise the block itself. *)
Definition block_or_only (b : token * list node) : node :=
  match snd b with [n] => n | l => N_Block (fst b) l end.

(** [new String(long long)]: decimal digits. *)
Fixpoint uint_str (d : Decimal.uint) : str :=
  match d with
  | Decimal.Nil => []
  | Decimal.D0 d => "0"%ch :: uint_str d
  | Decimal.D1 d => "1"%ch :: uint_str d
  | Decimal.D2 d => "2"%ch :: uint_str d
  | Decimal.D3 d => "3"%ch :: uint_str d
  | Decimal.D4 d => "4"%ch :: uint_str d
  | Decimal.D5 d => "5"%ch :: uint_str d
  | Decimal.D6 d => "6"%ch :: uint_str d
  | Decimal.D7 d => "7"%ch :: uint_str d
  | Decimal.D8 d => "8"%ch :: uint_str d
  | Decimal.D9 d => "9"%ch :: uint_str d
  end.
Definition z_str (z : Z) : str :=
  match z with
  | Z0 => s2l "0"
  | Zpos p => uint_str (Pos.to_uint p)
  | Zneg p => "-"%ch :: uint_str (Pos.to_uint p)
  end.

(** [String::chomp()]: drops the last character (external/tm, assumed). *)
Definition chomp (s : str) : str := removelast s.

(** [name->ends_with(c)] for a one-character or two-character suffix. *)
Definition ends_with (s suffix : str) : bool :=
  let n := length suffix in
  Nat.leb n (length s) && str_eqb (skipn (length s - n) s) suffix.

(** node_with_args.hpp 24-26: [add_arg]. *)
Definition add_arg (n a : node) : node :=
  match n with
  | N_Call t r m args => N_Call t r m (args ++ [a])
  | N_SafeCall t r m args => N_SafeCall t r m (args ++ [a])
  | N_Super t args p => N_Super t (args ++ [a]) p
  | N_Undef t args => N_Undef t (args ++ [a])
  | N_Yield t args => N_Yield t (args ++ [a])
  | _ => n
  end.

(** bignum_node.hpp 29-36, fixnum_node.hpp 29-35. *)
Definition bignum_negative (s : str) : bool :=
  match s with c :: _ => c =? "-"%ch | [] => false end.

(** float_node.hpp 33-35: [m_number < 0.0], false for -0.0.  Simplification: a
    float whose text has a nonzero digit before the exponent is not zero. *)
Fixpoint mantissa_nonzero (s : str) : bool :=
  match s with
  | [] => false
  | c :: s' =>
      if (c =? "e"%ch) || (c =? "E"%ch) then false
      else if between "1"%ch "9"%ch c then true else mantissa_nonzero s'
  end.
Definition float_negative (negated : bool) (s : str) : bool := negated && mantissa_nonzero s.

(** ** Functions that do not call [parse_expression] *)

(** parser.cpp 281-297. *)
Definition reinsert_collapsed_newline : M unit :=
  t <- prev ;;
  if can_precede_collapsible_newline (ty t) then
    insert_token (Tok T_Newline None None 0 [] (tk_line t) (tk_col t) (tk_ws t))
  else ret tt.

(** parser.cpp 319-338. *)
Definition parse_valias_arg (allow_number : bool) (expected : string) : M str :=
  t <- cur ;;
  match ty t with
  | T_GlobalVariable => literal_string t
  | T_BackRef => ret (s2l "$&")
  | T_NthRef =>
      if negb allow_number then unexpected "can't make alias for the number variables"
      else ret ("$"%ch :: z_str (fix_ t))
  | _ => unexpected expected
  end.

(** parser.cpp 1754-1772. *)
Definition parse_method_name : M str :=
  t <- cur ;;
  name <-
    match ty t with
    | T_BareName | T_Constant | T_OperatorName => literal_string t
    | x => if is_operator x || is_keyword x then type_name t else unexpected "method name"
    end ;;
  advance ;;;
  ret name.

(** parser.cpp 418-422. *)
Definition parse_back_ref : M node :=
  t <- cur ;;
  advance ;;;
  l <- literal_string t ;;
  match l with c :: _ => ret (N_BackRef t c) | [] => crash PRange end.

(** parser.cpp 535-547. *)
Definition parse_bool : M node :=
  t <- cur ;;
  match ty t with
  | T_TrueKeyword => advance ;;; ret (N_True t)
  | T_FalseKeyword => advance ;;; ret (N_False t)
  | _ => crash (PUnreachable "parser.cpp:545")
  end.

(** parser.cpp 1017-1021. *)
Definition parse_constant : M node :=
  t <- cur ;; advance ;;; ret (N_Constant t).

(** parser.cpp 1255-1259. *)
Definition parse_encoding : M node :=
  t <- cur ;; advance ;;; ret (N_Encoding t).

(** parser.cpp 1315-1319. *)
Definition parse_file_constant : M node :=
  t <- cur ;; advance ;;; f <- get_file ;; ret (N_String t f).

(** parser.cpp 1321-1325. *)
Definition parse_line_constant : M node :=
  t <- cur ;; advance ;;; ret (N_Fixnum t (Z.of_nat (tk_line t + 1))).

(** parser.cpp 1349-1356. *)
Definition parse_forward_args : M node :=
  t <- cur ;;
  b <- is_local (s2l "...") ;;
  if negb b then throw_error t "forwarding args without ... shorthand in method definition"
  else advance ;;; ret (N_ForwardArgs t).

(** parser.cpp 1443-1450. *)
Definition parse_identifier : M node :=
  t <- cur ;;
  match lit t with
  | None => crash PAssert
  | Some name =>
      b <- is_local name ;;
      advance ;;;
      ret (N_Identifier t b)
  end.

(** parser.cpp 1595-1621. *)
Fixpoint parse_regexp_options (s : str) : N :=
  match s with
  | [] => 0
  | c :: s' =>
      N.lor
        (if c =? "i"%ch then 1
         else if c =? "x"%ch then 2
         else if c =? "m"%ch then 4
         else if (c =? "e"%ch) || (c =? "s"%ch) || (c =? "u"%ch) then 16
         else if c =? "n"%ch then 32 else 0)
        (parse_regexp_options s')
  end.

(** parser.cpp 1565-1569, 1575-1579, 1585-1589: the options in the literal of the closing token. *)
Definition regexp_end_options : M N :=
  t <- cur ;;
  ret (match lit t with Some s => parse_regexp_options s | None => 0 end).

(** parser.cpp 1643-1658. *)
Definition convert_string_to_symbol_key (n : node) : M node :=
  match n with
  | N_String t s => ret (N_SymbolKey t s)
  | N_InterpolatedString t l => ret (N_InterpolatedSymbolKey t l)
  | _ => crash (PUnreachable "parser.cpp:1656")
  end.

(** parser.cpp 1710-1746. *)
Definition parse_lit : M node :=
  t <- cur ;;
  n <-
    match ty t with
    | T_Bignum => advance ;;; l <- literal_string t ;; ret (N_Bignum t l)
    | T_Fixnum => advance ;;; ret (N_Fixnum t (fix_ t))
    | T_Float => advance ;;; ret (N_Float t false (dbl t))
    | _ => crash (PUnreachable "parser.cpp:1727")
    end ;;
  c <- cty ;;
  match c with
  | T_Complex => advance ;;; ret (N_Complex t n)
  | T_Rational => advance ;;; ret (N_Rational t n)
  | T_RationalComplex => advance ;;; ret (N_Complex t (N_Rational t n))
  | _ => ret n
  end.

(** parser.cpp 1815-1819. *)
Definition parse_nil : M node :=
  t <- cur ;; advance ;;; ret (N_NilSexp t).

(** parser.cpp 1832-1836. *)
Definition parse_nth_ref : M node :=
  t <- cur ;; advance ;;; ret (N_NthRef t (fix_ t)).

(** parser.cpp 1854-1864. *)
Definition parse_redo : M node :=
  t <- cur ;; advance ;;; ret (N_Redo t).
Definition parse_retry : M node :=
  t <- cur ;; advance ;;; ret (N_Retry t).

(** parser.cpp 1907-1911. *)
Definition parse_self : M node :=
  t <- cur ;; advance ;;; ret (N_Self t).

(** parser.cpp 1926-1937. *)
Definition parse_shadow_variable_single_arg : M str :=
  t <- cur ;;
  match ty t with
  | T_BareName => name <- literal_string t ;; advance ;;; ret name
  | _ => unexpected "shadow local variable"
  end.

(** string_node.cpp 6-33 and interpolated_string_node.cpp 7-46: the
    [append_string_node] of both classes. *)
Definition append_string_node (n1 n2 : node) : M node :=
  match n1, n2 with
  | N_String t1 s1, N_String _ s2 => ret (N_String t1 (s1 ++ s2))
  | N_String t1 s1, N_InterpolatedString t2 l2 =>
      let t := set_pos t2 (tk_line t1) (tk_col t1) in
      match l2 with
      | [] => crash PAssert
      | N_String t3 s3 :: l => ret (N_InterpolatedString t (N_String t3 (s1 ++ s3) :: l))
      | _ => ret (N_InterpolatedString t (N_String t1 s1 :: l2))
      end
  | N_InterpolatedString t1 l1, N_String _ s2 =>
      match rev l1 with
      | [] => crash PAssert
      | N_String t3 s3 :: before =>
          match before with
          | [] => ret (N_InterpolatedString t1 [N_String t3 (s3 ++ s2)])
          | _ => ret (N_InterpolatedString t1 (l1 ++ [n2]))
          end
      | N_EvaluateToString _ _ :: _ => ret (N_InterpolatedString t1 (l1 ++ [n2]))
      | _ => crash (PUnreachable "interpolated_string_node.cpp:29")
      end
  | N_InterpolatedString t1 l1, N_InterpolatedString _ l2 =>
      match l1, l2 with
      | [], _ | _, [] => crash PAssert
      | _, _ => ret (N_InterpolatedString t1 (l1 ++ l2))
      end
  | N_String _ _, _ => crash (PUnreachable "string_node.cpp:29")
  | _, _ => crash (PUnreachable "interpolated_string_node.cpp:43")
  end.

(** parser.cpp 2017-2033. *)
Definition append_string_nodes (n1 n2 : node) : M node :=
  if negb (can_be_concatenated_to_a_string n2) then unexpected "another string"
  else
    match n1 with
    | N_String _ _ | N_InterpolatedString _ _ => append_string_node n1 n2
    | _ => unexpected "string"
    end.

(** parser.cpp 2035-2042. *)
Definition parse_super : M node :=
  t <- cur ;; advance ;;; b <- cur_is T_LParen ;; ret (N_Super t [] b).

(** parser.cpp 2044-2049. *)
Definition parse_symbol : M node :=
  t <- cur ;; l <- literal_string t ;; advance ;;; ret (N_Symbol t l).

(** parser.cpp 2051-2056. *)
Definition parse_symbol_key : M node :=
  t <- cur ;; l <- literal_string t ;; advance ;;; ret (N_SymbolKey t l).

(** parser.cpp 2058-2073. *)
Definition parse_top_level_constant : M node :=
  t <- cur ;;
  advance ;;;
  nt <- cur ;;
  match ty nt with
  | T_BareName | T_Constant => advance ;;; l <- literal_string nt ;; ret (N_Colon3 t l)
  | _ => throw_unexpected nt ":: identifier name"
  end.

(** parser.cpp 2195-2199. *)
Definition parse_yield : M node :=
  t <- cur ;; advance ;;; ret (N_Yield t []).

(** identifier_node.hpp 54-57, called on an IdentifierNode with token [t]. *)
Definition identifier_add_to_locals (t : token) : M unit :=
  match ty t with
  | T_BareName => name <- literal_string t ;; add_local name
  | _ => ret tt
  end.

(** multiple_assignment_node.cpp 7-34. *)
Fixpoint masgn_add_locals (l : list node) : M unit :=
  match l with
  | [] => ret tt
  | n :: l' =>
      ((fix one (n : node) : M unit :=
          match n with
          | N_Identifier t _ => identifier_add_to_locals t
          | N_Call _ _ _ _ | N_Colon2 _ _ _ | N_Colon3 _ _ => ret tt
          | N_Splat _ (Some (N_Identifier t _)) => identifier_add_to_locals t
          | N_Splat _ _ => ret tt
          | N_MultipleAssignment _ sub _ =>
              (fix all (sub : list node) : M unit :=
                 match sub with
                 | [] => ret tt
                 | m :: sub' => one m ;;; all sub'
                 end) sub
          | _ => crash (PUnreachable "multiple_assignment_node.cpp:32")
          end) n) ;;;
      masgn_add_locals l'
  end.

(** parser.cpp 2221-2241. *)
Definition add_assignment_locals (lhs : node) : M unit :=
  match lhs with
  | N_Identifier t _ => identifier_add_to_locals t
  | N_Call _ _ _ _ | N_Colon2 _ _ _ | N_Colon3 _ _ | N_SafeCall _ _ _ _ => ret tt
  | N_MultipleAssignment _ l _ => masgn_add_locals l
  | _ => throw_unexpected (ntoken lhs) "assignment identifier"
  end.

(** parser.cpp 2378-2407. *)
Definition to_node_with_args (n : node) : M node :=
  match n with
  | N_Identifier t _ => name <- literal_string t ;; ret (N_Call t (N_Nil t) name [])
  | N_Colon2 t lhs name => ret (N_Call t lhs name [])
  | N_Call _ _ _ _ | N_SafeCall _ _ _ _ | N_Super _ _ _ | N_Undef _ _ | N_Yield _ _ => ret n
  | _ => t <- cur ;; throw_error t "left-hand-side is not callable"
  end.

(** parser.cpp 2674-2683. *)
Definition parse_proc_call_expression (lhs : node) : M node :=
  t <- cur ;; advance ;;; ret (N_Call t lhs (s2l "call") []).

(** parser.cpp 2733-2761. *)
Definition parse_safe_send_expression (lhs : node) : M node :=
  t <- cur ;;
  advance ;;;
  nt <- cur ;;
  name <-
    match ty nt with
    | T_LParen => ret (s2l "call")
    | T_BareName | T_Constant | T_OperatorName => l <- literal_string nt ;; advance ;;; ret l
    | x =>
        if is_operator x || is_keyword x then l <- type_name nt ;; advance ;;; ret l
        else unexpected "safe navigation method name"
    end ;;
  ret (N_SafeCall t lhs name []).

(** parser.cpp 2763-2788. *)
Definition parse_send_expression (lhs : node) : M node :=
  t <- cur ;;
  advance ;;;
  nt <- cur ;;
  name <-
    match ty nt with
    | T_BareName | T_Constant | T_OperatorName => l <- literal_string nt ;; advance ;;; ret l
    | x =>
        if is_operator x || is_keyword x then l <- type_name nt ;; advance ;;; ret l
        else unexpected "send method name"
    end ;;
  ret (N_Call t lhs name []).

Section Functions.

(** [parse_expression] (parser.cpp 201-227), for one unit of fuel less. *)
Variable expr : N -> iter_allow -> M node.
(** Fuel of the loops and local recursions. *)
Variable fuel : nat.

(** parser.hpp 67: the default of the last argument. *)
Definition pexpr (precedence : N) : M node := expr precedence IA_CURLY_AND_BLOCK.

(** [while (current_token().is_comma()) { advance(); array->add_node(item); }]. *)
Definition comma_items {A} (item : M A) (acc : list A) : M (list A) :=
  mloop fuel
    (fun acc =>
       b <- cur_is T_Comma ;;
       if b then advance ;;; n <- item ;; ret (inl (acc ++ [n])) else ret (inr acc)) acc.

(** parser.cpp 410-416. *)
Definition parse_comma_separated_expressions (acc : list node) : M (list node) :=
  n <- pexpr ARRAY ;;
  comma_items (pexpr ARRAY) (acc ++ [n]).

(** parser.cpp 246-267; [rescue] is what to do at [rescue]/[ensure] when
    [allow_rescue] is set.  On that path [m_call_depth] is not popped. *)
Definition body_with (rescue : option (token -> list node -> M node)) (precedence : N)
  (is_end : ttype -> bool) : M (token * list node) :=
  push_depth 0 ;;;
  t <- cur ;;
  validate_current_token ;;;
  skip_newlines ;;;
  mloop fuel
    (fun acc =>
       c <- cty ;;
       if is_eof c || is_end c then pop_depth ;;; ret (inr (t, acc))
       else
         let otherwise :=
           e <- pexpr precedence ;;
           c <- cty ;;
           if is_end c then pop_depth ;;; ret (inr (t, acc ++ [e]))
           else next_expression ;;; ret (inl (acc ++ [e])) in
         match rescue with
         | Some f =>
             if ttype_eqb c T_RescueKeyword || ttype_eqb c T_EnsureKeyword then
               b <- f t acc ;;
               rewind ;;;
               ret (inr (t, [b]))
             else otherwise
         | None => otherwise
         end) [].

(** parser.cpp 246-275: [parse_body] with [allow_rescue]
    false, by predicate and by end token. *)
Definition parse_body_until (is_end : ttype -> bool) : M (token * list node) :=
  body_with None LOWEST is_end.
Definition parse_body_to (end_type : ttype) : M (token * list node) :=
  body_with None LOWEST (fun t => ttype_eqb t end_type).

(** parser.cpp 427, 451. *)
Definition is_end_of_rescue (t : ttype) : bool :=
  match t with
  | T_RescueKeyword | T_ElseKeyword | T_EnsureKeyword | T_EndKeyword => true
  | _ => false
  end.
(** parser.cpp 452. *)
Definition is_end_of_else (t : ttype) : bool :=
  match t with T_EnsureKeyword | T_EndKeyword => true | _ => false end.

(** parser.cpp 456-480: one [rescue] clause. *)
Definition parse_rescue_clause : M node :=
  rt <- cur ;;
  advance ;;;
  c <- cty ;;
  exceptions <-
    (if negb (is_end_of_line c) && negb (ttype_eqb c T_HashRocket) then
       n <- pexpr BARE_CALL_ARG ;;
       comma_items (pexpr BARE_CALL_ARG) [n]
     else ret []) ;;
  h <- cur_is T_HashRocket ;;
  name <-
    (if h then
       advance ;;;
       n <- pexpr ASSIGNMENT_LHS ;;
       add_assignment_locals n ;;;
       ret (Some n)
     else ret None) ;;
  next_expression ;;;
  body <- parse_body_until is_end_of_rescue ;;
  c <- cty ;;
  if negb (is_end_of_rescue c) then unexpected "begin: rescue, else, ensure, or end"
  else ret (N_BeginRescue rt name exceptions body).

(** parser.cpp 450-503. *)
Definition parse_rest_of_begin (t : token) (body : token * list node) : M node :=
  mloop fuel
    (fun (acc : list node * option (token * list node) * option (token * list node)) =>
       let '(rescues, els, ens) := acc in
       c <- cty ;;
       if is_eof c || ttype_eqb c T_EndKeyword then
         expect T_EndKeyword "begin/rescue/ensure end" ;;;
         advance ;;;
         ret (inr (N_Begin t body rescues els ens))
       else
         match c with
         | T_RescueKeyword =>
             r <- parse_rescue_clause ;;
             ret (inl (rescues ++ [r], els, ens))
         | T_ElseKeyword =>
             advance ;;;
             next_expression ;;;
             b <- parse_body_until is_end_of_else ;;
             c <- cty ;;
             if negb (is_end_of_else c) then unexpected "begin: ensure or end"
             else ret (inl (rescues, Some b, ens))
         | T_EnsureKeyword =>
             advance ;;;
             next_expression ;;;
             b <- parse_body_to T_EndKeyword ;;
             ret (inl (rescues, els, Some b))
         | _ => unexpected "begin end"
         end) ([], None, None).

(** parser.cpp 246-267 with [allow_rescue] true. *)
Definition rescue_in_body (t : token) (nodes : list node) : M node :=
  parse_rest_of_begin t (t, nodes).
Definition parse_body_rescue (is_end : ttype -> bool) : M (token * list node) :=
  body_with (Some rescue_in_body) LOWEST is_end.
Definition parse_body_rescue_to (end_type : ttype) : M (token * list node) :=
  parse_body_rescue (fun t => ttype_eqb t end_type).

(** parser.cpp 424-448. *)
Definition parse_begin : M node :=
  t <- cur ;;
  advance ;;;
  next_expression ;;;
  body <- parse_body_rescue is_end_of_rescue ;;
  c <- cty ;;
  if negb (is_end_of_rescue c) then unexpected "begin: rescue, else, ensure, or end"
  else
    n <- parse_rest_of_begin t body ;;
    match n with
    | N_Begin _ b [] None None =>
        c <- cty ;;
        match snd b with
        | [only] => if is_expression_modifier c then ret (N_Block (fst b) (snd b)) else ret only
        | _ => ret (N_Block (fst b) (snd b))
        end
    | _ => ret n
    end.

(** parser.cpp 1748-1752. *)
Definition parse_keyword_splat : M node :=
  t <- cur ;; advance ;;; n <- pexpr SPLAT ;; ret (N_KeywordSplat t (Some n)).

(** parser.cpp 1413-1422: the value of a hash pair. *)
Definition hash_value (precedence : N) (key : node) (acc : list node) : M (list node) :=
  if node_is_symbol_key key then v <- pexpr precedence ;; ret (acc ++ [v])
  else
    match key with
    | N_KeywordSplat _ _ => ret acc
    | _ =>
        expect T_HashRocket "hash rocket" ;;;
        advance ;;;
        v <- pexpr precedence ;;
        ret (acc ++ [v])
    end.

(** parser.cpp 1408-1441. *)
Definition parse_hash_inner (precedence : N) (closing : ttype) (bare : bool) (first_key : option node)
  : M node :=
  t <- cur ;;
  k <- match first_key with Some k => ret k | None => pexpr precedence end ;;
  acc <- hash_value precedence k [k] ;;
  mloop fuel
    (fun acc =>
       b <- cur_is T_Comma ;;
       if b then
         advance ;;;
         c <- cty ;;
         if ttype_eqb c closing || ttype_eqb c T_Ampersand then ret (inr (N_Hash t bare acc))
         else
           k <- pexpr precedence ;;
           acc <- hash_value precedence k (acc ++ [k]) ;;
           ret (inl acc)
       else ret (inr (N_Hash t bare acc))) acc.

(** parser.cpp 1394-1405. *)
Definition parse_hash : M node :=
  expect T_LCurlyBrace "hash opening curly brace" ;;;
  t <- cur ;;
  advance ;;;
  b <- cur_is T_RCurlyBrace ;;
  hash <-
    (if b then ret (N_Hash t false [])
     else parse_hash_inner HASH T_RCurlyBrace false None) ;;
  expect T_RCurlyBrace "hash closing curly brace" ;;;
  advance ;;;
  ret hash.

(** parser.cpp 368-391: the lambda [add_node]; [inr] when the array is complete. *)
Definition array_add_node (acc : list node) : M (list node + list node) :=
  c <- cty ;;
  if ttype_eqb c T_RBracket then advance ;;; ret (inr acc)
  else if ttype_eqb c T_SymbolKey then
    h <- parse_hash_inner HASH T_RBracket true None ;;
    expect T_RBracket "array closing bracket" ;;;
    advance ;;;
    ret (inr (acc ++ [h]))
  else
    v <- pexpr ARRAY ;;
    b <- cur_is T_HashRocket ;;
    if b then
      h <- parse_hash_inner HASH T_RBracket true (Some v) ;;
      expect T_RBracket "array closing bracket" ;;;
      advance ;;;
      ret (inr (acc ++ [h]))
    else ret (inl (acc ++ [v])).

(** parser.cpp 360-408. *)
Definition parse_array : M node :=
  t <- cur ;;
  if ttype_eqb (ty t) T_LBracketRBracket then advance ;;; ret (N_Array t [])
  else
    advance ;;;
    push_depth 0 ;;;
    r <- array_add_node [] ;;
    match r with
    | inr l => pop_depth ;;; ret (N_Array t l)
    | inl l =>
        mloop fuel
          (fun acc =>
             b <- cur_is T_Comma ;;
             if b then
               advance ;;;
               r <- array_add_node acc ;;
               match r with
               | inr l => pop_depth ;;; ret (inr (N_Array t l))
               | inl l => ret (inl l)
               end
             else
               expect T_RBracket "array closing bracket" ;;;
               advance ;;;
               pop_depth ;;;
               ret (inr (N_Array t acc))) l
    end.

(** parser.cpp 516-526. *)
Definition parse_beginless_range : M node :=
  t <- cur ;;
  advance ;;;
  e <- pexpr LOWEST ;;
  ret (N_Range t (N_Nil t) e (ttype_eqb (ty t) T_DotDotDot)).

(** parser.cpp 528-533. *)
Definition parse_block_pass : M node :=
  t <- cur ;; advance ;;; v <- pexpr LOWEST ;; ret (N_BlockPass t v).

(** parser.cpp 549-577 and 1785-1813 ([break] and [next] alike): the argument. *)
Definition parse_jump_arg (t : token) : M (option node) :=
  c <- cty ;;
  if ttype_eqb c T_LParen then
    advance ;;;
    b <- cur_is T_RParen ;;
    if b then advance ;;; ret (Some (N_NilSexp t))
    else
      a <- pexpr BARE_CALL_ARG ;;
      expect T_RParen "break closing paren" ;;;
      advance ;;;
      ret (Some a)
  else if can_be_first_arg_of_implicit_call c then
    v <- pexpr BARE_CALL_ARG ;;
    b <- cur_is T_Comma ;;
    if b then
      l <- comma_items (pexpr BARE_CALL_ARG) [v] ;;
      ret (Some (N_Array t l))
    else ret (Some v)
  else ret None.
(** parser.cpp 549-577. *)
Definition parse_break : M node :=
  t <- cur ;; advance ;;; a <- parse_jump_arg t ;; ret (N_Break t a).
(** parser.cpp 1785-1813. *)
Definition parse_next : M node :=
  t <- cur ;; advance ;;; a <- parse_jump_arg t ;; ret (N_Next t a).

(** parser.cpp 1524-1538: the node for the expressions in one pair of braces. *)
Definition evaluate_node (ct bt : token) (nodes : list node) : node :=
  match nodes with
  | [] => N_EvaluateToString ct None
  | [N_String st s] => N_String st s
  | [first] => N_EvaluateToString ct (Some first)
  | _ => N_EvaluateToString ct (Some (N_Block bt nodes))
  end.

(** parser.cpp 1512-1558. *)
Definition parse_interpolated_body (nt : token) (end_type : ttype) : M (list node) :=
  mloop fuel
    (fun acc =>
       t <- cur ;;
       if is_valid (ty t) && negb (ttype_eqb (ty t) end_type) then
         match ty t with
         | T_EvaluateToStringBegin =>
             advance ;;;
             skip_newlines ;;;
             bt <- cur ;;
             nodes <-
               mloop fuel
                 (fun acc =>
                    b <- cur_is T_EvaluateToStringEnd ;;
                    if b then ret (inr acc)
                    else
                      e <- pexpr LOWEST ;;
                      skip_newlines ;;;
                      ret (inl (acc ++ [e]))) [] ;;
             advance ;;;
             ct <- cur ;;
             ret (inl (acc ++ [evaluate_node ct bt nodes]))
         | T_String =>
             l <- literal_string t ;;
             advance ;;;
             ret (inl (acc ++ [N_String t l]))
         | _ => crash (PUnreachable "parser.cpp:1543")
         end
       else if negb (ttype_eqb (ty t) end_type) then
         match ty t with
         | T_UnterminatedRegexp | T_UnterminatedString | T_UnterminatedWordArray =>
             throw_unterminated_thing nt no_token
         | _ => crash (PUnreachable "parser.cpp:1555")
         end
       else ret (inr acc)) [].

(** parser.cpp 1560-1593. *)
Definition parse_interpolated_regexp : M node :=
  t <- cur ;;
  advance ;;;
  c <- cur ;;
  p <- peek ;;
  if ttype_eqb (ty c) T_InterpolatedRegexpEnd then
    o <- regexp_end_options ;;
    advance ;;;
    ret (N_Regexp t [] o)
  else if ttype_eqb (ty c) T_String && ttype_eqb (ty p) T_InterpolatedRegexpEnd then
    l <- literal_string c ;;
    advance ;;;
    o <- regexp_end_options ;;
    advance ;;;
    ret (N_Regexp t l o)
  else
    nodes <- parse_interpolated_body t T_InterpolatedRegexpEnd ;;
    o <- regexp_end_options ;;
    advance ;;;
    ret (N_InterpolatedRegexp t nodes o).

(** parser.cpp 1623-1641. *)
Definition parse_interpolated_shell : M node :=
  t <- cur ;;
  advance ;;;
  c <- cur ;;
  p <- peek ;;
  if ttype_eqb (ty c) T_InterpolatedShellEnd then advance ;;; ret (N_Shell t [])
  else if ttype_eqb (ty c) T_String && ttype_eqb (ty p) T_InterpolatedShellEnd then
    l <- literal_string c ;;
    advance ;;;
    advance ;;;
    ret (N_Shell t l)
  else
    nodes <- parse_interpolated_body t T_InterpolatedShellEnd ;;
    advance ;;;
    ret (N_InterpolatedShell t nodes).

(** parser.cpp 1690-1708. *)
Definition parse_interpolated_symbol : M node :=
  t <- cur ;;
  advance ;;;
  c <- cur ;;
  p <- peek ;;
  if ttype_eqb (ty c) T_InterpolatedSymbolEnd then advance ;;; ret (N_Symbol t [])
  else if ttype_eqb (ty c) T_String && ttype_eqb (ty p) T_InterpolatedSymbolEnd then
    l <- literal_string c ;;
    advance ;;;
    advance ;;;
    ret (N_Symbol t l)
  else
    nodes <- parse_interpolated_body t T_InterpolatedSymbolEnd ;;
    advance ;;;
    ret (N_InterpolatedSymbol t nodes).

(** parser.cpp 1994-2015; [next] parses the string at the current token. *)
Definition concat_adjacent_strings (next : M node) (string : node) : M (node * bool) :=
  mloop fuel
    (fun (acc : node * bool) =>
       c <- cty ;;
       match c with
       | T_String | T_InterpolatedStringBegin =>
           n <- next ;;
           s <- append_string_nodes (fst acc) n ;;
           ret (inl (s, true))
       | _ => ret (inr acc)
       end) (string, false).

(** parser.cpp 1678-1687 and 1982-1991, alike. *)
Definition finish_string (next : M node) (string : node) : M node :=
  ps <- precs ;;
  r <-
    (match ps with
     | [] => concat_adjacent_strings next string
     | p :: _ =>
         if negb (p =? WORD_ARRAY) then concat_adjacent_strings next string
         else ret (string, false)
     end) ;;
  let '(string, appended) := r in
  b <- cur_is T_InterpolatedStringSymbolKey ;;
  if negb appended && b then advance ;;; convert_string_to_symbol_key string
  else ret string.

(** parser.cpp 1977-1992. *)
Definition parse_string_with (next : M node) : M node :=
  t <- cur ;;
  l <- literal_string t ;;
  advance ;;;
  finish_string next (N_String t l).

(** parser.cpp 1660-1688. *)
Definition parse_interpolated_string_with (next : M node) : M node :=
  t <- cur ;;
  advance ;;;
  c <- cur ;;
  p <- peek ;;
  string <-
    (if ttype_eqb (ty c) T_InterpolatedStringEnd then advance ;;; ret (N_String t [])
     else if ttype_eqb (ty c) T_String && ttype_eqb (ty p) T_InterpolatedStringEnd then
       l <- literal_string c ;;
       advance ;;;
       advance ;;;
       ret (N_String t l)
     else
       nodes <- parse_interpolated_body t T_InterpolatedStringEnd ;;
       advance ;;;
       ret (N_InterpolatedString t nodes)) ;;
  finish_string next string.

(** parser.cpp 1997-2008: the recursion between the three functions above. *)
Fixpoint next_string (n : nat) : M node :=
  match n with
  | O => nofuel
  | S m =>
      c <- cty ;;
      match c with
      | T_String => parse_string_with (next_string m)
      | _ => parse_interpolated_string_with (next_string m)
      end
  end.
Definition parse_string : M node := parse_string_with (next_string fuel).
Definition parse_interpolated_string : M node := parse_interpolated_string_with (next_string fuel).

(** parser.cpp 340-358. *)
Definition parse_alias_arg (expected : string) : M node :=
  t <- cur ;;
  match ty t with
  | T_BareName | T_Constant | T_OperatorName => name <- parse_method_name ;; ret (N_Symbol t name)
  | T_Symbol => parse_symbol
  | T_InterpolatedSymbolBegin => parse_interpolated_symbol
  | x =>
      if is_operator x || is_keyword x then name <- parse_method_name ;; ret (N_Symbol t name)
      else unexpected expected
  end.

(** parser.cpp 299-317. *)
Definition parse_alias : M node :=
  t <- cur ;;
  advance ;;;
  c <- cty ;;
  match c with
  | T_GlobalVariable | T_BackRef | T_NthRef =>
      a <- parse_valias_arg true "alias new name (global first argument)" ;;
      advance ;;;
      b <- parse_valias_arg false "alias new name (global second argument)" ;;
      advance ;;;
      reinsert_collapsed_newline ;;;
      ret (N_Valias t a b)
  | _ =>
      a <- parse_alias_arg "alias new name (first argument)" ;;
      b <- parse_alias_arg "alias existing name (second argument)" ;;
      reinsert_collapsed_newline ;;;
      ret (N_Alias t a b)
  end.

(** parser.cpp 2134-2155. *)
Definition parse_undef : M node :=
  t <- cur ;;
  advance ;;;
  a <- parse_alias_arg "method name for undef" ;;
  b <- cur_is T_Comma ;;
  if b then
    l <- comma_items (a <- parse_alias_arg "method name for undef" ;; ret (N_Undef t [a]))
           [N_Undef t [a]] ;;
    reinsert_collapsed_newline ;;;
    ret (N_Block t l)
  else
    reinsert_collapsed_newline ;;;
    ret (N_Undef t [a]).

(** parser.cpp 2075-2132. *)
Definition parse_unary_operator : M node :=
  t <- cur ;;
  advance ;;;
  r <- pexpr (get_precedence t None) ;;
  let minus := ttype_eqb (ty t) T_Minus in
  let other :=
    match ty t with
    | T_Minus => ret (N_UnaryOp t (s2l "-@") r)
    | T_Plus => ret (N_UnaryOp t (s2l "+@") r)
    | T_Tilde => ret (N_UnaryOp t (s2l "~") r)
    | _ => crash (PUnreachable "parser.cpp:2129")
    end in
  if (minus || ttype_eqb (ty t) T_Plus) && is_numeric r then
    match r with
    | N_Bignum nt s =>
        if minus then
          if bignum_negative s then other else ret (N_Bignum nt ("-"%ch :: s))
        else ret r
    | N_Fixnum nt z =>
        if minus then if (z <? 0)%Z then other else ret (N_Fixnum nt (- z)) else ret r
    | N_Float nt neg s =>
        if minus then if float_negative neg s then other else ret (N_Float nt (negb neg) s)
        else ret r
    | _ => crash (PUnreachable "parser.cpp:2114")
    end
  else other.

(** parser.cpp 2157-2169. *)
Definition parse_word_array : M node :=
  t <- cur ;;
  advance ;;;
  mloop fuel
    (fun acc =>
       c <- cur ;;
       if is_eof (ty c) || ttype_eqb (ty c) T_RBracket then
         expect T_RBracket "closing array bracket" ;;;
         advance ;;;
         ret (inr (N_Array t acc))
       else if ttype_eqb (ty c) T_UnterminatedWordArray then throw_unterminated_thing c t
       else
         e <- pexpr WORD_ARRAY ;;
         ret (inl (acc ++ [e]))) [].

(** parser.cpp 2171-2193. *)
Definition parse_word_symbol_array : M node :=
  t <- cur ;;
  advance ;;;
  mloop fuel
    (fun acc =>
       c <- cty ;;
       if is_eof c || ttype_eqb c T_RBracket then
         expect T_RBracket "closing array bracket" ;;;
         advance ;;;
         ret (inr (N_Array t acc))
       else
         e <- pexpr WORD_ARRAY ;;
         match e with
         | N_String st s => ret (inl (acc ++ [N_Symbol st s]))
         | N_InterpolatedString st l => ret (inl (acc ++ [N_InterpolatedSymbol st l]))
         | _ => crash (PUnreachable "parser.cpp:2186")
         end) [].

(** parser.cpp 2440-2450. *)
Definition parse_call_hash_args (bare_call : bool) (closing : ttype) (first : node) : M node :=
  h <- parse_hash_inner (if bare_call then BARE_CALL_ARG else CALL_ARG) closing true (Some first) ;;
  b <- cur_is T_StarStar ;;
  if b then
    k <- parse_keyword_splat ;;
    match h with
    | N_Hash t bare l => ret (N_Hash t bare (l ++ [k]))
    | _ => ret h
    end
  else ret h.

(** parser.cpp 2413, 2426: is this argument the first of a bare hash? *)
Definition starts_bare_hash (arg : node) : M bool :=
  b <- cur_is T_HashRocket ;;
  ret (b || node_is_symbol_key arg || match arg with N_KeywordSplat _ _ => true | _ => false end).

(** parser.cpp 2409-2438; returns the call with its arguments. *)
Definition parse_call_args (call : node) (bare : bool) (closing : ttype) : M node :=
  let prec := if bare then BARE_CALL_ARG else CALL_ARG in
  (if bare && can_accept_a_block call then incr_depth else ret tt) ;;;
  arg <- pexpr prec ;;
  h <- starts_bare_hash arg ;;
  call <-
    (if h then a <- parse_call_hash_args bare closing arg ;; ret (add_arg call a)
     else
       mloop fuel
         (fun call =>
            b <- cur_is T_Comma ;;
            if b then
              advance ;;;
              c <- cty ;;
              if ttype_eqb c closing then ret (inr call)
              else
                arg <- pexpr prec ;;
                h <- starts_bare_hash arg ;;
                if h then
                  a <- parse_call_hash_args bare closing arg ;;
                  ret (inr (add_arg call a))
                else ret (inl (add_arg call arg))
            else ret (inr call)) (add_arg call arg)) ;;
  b <- cur_is T_Ampersand ;;
  call <- (if b then a <- parse_block_pass ;; ret (add_arg call a) else ret call) ;;
  (if bare && can_accept_a_block call then decr_depth else ret tt) ;;;
  ret call.

(** parser.cpp 2362-2375. *)
Definition parse_call_expression_with_parens (lhs : node) : M node :=
  t <- cur ;;
  call <- to_node_with_args lhs ;;
  advance ;;;
  c <- cur ;;
  call <-
    (if ttype_eqb (ty c) T_RParen then
       if tk_ws t then ret (add_arg call (N_NilSexp c)) else ret call
     else parse_call_args call false T_RParen) ;;
  expect T_RParen "call rparen" ;;;
  advance ;;;
  ret call.

(** parser.cpp 2452-2468. *)
Definition parse_call_expression_without_parens (lhs : node) : M node :=
  t <- cur ;;
  call <- to_node_with_args lhs ;;
  match ty t with
  | T_Comma | T_Eof | T_Newline | T_RBracket | T_RCurlyBrace | T_RParen | T_Semicolon => ret call
  | _ => parse_call_args call true T_RParen
  end.

(** parser.cpp 2470-2504. *)
Definition parse_constant_resolution_expression (lhs : node) : M node :=
  advance ;;;
  nt <- cur ;;
  match ty nt with
  | T_BareName | T_OperatorName =>
      advance ;;; l <- literal_string nt ;; ret (N_Call nt lhs l [])
  | T_Constant => advance ;;; l <- literal_string nt ;; ret (N_Colon2 nt lhs l)
  | T_LParen =>
      advance ;;;
      b <- cur_is T_RParen ;;
      call <-
        (let call := N_Call nt lhs (s2l "call") [] in
         if b then ret call else parse_call_args call false T_RParen) ;;
      expect T_RParen "::() call right paren" ;;;
      advance ;;;
      ret call
  | x =>
      if is_operator x || is_keyword x then
        advance ;;; l <- type_name nt ;; ret (N_Call nt lhs l [])
      else throw_unexpected nt ":: identifier name"
  end.

(** parser.cpp 2506-2519. *)
Definition parse_infix_expression (lhs : node) : M node :=
  t <- cur ;;
  advance ;;;
  r <- pexpr (get_precedence t (Some lhs)) ;;
  op <- type_name t ;;
  ret (N_InfixOp t lhs op r).

(** parser.hpp 203-208 ([regroup]) with the construction it is an alternative to
    (parser.cpp 2528-2532). *)
Definition make_and (t : token) (lhs rhs : node) : node :=
  match lhs with
  | N_LogicalAnd lt ll lr => N_LogicalAnd lt ll (N_LogicalAnd t lr rhs)
  | _ => N_LogicalAnd t lhs rhs
  end.
Definition make_or (t : token) (lhs rhs : node) : node :=
  match lhs with
  | N_LogicalOr lt ll lr => N_LogicalOr lt ll (N_LogicalOr t lr rhs)
  | _ => N_LogicalOr t lhs rhs
  end.

(** parser.cpp 2521-2563. *)
Definition parse_logical_expression (lhs : node) : M node :=
  t <- cur ;;
  match ty t with
  | T_AmpersandAmpersand => advance ;;; r <- pexpr LOGICAL_AND ;; ret (make_and t lhs r)
  | T_AndKeyword => advance ;;; r <- pexpr COMPOSITION ;; ret (make_and t lhs r)
  | T_PipePipe => advance ;;; r <- pexpr LOGICAL_OR ;; ret (make_or t lhs r)
  | T_OrKeyword => advance ;;; r <- pexpr COMPOSITION ;; ret (make_or t lhs r)
  | _ => crash (PUnreachable "parser.cpp:2561")
  end.

(** parser.cpp 2565-2582. *)
Definition parse_match_expression (lhs : node) : M node :=
  t <- cur ;;
  advance ;;;
  a <- pexpr EQUALITY ;;
  ret (match lhs, a with
       | N_Regexp _ _ _, _ => N_Match t lhs (Some a) true
       | _, N_Regexp _ _ _ => N_Match t a (Some lhs) false
       | _, _ => N_Call t lhs (s2l "=~") [a]
       end).

(** parser.cpp 2584-2588. *)
Definition parse_not_match_expression (lhs : node) : M node :=
  t <- cur ;; n <- parse_match_expression lhs ;; ret (N_NotMatch t n).

(** parser.cpp 2634-2672; [safe]: the node is a SafeCallNode. *)
Definition parse_op_attr_assign_expression (lhs receiver : node) (message : str)
  (args : list node) (safe : bool) : M node :=
  t <- cur ;;
  advance ;;;
  v <- pexpr OP_ASSIGNMENT_RHS ;;
  let accessor :=
    op <- type_name t ;;
    ret (N_OpAssignAccessor t (chomp op) receiver (message ++ s2l "=") v args safe) in
  if negb (str_eqb message (s2l "[]")) then
    match ty t with
    | T_AmpersandAmpersandEqual => ret (N_OpAssignAnd t lhs v)
    | T_PipePipeEqual => ret (N_OpAssignOr t lhs v)
    | _ => accessor
    end
  else accessor.

(** parser.cpp 2607-2631: the operator and right-hand side. *)
Definition op_assign_rest (lhs : node) : M node :=
  t <- cur ;;
  advance ;;;
  match ty t with
  | T_AmpersandAmpersandEqual => v <- pexpr ASSIGNMENT_RHS ;; ret (N_OpAssignAnd t lhs v)
  | T_PipePipeEqual => v <- pexpr ASSIGNMENT_RHS ;; ret (N_OpAssignOr t lhs v)
  | T_AmpersandEqual | T_CaretEqual | T_LeftShiftEqual | T_MinusEqual | T_PercentEqual
  | T_PipeEqual | T_PlusEqual | T_RightShiftEqual | T_SlashEqual | T_StarEqual | T_StarStarEqual =>
      op <- type_name t ;;
      v <- pexpr ASSIGNMENT_RHS ;;
      ret (N_OpAssign t (chomp op) lhs v)
  | _ => crash (PUnreachable "parser.cpp:2630")
  end.

(** parser.cpp 2590-2632. *)
Definition parse_op_assign_expression (lhs : node) : M node :=
  match lhs with
  | N_Call _ r m args => parse_op_attr_assign_expression lhs r m args false
  | N_SafeCall _ r m args => parse_op_attr_assign_expression lhs r m args true
  | N_Identifier t _ =>
      identifier_add_to_locals t ;;;
      op_assign_rest (N_Identifier t true)
  | N_Constant _ | N_Colon2 _ _ _ | N_Colon3 _ _ => op_assign_rest lhs
  | _ => throw_unexpected (ntoken lhs) "variable or constant"
  end.

(** parser.cpp 2685-2701. *)
Definition parse_range_expression (lhs : node) : M node :=
  t <- cur ;;
  advance ;;;
  skip_newlines ;;;
  c <- cur ;;
  r <-
    (if can_be_range_arg_token (ty c) then pexpr RANGE
     else
       (if negb (can_follow_collapsible_newline (ty c)) then
          insert_token (Tok T_Newline None None 0 [] (tk_line c) (tk_col c) (tk_ws c))
        else ret tt) ;;;
       ret (N_Nil t)) ;;
  ret (N_Range t lhs r (ttype_eqb (ty t) T_DotDotDot)).

(** parser.cpp 2703-2719. *)
Definition parse_ref_expression (lhs : node) : M node :=
  t <- cur ;;
  advance ;;;
  let call := N_Call t lhs (s2l "[]") [] in
  if ttype_eqb (ty t) T_LBracketRBracket then ret call
  else
    b <- cur_is T_RBracket ;;
    call <- (if b then ret call else parse_call_args call false T_RBracket) ;;
    expect T_RBracket "element reference right bracket" ;;;
    advance ;;;
    ret call.

(** parser.cpp 2721-2731. *)
Definition parse_rescue_expression (lhs : node) : M node :=
  t <- cur ;;
  advance ;;;
  v <- pexpr LOWEST ;;
  ret (N_Begin t (ntoken lhs, [lhs]) [N_BeginRescue t None [] (ntoken v, [v])] None None).

(** parser.cpp 2790-2799. *)
Definition parse_ternary_expression (lhs : node) : M node :=
  t <- cur ;;
  expect T_TernaryQuestion "ternary question" ;;;
  advance ;;;
  a <- pexpr TERNARY_TRUE ;;
  expect T_TernaryColon "ternary colon" ;;;
  advance ;;;
  b <- pexpr TERNARY_FALSE ;;
  ret (N_If t lhs a b).

(** parser.cpp 2801-2805. *)
Definition parse_triple_dot : M node :=
  p <- peek ;;
  if ttype_eqb (ty p) T_RParen then parse_forward_args else parse_beginless_range.

(** parser.cpp 1821-1830. *)
Definition parse_not : M node :=
  t <- cur ;;
  advance ;;;
  e <- pexpr (get_precedence t None) ;;
  ret (N_Not t e).

(** parser.cpp 1939-1946. *)
Definition parse_splat : M node :=
  t <- cur ;;
  advance ;;;
  c <- cty ;;
  if ttype_eqb c T_Comma || ttype_eqb c T_Equal then ret (N_Splat t None)
  else e <- pexpr SPLAT ;; ret (N_Splat t (Some e)).

(** parser.cpp 1866-1894. *)
Definition parse_return : M node :=
  t <- cur ;;
  advance ;;;
  c <- cty ;;
  v <- (if is_end_of_expression c then ret (N_Nil t) else pexpr BARE_CALL_ARG) ;;
  if node_is_symbol_key v then unexpected "argument (no keyword args)"
  else
    c <- cur ;;
    v <-
      (if ttype_eqb (ty c) T_HashRocket then parse_call_hash_args true T_RParen v
       else if ttype_eqb (ty c) T_Comma then
         l <-
           comma_items
             (item <- pexpr BARE_CALL_ARG ;;
              b <- cur_is T_HashRocket ;;
              if b || node_is_symbol_key item then parse_call_hash_args true T_RParen item
              else ret item) [v] ;;
         ret (N_Array c l)
       else ret v) ;;
    ret (N_Return t v).

(** parser.cpp 937-952; [item] is [parse_assignment_identifier(true, locals)]. *)
Definition multiple_assignment_with (item : M node) (lhs : node) : M node :=
  if negb (node_is_assignable lhs) then unexpected "assignment ="
  else
    mloop fuel
      (fun acc =>
         b <- cur_is T_Comma ;;
         let finish := ret (inr (N_MultipleAssignment (ntoken lhs) acc 0)) in
         if b then
           advance ;;;
           c <- cty ;;
           match c with
           | T_RParen | T_Equal | T_InKeyword => finish
           | _ => n <- item ;; ret (inl (acc ++ [n]))
           end
         else finish) [lhs].

(** parser.cpp 992-1014: the suffixes of an assignment target. *)
Definition assignment_suffixes (n : node) : M node :=
  mloop fuel
    (fun n =>
       t <- cur ;;
       match ty t with
       | T_ConstantResolution => n <- parse_constant_resolution_expression n ;; ret (inl n)
       | T_Dot => n <- parse_send_expression n ;; ret (inl n)
       | T_LBracket =>
           if treat_left_bracket_as_element_reference n t then
             n <- parse_ref_expression n ;; ret (inl n)
           else ret (inr n)
       | _ => ret (inr n)
       end) n.

(** parser.cpp 954-1015. *)
Fixpoint assignment_identifier (n : nat) (allow_splat : bool) : M node :=
  match n with
  | O => nofuel
  | S m =>
      t <- cur ;;
      node <-
        match ty t with
        | T_BareName | T_ClassVariable | T_Constant | T_GlobalVariable | T_InstanceVariable =>
            parse_identifier
        | T_ConstantResolution => parse_top_level_constant
        | T_LParen =>
            advance ;;;
            x <- assignment_identifier m true ;;
            x <- multiple_assignment_with (assignment_identifier m true) x ;;
            b <- cur_is T_RParen ;;
            if negb b then unexpected "closing paren for multiple assignment"
            else advance ;;; ret x
        | T_Star =>
            (if negb allow_splat then expect T_BareName "assignment identifier" else ret tt) ;;;
            advance ;;;
            c <- cty ;;
            if is_assignable c then
              id <- assignment_identifier m false ;;
              ret (N_Splat t (Some id))
            else ret (N_Splat t None)
        | _ => unexpected "assignment identifier"
        end ;;
      assignment_suffixes node
  end.
Definition parse_assignment_identifier (allow_splat : bool) : M node :=
  assignment_identifier fuel allow_splat.
(** parser.cpp 937-952. *)
Definition parse_multiple_assignment_expression (lhs : node) : M node :=
  multiple_assignment_with (parse_assignment_identifier true) lhs.

(** parser.cpp 2243-2282. *)
Definition parse_assignment_expression_value (to_array allow_multiple : bool) : M node :=
  t <- cur ;;
  v <- pexpr ASSIGNMENT_RHS ;;
  b <- cur_is T_Comma ;;
  r <-
    (if allow_multiple && b then
       l <- comma_items (pexpr ASSIGNMENT_RHS) [v] ;;
       ret (N_Array t l, true)
     else ret (v, match v with N_Splat _ _ => true | _ => false end)) ;;
  let '(v, is_splat) := r in
  let v := match v with N_Block bt l => block_or_only (bt, l) | _ => v end in
  ret (if is_splat then (if to_array then v else N_SplatValue t v)
       else (if to_array then N_ToArray t v else v)).

(** parser.cpp 2201-2219. *)
Definition parse_assignment_expression (allow_multiple : bool) (lhs : node) : M node :=
  t <- cur ;;
  match lhs with
  | N_Splat _ _ => parse_multiple_assignment_expression lhs
  | _ =>
      add_assignment_locals lhs ;;;
      advance ;;;
      v <- parse_assignment_expression_value
             (match lhs with N_MultipleAssignment _ _ _ => true | _ => false end) allow_multiple ;;
      ret (N_Assignment t lhs v)
  end.

(** parser.cpp 1125-1137. *)
Fixpoint arg_default_value (n : nat) (ia : iter_allow) : M node :=
  match n with
  | O => nofuel
  | S m =>
      t <- cur ;;
      p <- peek ;;
      if ttype_eqb (ty t) T_BareName && ttype_eqb (ty p) T_Equal then
        name <- literal_string t ;;
        advance ;;;
        advance ;;;
        add_local name ;;;
        v <- arg_default_value m ia ;;
        ret (N_Arg t (Some name) false false false (Some v))
      else expr DEF_ARG ia
  end.
Definition parse_arg_default_value (ia : iter_allow) : M node := arg_default_value fuel ia.

(** parser.cpp 1140-1141, 1145: what the last argument so far is. *)
Definition last_arg (args : list node) : option node :=
  match rev args with a :: _ => Some a | [] => None end.
Definition args_have_any_splat (args : list node) : bool :=
  match last_arg args with
  | Some (N_Arg _ _ _ splat kwsplat _) => splat || kwsplat
  | _ => false
  end.
Definition args_have_keyword (args : list node) : bool :=
  match last_arg args with Some (N_KeywordArg _ _ _) => true | _ => false end.

(** parser.cpp 1139-1253 (and 1117-1123 for the nested arguments). *)
Fixpoint def_single_arg (n : nat) (ctx : args_context) (ia : iter_allow) (args : list node)
  : M (list node) :=
  match n with
  | O => nofuel
  | S m =>
      t <- cur ;;
      (match last_arg args with
       | Some (N_ForwardArgs _) => throw_error t "anything after arg forwarding (...) shorthand"
       | _ => ret tt
       end) ;;;
      match ty t with
      | T_BareName =>
          if args_have_keyword args then throw_error t "normal arg after keyword arg"
          else
            name <- literal_string t ;;
            advance ;;;
            add_local name ;;;
            b <- cur_is T_Equal ;;
            if b then
              if args_have_any_splat args then throw_error t "default value after splat"
              else
                advance ;;;
                v <- parse_arg_default_value ia ;;
                ret (args ++ [N_Arg t (Some name) false false false (Some v)])
            else ret (args ++ [N_Arg t (Some name) false false false None])
      | T_LParen =>
          advance ;;;
          sub <- def_single_arg m Ctx_Method IA_CURLY_AND_BLOCK [] ;;
          sub <-
            mloop fuel
              (fun acc =>
                 b <- cur_is T_Comma ;;
                 if b then
                   advance ;;;
                   acc <- def_single_arg m Ctx_Method IA_CURLY_AND_BLOCK acc ;;
                   ret (inl acc)
                 else ret (inr acc)) sub ;;
          expect T_RParen "nested args closing paren" ;;;
          advance ;;;
          ret (args ++ [N_MultipleAssignmentArg t sub])
      | T_Star =>
          if args_have_any_splat args then throw_error t "splat after keyword splat"
          else
            advance ;;;
            c <- cur ;;
            name <-
              (if ttype_eqb (ty c) T_BareName then
                 name <- literal_string c ;;
                 advance ;;;
                 add_local name ;;;
                 ret (Some name)
               else ret None) ;;
            ret (args ++ [N_Arg t name false true false None])
      | T_StarStar =>
          advance ;;;
          c <- cur ;;
          name <-
            (if ttype_eqb (ty c) T_BareName then
               name <- literal_string c ;;
               advance ;;;
               add_local name ;;;
               ret (Some name)
             else if is_keyword (ty c) then
               name <- type_name c ;;
               advance ;;;
               ret (Some name)
             else ret None) ;;
          ret (args ++ [N_Arg t name false false true None])
      | T_Ampersand =>
          advance ;;;
          expect T_BareName "block name" ;;;
          c <- cur ;;
          name <- literal_string c ;;
          advance ;;;
          add_local name ;;;
          ret (args ++ [N_Arg t (Some name) true false false None])
      | T_SymbolKey =>
          name <- literal_string t ;;
          advance ;;;
          c <- cty ;;
          v <-
            match c with
            | T_Comma | T_Newline | T_Pipe | T_RParen | T_Semicolon => ret None
            | _ =>
                if ttype_eqb c T_LCurlyBrace && match ia with IA_NONE => true | _ => false end
                then ret None
                else v <- expr DEF_ARG ia ;; ret (Some v)
            end ;;
          add_local name ;;;
          ret (args ++ [N_KeywordArg t name v])
      | T_DotDotDot =>
          match ctx with
          | Ctx_Block => throw_error t "arg forwarding (...) shorthand not allowed in block"
          | _ =>
              advance ;;;
              add_local (s2l "...") ;;;
              ret (args ++ [N_ForwardArgs t])
          end
      | _ => unexpected "argument"
      end
  end.
(** parser.cpp 1139. *)
Definition parse_def_single_arg (ctx : args_context) (ia : iter_allow) (args : list node)
  : M (list node) := def_single_arg fuel ctx ia args.

(** parser.cpp 1117-1123. *)
Definition parse_def_args (args : list node) : M (list node) :=
  args <- parse_def_single_arg Ctx_Method IA_CURLY_AND_BLOCK args ;;
  mloop fuel
    (fun acc =>
       b <- cur_is T_Comma ;;
       if b then
         advance ;;;
         acc <- parse_def_single_arg Ctx_Method IA_CURLY_AND_BLOCK acc ;;
         ret (inl acc)
       else ret (inr acc)) args.

(** parser.cpp 1913-1924. *)
Fixpoint add_locals (names : list str) : M unit :=
  match names with
  | [] => ret tt
  | n :: names' => add_local n ;;; add_locals names'
  end.
Definition parse_shadow_variables_in_args (args : list node) : M (list node) :=
  t <- cur ;;
  advance ;;;
  n <- parse_shadow_variable_single_arg ;;
  names <- comma_items parse_shadow_variable_single_arg [n] ;;
  add_locals names ;;;
  ret (args ++ [N_ShadowArg t names]).

(** parser.cpp 1838-1852. *)
Definition parse_proc_args (args : list node) (ia : iter_allow) : M (list node) :=
  b <- cur_is T_Semicolon ;;
  if b then parse_shadow_variables_in_args args
  else
    args <- parse_def_single_arg Ctx_Proc ia args ;;
    args <-
      mloop fuel
        (fun acc =>
           b <- cur_is T_Comma ;;
           if b then
             advance ;;;
             acc <- parse_def_single_arg Ctx_Proc ia acc ;;
             ret (inl acc)
           else ret (inr acc)) args ;;
    b <- cur_is T_Semicolon ;;
    if b then parse_shadow_variables_in_args args else ret args.

(** parser.cpp 2336-2355. *)
Definition parse_iter_args (args : list node) : M (list node) :=
  b <- cur_is T_Semicolon ;;
  if b then parse_shadow_variables_in_args args
  else
    args <- parse_def_single_arg Ctx_Block IA_CURLY_AND_BLOCK args ;;
    args <-
      mloop fuel
        (fun acc =>
           b <- cur_is T_Comma ;;
           if b then
             advance ;;;
             c <- cur ;;
             if ttype_eqb (ty c) T_Pipe then ret (inr (acc ++ [N_Nil c]))
             else
               acc <- parse_def_single_arg Ctx_Block IA_CURLY_AND_BLOCK acc ;;
               ret (inl acc)
           else ret (inr acc)) args ;;
    b <- cur_is T_Semicolon ;;
    if b then parse_shadow_variables_in_args args else ret args.

(** parser.cpp 2357-2360. *)
Definition parse_iter_body (curly_brace : bool) : M (token * list node) :=
  parse_body_rescue_to (if curly_brace then T_RCurlyBrace else T_EndKeyword).

(** parser.cpp 2299-2321: the opening of a block and its arguments. *)
Definition parse_iter_head (lhs : node) : M (bool * list node) :=
  match lhs with
  | N_StabbyProc _ has_args args => advance ;;; ret (has_args, args)
  | _ =>
      if can_accept_a_block lhs then
        if has_block_pass lhs then throw (SE_text "Both block arg and actual block given.")
        else
          advance ;;;
          c <- cty ;;
          if ttype_eqb c T_PipePipe then advance ;;; ret (true, [])
          else if ttype_eqb c T_Pipe then
            advance ;;;
            b <- cur_is T_Pipe ;;
            if b then advance ;;; ret (true, [])
            else
              args <- parse_iter_args [] ;;
              expect T_Pipe "end of block args" ;;;
              advance ;;;
              ret (true, args)
          else ret (false, [])
      else throw_unexpected (ntoken lhs) "call to accept block"
  end.

(** parser.cpp 2284-2333. *)
Definition parse_iter_expression (lhs : node) : M node :=
  t <- cur ;;
  pt <- prev ;;
  let curly := ttype_eqb (ty t) T_LCurlyBrace in
  let bad :=
    curly &&
    match lhs with N_Call _ _ _ (_ :: _) => negb (ttype_eqb (ty pt) T_RParen) | _ => false end in
  if bad then unexpected "nearest object cannot accept a { ... } block"
  else
    locals <- get_locals ;;
    with_locals locals
      (h <- parse_iter_head lhs ;;
       body <- parse_iter_body curly ;;
       (if curly then expect T_RCurlyBrace "}" else expect T_EndKeyword "end") ;;;
       advance ;;;
       ret (N_Iter t lhs (fst h) (snd h) body)).

(** parser.cpp 505-514. *)
Definition parse_begin_block : M node :=
  ps <- precs ;;
  match ps with
  | [_] =>
      t <- cur ;;
      advance ;;;
      expect T_LCurlyBrace "BEGIN {}" ;;;
      parse_iter_expression (N_BeginBlock t)
  | _ => throw (SE_text "BEGIN is permitted only at toplevel")
  end.

(** parser.cpp 1261-1267. *)
Definition parse_end_block : M node :=
  t <- cur ;;
  advance ;;;
  expect T_LCurlyBrace "END {}" ;;;
  parse_iter_expression (N_EndBlock t).

(** parser.cpp 1948-1975. *)
Definition parse_stabby_proc : M node :=
  t <- cur ;;
  advance ;;;
  c <- cty ;;
  r <-
    (if ttype_eqb c T_LParen then
       advance ;;;
       b <- cur_is T_RParen ;;
       if b then advance ;;; ret (true, [])
       else
         args <- parse_proc_args [] IA_CURLY_AND_BLOCK ;;
         expect T_RParen "proc args closing paren" ;;;
         advance ;;;
         ret (true, args)
     else if can_be_first_arg_of_def c then
       args <- parse_proc_args [] IA_NONE ;;
       ret (true, args)
     else ret (false, [])) ;;
  c <- cty ;;
  if negb (ttype_eqb c T_DoKeyword) && negb (ttype_eqb c T_LCurlyBrace) then unexpected "block"
  else parse_iter_expression (N_StabbyProc t (fst r) (snd r)).

(** parser.cpp 1269-1313. *)
Definition parse_modifier_expression (lhs : node) : M node :=
  t <- cur ;;
  let loop_body :=
    match lhs with N_Block bt l => ((bt, l), false) | N_Begin _ _ _ _ _ => ((t, [lhs]), false)
    | _ => ((t, [lhs]), true) end in
  match ty t with
  | T_IfKeyword => advance ;;; c <- pexpr LOWEST ;; ret (N_If t c lhs (N_Nil t))
  | T_UnlessKeyword => advance ;;; c <- pexpr LOWEST ;; ret (N_If t c (N_Nil t) lhs)
  | T_UntilKeyword => advance ;;; c <- pexpr LOWEST ;; ret (N_Until t c (fst loop_body) (snd loop_body))
  | T_WhileKeyword => advance ;;; c <- pexpr LOWEST ;; ret (N_While t c (fst loop_body) (snd loop_body))
  | _ => crash PNotImplemented
  end.

(** parser.cpp 1327-1347. *)
Definition parse_for : M node :=
  t <- cur ;;
  advance ;;;
  vars <- parse_assignment_identifier true ;;
  b <- cur_is T_Comma ;;
  vars <-
    (if b || match vars with N_Splat _ _ => true | _ => false end
     then parse_multiple_assignment_expression vars else ret vars) ;;
  add_assignment_locals vars ;;;
  expect T_InKeyword "for in" ;;;
  advance ;;;
  incr_depth ;;;
  e <- expr BARE_CALL_ARG IA_CURLY_ONLY ;;
  decr_depth ;;;
  b <- cur_is T_DoKeyword ;;
  (if b then advance else ret tt) ;;;
  body <- parse_body_to T_EndKeyword ;;
  expect T_EndKeyword "for end" ;;;
  advance ;;;
  ret (N_For t e vars body).

(** parser.cpp 1383-1389, multiple_assignment_node.hpp 22-24. *)
Definition group_result (t : token) (e : node) : node :=
  match e with
  | N_MultipleAssignment mt l d =>
      let e' := N_MultipleAssignment mt l (S d) in
      if Nat.ltb 1 (S d) then N_MultipleAssignment t [e'] 1 else e'
  | _ => e
  end.

(** parser.cpp 1358-1392. *)
Definition parse_group : M node :=
  t <- cur ;;
  advance ;;;
  b <- cur_is T_RParen ;;
  if b then advance ;;; ret (N_NilSexp t)
  else
    body <- parse_body_to T_RParen ;;
    let e := block_or_only body in
    expect T_RParen "group closing paren" ;;;
    advance ;;;
    b <- cur_is T_Equal ;;
    if b && negb (match e with N_MultipleAssignment _ _ _ => true | _ => false end)
    then unexpected "multiple assignment on left-hand-side"
    else ret (group_result t e).

(** parser.cpp 1492-1495 ([is_divider]). *)
Definition is_divider (t : ttype) : bool :=
  match t with T_ElsifKeyword | T_ElseKeyword | T_EndKeyword => true | _ => false end.

(** parser.cpp 1486-1510. *)
Definition parse_if_body : M node :=
  skip_newlines ;;;
  t <- cur ;;
  validate_current_token ;;;
  skip_newlines ;;;
  nodes <-
    mloop fuel
      (fun acc =>
         c <- cty ;;
         if is_eof c || is_divider c then ret (inr acc)
         else
           e <- pexpr LOWEST ;;
           validate_current_token ;;;
           c <- cty ;;
           (if is_divider c then ret tt else next_expression) ;;;
           ret (inl (acc ++ [e]))) [] ;;
  c <- cty ;;
  if negb (is_divider c) then unexpected "if end"
  else ret (match nodes with [] => N_Nil t | _ => block_or_only (t, nodes) end).

(** parser.cpp 1460-1462, 2811-2813, 2836-2838. *)
Definition match_condition (c : node) : node :=
  match c with N_Regexp t _ _ => N_Match t c None false | _ => c end.

(** parser.cpp 1463-1467, 2814-2818. *)
Definition then_or_newline : M unit :=
  b <- cur_is T_ThenKeyword ;;
  if b then advance else next_expression.

(** parser.cpp 1456-1484. *)
Fixpoint if_branch (n : nat) (parse_match_condition : bool) : M node :=
  match n with
  | O => nofuel
  | S m =>
      t <- cur ;;
      advance ;;;
      c <- pexpr LOWEST ;;
      let c := if parse_match_condition then match_condition c else c in
      then_or_newline ;;;
      a <- parse_if_body ;;
      k <- cty ;;
      if ttype_eqb k T_ElsifKeyword then
        b <- if_branch m false ;;
        t' <- cur ;;
        ret (N_If t' c a b)
      else
        b <-
          (if ttype_eqb k T_ElseKeyword then advance ;;; parse_if_body
           else t' <- cur ;; ret (N_Nil t')) ;;
        expect T_EndKeyword "if end" ;;;
        advance ;;;
        ret (N_If t c a b)
  end.
(** parser.cpp 1452-1454. *)
Definition parse_if : M node := if_branch fuel true.

(** parser.cpp 2807-2830. *)
Definition parse_unless : M node :=
  t <- cur ;;
  advance ;;;
  c <- pexpr LOWEST ;;
  let c := match_condition c in
  then_or_newline ;;;
  a <- parse_if_body ;;
  k <- cty ;;
  b <-
    (if ttype_eqb k T_ElseKeyword then advance ;;; parse_if_body
     else t' <- cur ;; ret (N_Nil t')) ;;
  expect T_EndKeyword "unless end" ;;;
  advance ;;;
  ret (N_If t c b a).

(** parser.cpp 2832-2855. *)
Definition parse_while : M node :=
  t <- cur ;;
  advance ;;;
  c <- expr LOWEST IA_CURLY_ONLY ;;
  let c := match_condition c in
  b <- cur_is T_DoKeyword ;;
  (if b then advance else next_expression) ;;;
  body <- parse_body_to T_EndKeyword ;;
  expect T_EndKeyword "while end" ;;;
  advance ;;;
  match ty t with
  | T_UntilKeyword => ret (N_Until t c body true)
  | T_WhileKeyword => ret (N_While t c body true)
  | _ => crash (PUnreachable "parser.cpp:2853")
  end.

(** parser.cpp 901-915. *)
Definition parse_class_or_module_name : M node :=
  t <- cur ;;
  e <- pexpr LESS_GREATER ;;
  let bad := throw (SE_text "class/module name must be CONSTANT") in
  match e with
  | N_Colon2 _ _ _ | N_Colon3 _ _ => ret e
  | N_Identifier _ _ => if ttype_eqb (ty t) T_Constant then ret e else bad
  | _ => bad
  end.

(** parser.cpp 1896-1905. *)
Definition parse_sclass : M node :=
  t <- cur ;;
  advance ;;;
  advance ;;;
  k <- pexpr BARE_CALL_ARG ;;
  body <- parse_body_to T_EndKeyword ;;
  expect T_EndKeyword "sclass end" ;;;
  advance ;;;
  ret (N_Sclass t k body).

(** parser.cpp 917-935. *)
Definition parse_class : M node :=
  t <- cur ;;
  p <- peek ;;
  if ttype_eqb (ty p) T_LeftShift then parse_sclass
  else
    advance ;;;
    with_locals []
      (name <- parse_class_or_module_name ;;
       b <- cur_is T_LessThan ;;
       super <- (if b then advance ;;; pexpr LOWEST else ret (N_Nil t)) ;;
       body <- parse_body_rescue_to T_EndKeyword ;;
       expect T_EndKeyword "class end" ;;;
       advance ;;;
       ret (N_Class t name super body)).

(** parser.cpp 1774-1783. *)
Definition parse_module : M node :=
  t <- cur ;;
  advance ;;;
  with_locals []
    (name <- parse_class_or_module_name ;;
     body <- parse_body_rescue_to T_EndKeyword ;;
     expect T_EndKeyword "module end" ;;;
     advance ;;;
     ret (N_Module t name body)).

(** parser.cpp 1029-1068: the receiver and name of a method definition. *)
Definition parse_def_name : M (option node * str) :=
  t <- cur ;;
  p <- peek ;;
  let dot := is_dot (ty p) || is_constant_resolution (ty p) in
  match ty t with
  | T_BareName =>
      self <- (if dot then n <- parse_identifier ;; advance ;;; ret (Some n) else ret None) ;;
      name <- parse_method_name ;;
      ret (self, name)
  | T_Constant =>
      self <- (if dot then n <- parse_constant ;; advance ;;; ret (Some n) else ret None) ;;
      name <- parse_method_name ;;
      ret (self, name)
  | T_OperatorName => name <- parse_method_name ;; ret (None, name)
  | T_SelfKeyword =>
      self <- (if dot then advance ;;; advance ;;; ret (Some (N_Self t)) else ret None) ;;
      name <- parse_method_name ;;
      ret (self, name)
  | x =>
      if is_operator x || is_keyword x then name <- parse_method_name ;; ret (None, name)
      else
        self <- pexpr DOT ;;
        expect T_Dot "dot followed by method name" ;;;
        advance ;;;
        name <- parse_method_name ;;
        ret (Some self, name)
  end.

(** parser.cpp 1069-1091: the arguments and body, with the locals of the method. *)
Definition parse_def_rest (name : str) : M (list node * (token * list node)) :=
  c <- cty ;;
  args <-
    (if ttype_eqb c T_LParen then
       advance ;;;
       b <- cur_is T_RParen ;;
       if b then advance ;;; ret []
       else
         args <- parse_def_args [] ;;
         expect T_RParen "args closing paren" ;;;
         advance ;;;
         ret args
     else if can_be_first_arg_of_def c then parse_def_args []
     else ret []) ;;
  b <- cur_is T_Equal ;;
  body <-
    (if b then
       advance ;;;
       if ends_with name (s2l "=") && negb (ends_with name (s2l "==")) then
         throw (SE_text "setter method cannot be defined in an endless method definition")
       else
         e <- pexpr LOWEST ;;
         ret (ntoken e, [e])
     else
       body <- parse_body_rescue_to T_EndKeyword ;;
       expect T_EndKeyword "def end" ;;;
       advance ;;;
       ret body) ;;
  ret (args, body).

(** parser.cpp 1023-1099. *)
Definition parse_def : M node :=
  t <- cur ;;
  advance ;;;
  n <- parse_def_name ;;
  r <- with_locals [] (parse_def_rest (snd n)) ;;
  ret (N_Def t (fst n) (snd n) (fst r) (snd r)).

(** parser.cpp 1101-1115. *)
Definition parse_defined : M node :=
  t <- cur ;;
  advance ;;;
  paren <- cur_is T_LParen ;;
  a <- (if paren then advance ;;; pexpr CALL_ARG else pexpr BARE_CALL_ARG) ;;
  (if paren then expect T_RParen "defined? closing paren" ;;; advance else ret tt) ;;;
  ret (N_Defined t a).

(** [locals.set(name.ref())] (parser.cpp 722, 832): the whole string, not cut at a NUL. *)
Definition add_local_exact (name : str) : M unit :=
  l <- get_locals ;; set_locals (name :: l).

(** parser.cpp 813-848. *)
Definition parse_case_in_pattern_hash_symbol_key : M node :=
  t <- cur ;;
  match ty t with
  | T_InterpolatedStringBegin =>
      n <- parse_interpolated_string ;;
      match n with
      | N_SymbolKey _ _ => ret n
      | _ => throw_unexpected t "hash pattern symbol key"
      end
  | T_StarStar =>
      advance ;;;
      c <- cur ;;
      match ty c with
      | T_NilKeyword => l <- type_name c ;; advance ;;; ret (N_KeywordRestPattern t (Some l))
      | T_BareName =>
          name <- literal_string c ;;
          add_local_exact name ;;;
          advance ;;;
          ret (N_KeywordRestPattern t (Some name))
      | _ => ret (N_KeywordRestPattern t None)
      end
  | T_SymbolKey => parse_symbol_key
  | _ => unexpected "hash pattern symbol key"
  end.

(** parser.cpp 715-727 (the lambda [add_pair]); [pattern] is [parse_case_in_pattern]. *)
Definition hash_pattern_pair (pattern : M node) (acc : list node) : M (list node) :=
  key <- parse_case_in_pattern_hash_symbol_key ;;
  match key with
  | N_KeywordRestPattern _ _ => ret (acc ++ [key])
  | _ =>
      c <- cur ;;
      if ttype_eqb (ty c) T_RCurlyBrace || ttype_eqb (ty c) T_Comma then
        (match key with N_SymbolKey _ name => add_local_exact name | _ => ret tt end) ;;;
        ret (acc ++ [key; N_Nil c])
      else
        v <- pattern ;;
        ret (acc ++ [key; v])
  end.

(** parser.cpp 648-799. *)
Fixpoint case_in_pattern (n : nat) : M node :=
  match n with
  | O => nofuel
  | S m =>
      t <- cur ;;
      node <-
        match ty t with
        | T_BareName =>
            advance ;;;
            identifier_add_to_locals t ;;;
            ret (N_Identifier t true)
        | T_Bignum | T_Fixnum | T_Float => parse_lit
        | T_Caret =>
            advance ;;;
            expect T_BareName "pinned variable name" ;;;
            c <- cur ;;
            advance ;;;
            ret (N_Pin t (N_Identifier c true))
        | T_Constant => parse_constant
        | T_DotDot | T_DotDotDot => parse_beginless_range
        | T_LBracketRBracket => advance ;;; ret (N_ArrayPattern t [])
        | T_InterpolatedStringBegin => parse_interpolated_string
        | T_LBracket =>
            advance ;;;
            b <- cur_is T_RBracket ;;
            if b then advance ;;; ret (N_ArrayPattern t [])
            else
              p <- case_in_pattern m ;;
              l <-
                comma_items
                  (c <- cur ;;
                   if ttype_eqb (ty c) T_RBracket then ret (N_Splat c None) else case_in_pattern m)
                  [p] ;;
              expect T_RBracket "array pattern closing bracket" ;;;
              advance ;;;
              ret (N_ArrayPattern t l)
        | T_LCurlyBrace =>
            advance ;;;
            b <- cur_is T_RCurlyBrace ;;
            if b then advance ;;; ret (N_HashPattern t [])
            else
              l <- hash_pattern_pair (case_in_pattern m) [] ;;
              l <-
                mloop fuel
                  (fun acc =>
                     b <- cur_is T_Comma ;;
                     if b then
                       advance ;;;
                       acc <- hash_pattern_pair (case_in_pattern m) acc ;;
                       ret (inl acc)
                     else ret (inr acc)) l ;;
              expect T_RCurlyBrace "hash pattern closing brace" ;;;
              advance ;;;
              ret (N_HashPattern t l)
        | T_LParen =>
            advance ;;;
            p <- case_in_pattern m ;;
            expect T_RParen "closing paren for pattern" ;;;
            advance ;;;
            ret p
        | T_Minus => parse_unary_operator
        | T_NilKeyword => parse_nil
        | T_Star =>
            advance ;;;
            c <- cur ;;
            match ty c with
            | T_BareName | T_Constant =>
                name <- literal_string c ;;
                advance ;;;
                ret (N_Splat c (Some (N_Symbol c name)))
            | _ => ret (N_Splat c None)
            end
        | T_StarStar =>
            k <- parse_case_in_pattern_hash_symbol_key ;;
            ret (N_HashPattern t [k])
        | T_String => parse_string
        | T_Symbol => parse_symbol
        | _ => unexpected "case in pattern"
        end ;;
      c <- cty ;;
      node <-
        match c with
        | T_DotDot | T_DotDotDot => parse_range_expression node
        | _ => ret node
        end ;;
      b <- cur_is T_HashRocket ;;
      if b then
        advance ;;;
        expect T_BareName "pattern name" ;;;
        t <- cur ;;
        advance ;;;
        ret (N_Assignment t (N_Identifier t true) node)
      else ret node
  end.
Definition parse_case_in_pattern : M node := case_in_pattern fuel.

(** parser.cpp 801-811. *)
Definition parse_case_in_pattern_alternation : M node :=
  t <- cur ;;
  p <- parse_case_in_pattern ;;
  l <- comma_items parse_case_in_pattern [p] ;;
  ret (match l with [n] => n | _ => N_ArrayPattern t l end).

(** parser.cpp 853-854, 859-860: a lone splat becomes an array pattern. *)
Definition splat_pattern (p : node) : node :=
  match p with N_Splat t _ => N_ArrayPattern t [p] | _ => p end.

(** parser.cpp 864-876. *)
Fixpoint or_patterns (lhs : node) (l : list node) : node :=
  match l with
  | [] => lhs
  | n :: l' => or_patterns (N_LogicalOr (ntoken n) lhs n) l'
  end.

(** parser.cpp 850-877. *)
Definition parse_case_in_patterns : M node :=
  p <- parse_case_in_pattern_alternation ;;
  l <-
    mloop fuel
      (fun acc =>
         b <- cur_is T_Pipe ;;
         if b then
           advance ;;;
           p <- parse_case_in_pattern_alternation ;;
           ret (inl (acc ++ [splat_pattern p]))
         else ret (inr acc)) [splat_pattern p] ;;
  match l with
  | [] => crash PAssert
  | [p] => ret p
  | a :: b :: rest => ret (or_patterns (N_LogicalOr (ntoken a) a b) rest)
  end.

(** parser.cpp 878-899. *)
Definition parse_case_body (type : ttype) : M (token * list node) :=
  t <- cur ;;
  validate_current_token ;;;
  skip_newlines ;;;
  let stop c := ttype_eqb c type || ttype_eqb c T_ElseKeyword || ttype_eqb c T_EndKeyword in
  nodes <-
    mloop fuel
      (fun acc =>
         c <- cty ;;
         if is_eof c || stop c then ret (inr acc)
         else
           e <- pexpr LOWEST ;;
           validate_current_token ;;;
           next_expression ;;;
           ret (inl (acc ++ [e]))) [] ;;
  c <- cty ;;
  if negb (stop c) then
    match type with
    | T_InKeyword => unexpected "case: in, else, or end"
    | T_WhenKeyword => unexpected "case: when, else, or end"
    | _ => crash (PUnreachable "parser.cpp:895")
    end
  else ret (t, nodes).

(** parser.cpp 603-608, 617-622. *)
Definition then_or_next : M unit :=
  b <- cur_is T_ThenKeyword ;;
  if b then advance ;;; skip_newlines else next_expression.

(** parser.cpp 579-645. *)
Definition parse_case : M node :=
  ct <- cur ;;
  advance ;;;
  c <- cty ;;
  subject <-
    match c with
    | T_WhenKeyword => ret (N_Nil ct)
    | T_Newline | T_Semicolon => advance ;;; ret (N_Nil ct)
    | _ =>
        e <- pexpr CASE ;;
        next_expression ;;;
        ret e
    end ;;
  mloop fuel
    (fun (acc : list node * option (token * list node)) =>
       let '(nodes, els) := acc in
       t <- cur ;;
       if ttype_eqb (ty t) T_EndKeyword then
         expect T_EndKeyword "case end" ;;;
         advance ;;;
         ret (inr (N_Case ct subject nodes els))
       else
         match ty t with
         | T_WhenKeyword =>
             advance ;;;
             l <- parse_comma_separated_expressions [] ;;
             then_or_next ;;;
             body <- parse_case_body T_WhenKeyword ;;
             ret (inl (nodes ++ [N_CaseWhen t (N_Array t l) body], els))
         | T_InKeyword =>
             advance ;;;
             p <- parse_case_in_patterns ;;
             then_or_next ;;;
             body <- parse_case_body T_InKeyword ;;
             ret (inl (nodes ++ [N_CaseIn t p body], els))
         | T_ElseKeyword =>
             match nodes with
             | [] => unexpected "case 'when' or 'in'"
             | _ =>
                 advance ;;;
                 skip_newlines ;;;
                 body <- parse_body_to T_EndKeyword ;;
                 expect T_EndKeyword "case end" ;;;
                 ret (inl (nodes, Some body))
             end
         | _ => unexpected "case when keyword"
         end) ([], None).

(** parser.cpp 2857-2980. *)
Definition null_denotation (t : ttype) : option (M node) :=
  match t with
  | T_AliasKeyword => Some parse_alias
  | T_LBracket | T_LBracketRBracket => Some parse_array
  | T_BackRef => Some parse_back_ref
  | T_BeginKeyword => Some parse_begin
  | T_BEGINKeyword => Some parse_begin_block
  | T_Ampersand => Some parse_block_pass
  | T_TrueKeyword | T_FalseKeyword => Some parse_bool
  | T_BreakKeyword => Some parse_break
  | T_CaseKeyword => Some parse_case
  | T_ClassKeyword => Some parse_class
  | T_DefKeyword => Some parse_def
  | T_DefinedKeyword => Some parse_defined
  | T_DotDot | T_DotDotDot => Some parse_triple_dot
  | T_ENCODINGKeyword => Some parse_encoding
  | T_ENDKeyword => Some parse_end_block
  | T_FILEKeyword => Some parse_file_constant
  | T_ForKeyword => Some parse_for
  | T_LParen => Some parse_group
  | T_LCurlyBrace => Some parse_hash
  | T_LINEKeyword => Some parse_line_constant
  | T_BareName | T_ClassVariable | T_Constant | T_GlobalVariable | T_InstanceVariable =>
      Some parse_identifier
  | T_IfKeyword => Some parse_if
  | T_InterpolatedRegexpBegin => Some parse_interpolated_regexp
  | T_InterpolatedShellBegin => Some parse_interpolated_shell
  | T_InterpolatedStringBegin => Some parse_interpolated_string
  | T_InterpolatedSymbolBegin => Some parse_interpolated_symbol
  | T_StarStar => Some parse_keyword_splat
  | T_Bignum | T_Fixnum | T_Float => Some parse_lit
  | T_ModuleKeyword => Some parse_module
  | T_NextKeyword => Some parse_next
  | T_NilKeyword => Some parse_nil
  | T_Not | T_NotKeyword => Some parse_not
  | T_NthRef => Some parse_nth_ref
  | T_RedoKeyword => Some parse_redo
  | T_RetryKeyword => Some parse_retry
  | T_ReturnKeyword => Some parse_return
  | T_SelfKeyword => Some parse_self
  | T_Star => Some parse_splat
  | T_Arrow => Some parse_stabby_proc
  | T_String => Some parse_string
  | T_SuperKeyword => Some parse_super
  | T_Symbol => Some parse_symbol
  | T_SymbolKey => Some parse_symbol_key
  | T_ConstantResolution => Some parse_top_level_constant
  | T_Minus | T_Plus | T_Tilde => Some parse_unary_operator
  | T_UndefKeyword => Some parse_undef
  | T_UnlessKeyword => Some parse_unless
  | T_UntilKeyword | T_WhileKeyword => Some parse_while
  | T_PercentLowerI | T_PercentUpperI => Some parse_word_symbol_array
  | T_PercentLowerW | T_PercentUpperW => Some parse_word_array
  | T_YieldKeyword => Some parse_yield
  | _ => None
  end.

(** parser.cpp 2982-3081; [pk] is [peek_token()]. *)
Definition left_denotation (t pk : token) (lhs : node) (precedence : N) : option (node -> M node) :=
  let otherwise :=
    if is_first_arg_of_call_without_parens lhs t then Some parse_call_expression_without_parens
    else None in
  match ty t with
  | T_Equal =>
      if (precedence =? ARRAY) || (precedence =? HASH) || (precedence =? BARE_CALL_ARG)
         || (precedence =? CALL_ARG)
      then Some (parse_assignment_expression false)
      else Some (parse_assignment_expression true)
  | T_LParen => if negb (tk_ws t) then Some parse_call_expression_with_parens else otherwise
  | T_ConstantResolution =>
      if tk_ws t then Some parse_call_expression_without_parens
      else Some parse_constant_resolution_expression
  | T_Ampersand | T_Caret | T_Comparison | T_EqualEqual | T_EqualEqualEqual | T_GreaterThan
  | T_GreaterThanOrEqual | T_LeftShift | T_LessThan | T_LessThanOrEqual | T_NotEqual | T_Percent
  | T_Pipe | T_RightShift | T_Slash | T_Star | T_StarStar => Some parse_infix_expression
  | T_Minus | T_Plus =>
      if negb (tk_ws t) || tk_ws pk || negb (is_callable lhs) then Some parse_infix_expression
      else otherwise
  | T_DoKeyword | T_LCurlyBrace => Some parse_iter_expression
  | T_AmpersandAmpersand | T_AndKeyword | T_OrKeyword | T_PipePipe => Some parse_logical_expression
  | T_Match => Some parse_match_expression
  | T_IfKeyword | T_UnlessKeyword | T_WhileKeyword | T_UntilKeyword => Some parse_modifier_expression
  | T_Comma => Some parse_multiple_assignment_expression
  | T_NotMatch => Some parse_not_match_expression
  | T_AmpersandAmpersandEqual | T_AmpersandEqual | T_CaretEqual | T_LeftShiftEqual | T_MinusEqual
  | T_PipePipeEqual | T_PercentEqual | T_PipeEqual | T_PlusEqual | T_RightShiftEqual | T_SlashEqual
  | T_StarEqual | T_StarStarEqual => Some parse_op_assign_expression
  | T_DotDot | T_DotDotDot => Some parse_range_expression
  | T_LBracket | T_LBracketRBracket =>
      if treat_left_bracket_as_element_reference lhs t then Some parse_ref_expression else otherwise
  | T_RescueKeyword => Some parse_rescue_expression
  | T_SafeNavigation => Some parse_safe_send_expression
  | T_Dot =>
      if ttype_eqb (ty pk) T_LParen then Some parse_proc_call_expression
      else Some parse_send_expression
  | T_TernaryQuestion => Some parse_ternary_expression
  | _ => otherwise
  end.

(** parser.cpp 212-222: one round of the loop of [parse_expression]. *)
Definition expression_step (precedence : N) (ia : iter_allow) (lhs : node) : M (node + node) :=
  t <- cur ;;
  if negb (is_valid (ty t)) then ret (inr lhs)
  else
    b <- higher_precedence t lhs precedence ia ;;
    if negb b then ret (inr lhs)
    else
      pk <- peek ;;
      match left_denotation t pk lhs precedence with
      | None => throw_unexpected t "expression"
      | Some f =>
          n <- f lhs ;;
          pop_prec ;;;
          push_prec precedence ;;;
          ret (inl n)
      end.

(** parser.cpp 201-227. *)
Definition expression_body (precedence : N) (ia : iter_allow) : M node :=
  skip_newlines ;;;
  push_prec precedence ;;;
  c <- cty ;;
  match null_denotation c with
  | None => unexpected "expression"
  | Some f =>
      lhs <- f ;;
      n <- mloop fuel (expression_step precedence ia) lhs ;;
      pop_prec ;;;
      ret n
  end.

End Functions.

(** parser.cpp 201-227. *)
Fixpoint parse_expression (n : nat) (precedence : N) (ia : iter_allow) : M node :=
  match n with
  | O => nofuel
  | S m => expression_body (parse_expression m) (m + m + 2) precedence ia
  end.

(** parser.cpp 229-244. *)
Definition tree (n : nat) : M node :=
  skip_newlines ;;;
  t <- cur ;;
  validate_current_token ;;;
  skip_newlines ;;;
  nodes <-
    mloop (S n)
      (fun acc =>
         c <- cty ;;
         if is_eof c then ret (inr acc)
         else
           e <- parse_expression n LOWEST IA_CURLY_AND_BLOCK ;;
           validate_current_token ;;;
           next_expression ;;;
           ret (inl (acc ++ [e]))) [] ;;
  ret (block_or_only (t, nodes)).

(** parser.hpp 37-42: the state after construction. *)
Definition initial_state (file : str) (toks : list token) : pstate :=
  PState [] toks [] [0] [] file.

(** Enough fuel for [toks] (shown in the proofs). *)
Definition parse_fuel (toks : list token) : nat := 2 * length toks + 2.

(** [Parser { code, file }.tree()] on the tokens of the code. *)
Definition parse_tokens (file : str) (toks : list token) : pres pstate node :=
  tree (parse_fuel toks) (initial_state file toks).

(** * Node: abstract syntax tree nodes

    Modelled code: /repo/include/natalie_parser/node/*.hpp (one constructor per
    class, same field order as the constructor in C++).

    Simplifications: trees are immutable values, so a C++ setter becomes the
    construction of a new node; a [SharedPtr<BlockNode>] field is a pair of the
    token of the block and its children; the double of a [FloatNode] is a sign
    and the text handed to [atof]. *)
From Coq Require Import NArith ZArith List Bool Strings.String.
From Verif Require Import Base Token.
Import ListNotations.
Open Scope N_scope.

Inductive node :=
| N_Alias (t : token) (new_name existing_name : node)
    (** alias_node.hpp 14-34 *)
| N_Arg (t : token) (name : option str) (block_arg splat kwsplat : bool) (value : option node)
    (** arg_node.hpp 13-73 *)
| N_Array (t : token) (nodes : list node)
    (** array_node.hpp 12-33 *)
| N_ArrayPattern (t : token) (nodes : list node)
    (** array_pattern_node.hpp 15-45 *)
| N_Assignment (t : token) (identifier value : node)
    (** assignment_node.hpp 13-33 *)
| N_BackRef (t : token) (ref_type : N)
    (** back_ref_node.hpp 9-27 *)
| N_Begin (t : token) (body : token * list node) (rescue_nodes : list node)
    (else_body ensure_body : option (token * list node))
    (** begin_node.hpp 15-51 *)
| N_BeginBlock (t : token)
    (** begin_block_node.hpp 12-24 *)
| N_BeginRescue (t : token) (name : option node) (exceptions : list node) (body : token * list node)
    (** begin_rescue_node.hpp 14-45 *)
| N_Bignum (t : token) (number : str)
    (** bignum_node.hpp 12-40 *)
| N_Block (t : token) (nodes : list node)
    (** block_node.hpp 12-54 *)
| N_BlockPass (t : token) (n : node)
    (** block_pass_node.hpp 13-32 *)
| N_Break (t : token) (arg : option node)
    (** break_node.hpp 13-31 *)
| N_Call (t : token) (receiver : node) (message : str) (args : list node)
    (** call_node.hpp 13-84 *)
| N_Case (t : token) (subject : node) (nodes : list node) (else_node : option (token * list node))
    (** case_node.hpp 14-51 *)
| N_CaseIn (t : token) (pattern : node) (body : token * list node)
    (** case_in_node.hpp 14-42 *)
| N_CaseWhen (t : token) (condition : node) (body : token * list node)
    (** case_when_node.hpp 14-42 *)
| N_Class (t : token) (name superclass : node) (body : token * list node)
    (** class_node.hpp 14-38 *)
| N_Colon2 (t : token) (left : node) (name : str)
    (** colon2_node.hpp 13-44 *)
| N_Colon3 (t : token) (name : str)
    (** colon3_node.hpp 12-33 *)
| N_Complex (t : token) (value : node)
    (** complex_node.hpp 13-48 *)
| N_Constant (t : token)
    (** constant_node.hpp 12-25 *)
| N_Def (t : token) (self_node : option node) (name : str) (args : list node) (body : token * list node)
    (** def_node.hpp 14-54 *)
| N_Defined (t : token) (arg : node)
    (** defined_node.hpp 13-32 *)
| N_Encoding (t : token)
    (** encoding_node.hpp 9-25 *)
| N_EndBlock (t : token)
    (** end_block_node.hpp 12-24 *)
| N_EvaluateToString (t : token) (n : option node)
    (** evaluate_to_string_node.hpp 13-36 *)
| N_False (t : token)
    (** false_node.hpp 12-22 *)
| N_Fixnum (t : token) (number : Z)
    (** fixnum_node.hpp 12-39 *)
| N_Float (t : token) (negated : bool) (number : str)
    (** float_node.hpp 12-39 *)
| N_For (t : token) (expr vars : node) (body : token * list node)
    (** for_node.hpp 11-34 *)
| N_ForwardArgs (t : token)
    (** forward_args_node.hpp 10-24 *)
| N_Hash (t : token) (bare : bool) (nodes : list node)
    (** hash_node.hpp 12-38 *)
| N_HashPattern (t : token) (nodes : list node)
    (** hash_pattern_node.hpp 14-27 *)
| N_Identifier (t : token) (is_lvar : bool)
    (** identifier_node.hpp 12-122 *)
| N_If (t : token) (condition true_expr false_expr : node)
    (** if_node.hpp 13-42 *)
| N_InfixOp (t : token) (left : node) (op : str) (right : node)
    (** infix_op_node.hpp 11-45 *)
| N_InterpolatedRegexp (t : token) (nodes : list node) (options : N)
    (** interpolated_regexp_node.hpp 13-27 *)
| N_InterpolatedShell (t : token) (nodes : list node)
    (** interpolated_shell_node.hpp 13-21 *)
| N_InterpolatedString (t : token) (nodes : list node)
    (** interpolated_string_node.hpp 14-30 *)
| N_InterpolatedSymbol (t : token) (nodes : list node)
    (** interpolated_symbol_node.hpp 13-27 *)
| N_InterpolatedSymbolKey (t : token) (nodes : list node)
    (** interpolated_symbol_key_node.hpp 9-17 *)
| N_Iter (t : token) (call : node) (has_args : bool) (args : list node) (body : token * list node)
    (** iter_node.hpp 13-44 *)
| N_KeywordArg (t : token) (name : str) (value : option node)
    (** keyword_arg_node.hpp 13-24 *)
| N_KeywordRestPattern (t : token) (name : option str)
    (** keyword_rest_pattern_node.hpp 15-42 *)
| N_KeywordSplat (t : token) (n : option node)
    (** keyword_splat_node.hpp 13-36 *)
| N_LogicalAnd (t : token) (left right : node)
    (** logical_and_node.hpp 13-39 *)
| N_LogicalOr (t : token) (left right : node)
    (** logical_or_node.hpp 13-39 *)
| N_Match (t : token) (regexp : node) (arg : option node) (regexp_on_left : bool)
    (** match_node.hpp 14-43 *)
| N_Module (t : token) (name : node) (body : token * list node)
    (** module_node.hpp 14-31 *)
| N_MultipleAssignment (t : token) (nodes : list node) (depth : nat)
    (** multiple_assignment_node.hpp 13-36 *)
| N_MultipleAssignmentArg (t : token) (nodes : list node)
    (** multiple_assignment_arg_node.hpp 14-31 *)
| N_Next (t : token) (arg : option node)
    (** next_node.hpp 13-36 *)
| N_Nil (t : token)
    (** nil_node.hpp 12-22 *)
| N_NilSexp (t : token)
    (** nil_sexp_node.hpp 12-22 *)
| N_Not (t : token) (expression : node)
    (** not_node.hpp 13-36 *)
| N_NotMatch (t : token) (expression : node)
    (** not_match_node.hpp 13-34 *)
| N_NthRef (t : token) (num : Z)
    (** nth_ref_node.hpp 9-26 *)
| N_OpAssign (t : token) (op : str) (name value : node)
    (** op_assign_node.hpp 14-46 *)
| N_OpAssignAccessor (t : token) (op : str) (receiver : node) (message : str) (value : node)
    (args : list node) (safe : bool)
    (** op_assign_accessor_node.hpp 13-73 *)
| N_OpAssignAnd (t : token) (name value : node)
    (** op_assign_and_node.hpp 15-33 *)
| N_OpAssignOr (t : token) (name value : node)
    (** op_assign_or_node.hpp 15-33 *)
| N_Pin (t : token) (identifier : node)
    (** pin_node.hpp 13-32 *)
| N_Range (t : token) (first last : node) (exclude_end : bool)
    (** range_node.hpp 14-51 *)
| N_Rational (t : token) (value : node)
    (** rational_node.hpp 12-44 *)
| N_Redo (t : token)
    (** redo_node.hpp 9-19 *)
| N_Regexp (t : token) (pattern : str) (options : N)
    (** regexp_node.hpp 12-35 *)
| N_Retry (t : token)
    (** retry_node.hpp 9-19 *)
| N_Return (t : token) (value : node)
    (** return_node.hpp 13-33 *)
| N_SafeCall (t : token) (receiver : node) (message : str) (args : list node)
    (** safe_call_node.hpp 13-30 *)
| N_Sclass (t : token) (klass : node) (body : token * list node)
    (** sclass_node.hpp 14-36 *)
| N_Self (t : token)
    (** self_node.hpp 12-22 *)
| N_ShadowArg (t : token) (names : list str)
    (** shadow_arg_node.hpp 13-39 *)
| N_Shell (t : token) (string : str)
    (** shell_node.hpp 12-31 *)
| N_Splat (t : token) (n : option node)
    (** splat_node.hpp 13-38 *)
| N_SplatValue (t : token) (value : node)
    (** splat_value_node.hpp 13-30 *)
| N_StabbyProc (t : token) (has_args : bool) (args : list node)
    (** stabby_proc_node.hpp 12-28 *)
| N_String (t : token) (string : str)
    (** string_node.hpp 14-41 *)
| N_Super (t : token) (args : list node) (parens : bool)
    (** super_node.hpp 12-43 *)
| N_Symbol (t : token) (name : str)
    (** symbol_node.hpp 12-29 *)
| N_SymbolKey (t : token) (name : str)
    (** symbol_key_node.hpp 11-18 *)
| N_ToArray (t : token) (value : node)
    (** to_array_node.hpp 13-32 *)
| N_True (t : token)
    (** true_node.hpp 12-22 *)
| N_UnaryOp (t : token) (op : str) (right : node)
    (** unary_op_node.hpp 11-40 *)
| N_Undef (t : token) (args : list node)
    (** undef_node.hpp 12-30 *)
| N_Until (t : token) (condition : node) (body : token * list node) (pre : bool)
    (** until_node.hpp 14-20 *)
| N_Valias (t : token) (new_name existing_name : str)
    (** valias_node.hpp 12-36 *)
| N_While (t : token) (condition : node) (body : token * list node) (pre : bool)
    (** while_node.hpp 14-51 *)
| N_Yield (t : token) (args : list node)
    (** yield_node.hpp 12-28 *).

(** node.hpp 144: [token()]. *)
Definition ntoken (n : node) : token :=
  match n with
  | N_Alias t _ _ | N_Arg t _ _ _ _ _ | N_Array t _ | N_ArrayPattern t _
  | N_Assignment t _ _ | N_BackRef t _ | N_Begin t _ _ _ _ | N_BeginBlock t
  | N_BeginRescue t _ _ _ | N_Bignum t _ | N_Block t _ | N_BlockPass t _
  | N_Break t _ | N_Call t _ _ _ | N_Case t _ _ _ | N_CaseIn t _ _
  | N_CaseWhen t _ _ | N_Class t _ _ _ | N_Colon2 t _ _ | N_Colon3 t _
  | N_Complex t _ | N_Constant t | N_Def t _ _ _ _ | N_Defined t _
  | N_Encoding t | N_EndBlock t | N_EvaluateToString t _ | N_False t
  | N_Fixnum t _ | N_Float t _ _ | N_For t _ _ _ | N_ForwardArgs t
  | N_Hash t _ _ | N_HashPattern t _ | N_Identifier t _ | N_If t _ _ _
  | N_InfixOp t _ _ _ | N_InterpolatedRegexp t _ _ | N_InterpolatedShell t _
  | N_InterpolatedString t _ | N_InterpolatedSymbol t _ | N_InterpolatedSymbolKey t _
  | N_Iter t _ _ _ _ | N_KeywordArg t _ _ | N_KeywordRestPattern t _
  | N_KeywordSplat t _ | N_LogicalAnd t _ _ | N_LogicalOr t _ _
  | N_Match t _ _ _ | N_Module t _ _ | N_MultipleAssignment t _ _
  | N_MultipleAssignmentArg t _ | N_Next t _ | N_Nil t | N_NilSexp t
  | N_Not t _ | N_NotMatch t _ | N_NthRef t _ | N_OpAssign t _ _ _
  | N_OpAssignAccessor t _ _ _ _ _ _ | N_OpAssignAnd t _ _ | N_OpAssignOr t _ _
  | N_Pin t _ | N_Range t _ _ _ | N_Rational t _ | N_Redo t | N_Regexp t _ _
  | N_Retry t | N_Return t _ | N_SafeCall t _ _ _ | N_Sclass t _ _ | N_Self t
  | N_ShadowArg t _ | N_Shell t _ | N_Splat t _ | N_SplatValue t _
  | N_StabbyProc t _ _ | N_String t _ | N_Super t _ _ | N_Symbol t _
  | N_SymbolKey t _ | N_ToArray t _ | N_True t | N_UnaryOp t _ _ | N_Undef t _
  | N_Until t _ _ _ | N_Valias t _ _ | N_While t _ _ _ | N_Yield t _ => t
  end.

(** identifier_node.hpp 41-49, call_node.hpp 38, colon2_node.hpp 26,
    infix_op_node.hpp 25, super_node.hpp 19, unary_op_node.hpp 23,
    undef_node.hpp 21, yield_node.hpp 19; otherwise node.hpp 119. *)
Definition is_callable (n : node) : bool :=
  match n with
  | N_Identifier t lvar =>
      match ty t with T_BareName | T_Constant => negb lvar | _ => false end
  | N_Call _ _ _ _ | N_SafeCall _ _ _ _ | N_Colon2 _ _ _ | N_Super _ _ _ | N_Yield _ _ => true
  | _ => false
  end.

(** call_node.hpp 34-36, colon2_node.hpp 25, colon3_node.hpp 20,
    identifier_node.hpp 20, multiple_assignment_node.hpp 20, splat_node.hpp 26;
    otherwise node.hpp 120. *)
Definition node_is_assignable (n : node) : bool :=
  match n with
  | N_Call _ _ msg args | N_SafeCall _ _ msg args =>
      str_eqb msg (s2l "[]") || match args with [] => true | _ => false end
  | N_Colon2 _ _ _ | N_Colon3 _ _ | N_Identifier _ _
  | N_MultipleAssignment _ _ _ | N_Splat _ _ => true
  | _ => false
  end.

(** bignum_node.hpp 20, fixnum_node.hpp 20, float_node.hpp 20; otherwise node.hpp 121. *)
Definition is_numeric (n : node) : bool :=
  match n with N_Bignum _ _ | N_Fixnum _ _ | N_Float _ _ _ => true | _ => false end.

(** symbol_key_node.hpp 17, interpolated_symbol_key_node.hpp 16; otherwise node.hpp 122. *)
Definition node_is_symbol_key (n : node) : bool :=
  match n with N_SymbolKey _ _ | N_InterpolatedSymbolKey _ _ => true | _ => false end.

(** begin_block_node.hpp 19, call_node.hpp 40-44, end_block_node.hpp 19,
    identifier_node.hpp 21, super_node.hpp 20; otherwise node.hpp 123. *)
Definition can_accept_a_block (n : node) : bool :=
  match n with
  | N_Call _ _ msg _ | N_SafeCall _ _ msg _ =>
      negb (str_eqb msg (s2l "private") || str_eqb msg (s2l "protected") || str_eqb msg (s2l "public"))
  | N_BeginBlock _ | N_EndBlock _ | N_Identifier _ _ | N_Super _ _ _ => true
  | _ => false
  end.

(** string_node.hpp 24, interpolated_string_node.hpp 21; otherwise node.hpp 124. *)
Definition can_be_concatenated_to_a_string (n : node) : bool :=
  match n with N_String _ _ | N_InterpolatedString _ _ => true | _ => false end.

(** node_with_args.hpp 35-37: the last argument is a BlockPass. *)
Fixpoint last_is_block_pass (args : list node) : bool :=
  match args with
  | [] => false
  | [N_BlockPass _ _] => true
  | [_] => false
  | _ :: rest => last_is_block_pass rest
  end.

(** node_with_args.hpp 35-37 for the subclasses of NodeWithArgs; otherwise
    node.hpp 125.  A BreakNode never gets arguments in its [m_args]. *)
Definition has_block_pass (n : node) : bool :=
  match n with
  | N_Call _ _ _ args | N_SafeCall _ _ _ args | N_Super _ args _ | N_Yield _ args
  | N_Def _ _ _ args _ | N_Iter _ _ _ args _ | N_StabbyProc _ _ args
  | N_Undef _ args | N_OpAssignAccessor _ _ _ _ _ args _ => last_is_block_pass args
  | _ => false
  end.

(** node.hpp 137-140 ([set_line], [set_column] on the token of a node), as used
    on an InterpolatedStringNode by string_node.cpp 27-28. *)
Definition set_pos (t : token) (line col : nat) : token :=
  Tok (ty t) (lit t) (doc t) (fix_ t) (dbl t) line col (tk_ws t).

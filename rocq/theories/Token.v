(** * Token: token types, their predicates, and token values

    Modelled code: /repo/include/natalie_parser/token.hpp, /repo/src/token.cpp. *)
From Coq Require Import NArith ZArith List Bool Strings.String.
From Verif Require Import Base.
Import ListNotations.
Open Scope N_scope.

(** token.hpp 14-158: [enum class Type], same order. *)
Inductive ttype :=
| T_Invalid
| T_InvalidCharacterEscape
| T_InvalidUnicodeEscape
| T_AliasKeyword
| T_Ampersand
| T_AmpersandAmpersand
| T_AmpersandEqual
| T_AmpersandAmpersandEqual
| T_AndKeyword
| T_Arrow
| T_BackRef
| T_BareName
| T_BeginKeyword
| T_BEGINKeyword
| T_Bignum
| T_BreakKeyword
| T_Caret
| T_CaretEqual
| T_CaseKeyword
| T_ClassKeyword
| T_ClassVariable
| T_Comma
| T_Comment
| T_Comparison
| T_Complex
| T_Constant
| T_ConstantResolution
| T_DefinedKeyword
| T_DefKeyword
| T_Doc
| T_DoKeyword
| T_Dot
| T_DotDot
| T_DotDotDot
| T_ElseKeyword
| T_ElsifKeyword
| T_ENCODINGKeyword
| T_EndKeyword
| T_ENDKeyword
| T_EnsureKeyword
| T_Eof
| T_Equal
| T_EqualEqual
| T_EqualEqualEqual
| T_EvaluateToStringBegin
| T_EvaluateToStringEnd
| T_FalseKeyword
| T_FILEKeyword
| T_Fixnum
| T_Float
| T_ForKeyword
| T_GlobalVariable
| T_GreaterThan
| T_GreaterThanOrEqual
| T_HashRocket
| T_IfKeyword
| T_InKeyword
| T_InstanceVariable
| T_InterpolatedHeredocBegin
| T_InterpolatedHeredocEnd
| T_InterpolatedRegexpBegin
| T_InterpolatedRegexpEnd
| T_InterpolatedShellBegin
| T_InterpolatedShellEnd
| T_InterpolatedStringBegin
| T_InterpolatedStringEnd
| T_InterpolatedSymbolBegin
| T_InterpolatedSymbolEnd
| T_InterpolatedStringSymbolKey
| T_LCurlyBrace
| T_LBracket
| T_LBracketRBracket
| T_LBracketRBracketEqual
| T_LeftShift
| T_LeftShiftEqual
| T_LessThan
| T_LessThanOrEqual
| T_LINEKeyword
| T_LParen
| T_Match
| T_Minus
| T_MinusEqual
| T_ModuleKeyword
| T_Newline
| T_NextKeyword
| T_NilKeyword
| T_Not
| T_NotEqual
| T_NotKeyword
| T_NotMatch
| T_NthRef
| T_OperatorName
| T_OrKeyword
| T_Percent
| T_PercentEqual
| T_PercentLowerI
| T_PercentLowerW
| T_PercentUpperI
| T_PercentUpperW
| T_Pipe
| T_PipeEqual
| T_PipePipe
| T_PipePipeEqual
| T_Plus
| T_PlusEqual
| T_Rational
| T_RationalComplex
| T_RCurlyBrace
| T_RBracket
| T_RedoKeyword
| T_RescueKeyword
| T_RetryKeyword
| T_ReturnKeyword
| T_RightShift
| T_RightShiftEqual
| T_RParen
| T_SafeNavigation
| T_SelfKeyword
| T_Semicolon
| T_Slash
| T_SlashEqual
| T_Star
| T_StarEqual
| T_StarStar
| T_StarStarEqual
| T_String
| T_SuperKeyword
| T_Symbol
| T_SymbolKey
| T_TernaryColon
| T_TernaryQuestion
| T_ThenKeyword
| T_Tilde
| T_TrueKeyword
| T_UndefKeyword
| T_UnlessKeyword
| T_UnterminatedRegexp
| T_UnterminatedString
| T_UnterminatedWordArray
| T_UntilKeyword
| T_WhenKeyword
| T_WhileKeyword
| T_YieldKeyword.

(** Position in the enum (only used to decide equality). *)
Definition tcode (t : ttype) : N :=
  match t with
  | T_Invalid => 0
  | T_InvalidCharacterEscape => 1
  | T_InvalidUnicodeEscape => 2
  | T_AliasKeyword => 3
  | T_Ampersand => 4
  | T_AmpersandAmpersand => 5
  | T_AmpersandEqual => 6
  | T_AmpersandAmpersandEqual => 7
  | T_AndKeyword => 8
  | T_Arrow => 9
  | T_BackRef => 10
  | T_BareName => 11
  | T_BeginKeyword => 12
  | T_BEGINKeyword => 13
  | T_Bignum => 14
  | T_BreakKeyword => 15
  | T_Caret => 16
  | T_CaretEqual => 17
  | T_CaseKeyword => 18
  | T_ClassKeyword => 19
  | T_ClassVariable => 20
  | T_Comma => 21
  | T_Comment => 22
  | T_Comparison => 23
  | T_Complex => 24
  | T_Constant => 25
  | T_ConstantResolution => 26
  | T_DefinedKeyword => 27
  | T_DefKeyword => 28
  | T_Doc => 29
  | T_DoKeyword => 30
  | T_Dot => 31
  | T_DotDot => 32
  | T_DotDotDot => 33
  | T_ElseKeyword => 34
  | T_ElsifKeyword => 35
  | T_ENCODINGKeyword => 36
  | T_EndKeyword => 37
  | T_ENDKeyword => 38
  | T_EnsureKeyword => 39
  | T_Eof => 40
  | T_Equal => 41
  | T_EqualEqual => 42
  | T_EqualEqualEqual => 43
  | T_EvaluateToStringBegin => 44
  | T_EvaluateToStringEnd => 45
  | T_FalseKeyword => 46
  | T_FILEKeyword => 47
  | T_Fixnum => 48
  | T_Float => 49
  | T_ForKeyword => 50
  | T_GlobalVariable => 51
  | T_GreaterThan => 52
  | T_GreaterThanOrEqual => 53
  | T_HashRocket => 54
  | T_IfKeyword => 55
  | T_InKeyword => 56
  | T_InstanceVariable => 57
  | T_InterpolatedHeredocBegin => 58
  | T_InterpolatedHeredocEnd => 59
  | T_InterpolatedRegexpBegin => 60
  | T_InterpolatedRegexpEnd => 61
  | T_InterpolatedShellBegin => 62
  | T_InterpolatedShellEnd => 63
  | T_InterpolatedStringBegin => 64
  | T_InterpolatedStringEnd => 65
  | T_InterpolatedSymbolBegin => 66
  | T_InterpolatedSymbolEnd => 67
  | T_InterpolatedStringSymbolKey => 68
  | T_LCurlyBrace => 69
  | T_LBracket => 70
  | T_LBracketRBracket => 71
  | T_LBracketRBracketEqual => 72
  | T_LeftShift => 73
  | T_LeftShiftEqual => 74
  | T_LessThan => 75
  | T_LessThanOrEqual => 76
  | T_LINEKeyword => 77
  | T_LParen => 78
  | T_Match => 79
  | T_Minus => 80
  | T_MinusEqual => 81
  | T_ModuleKeyword => 82
  | T_Newline => 83
  | T_NextKeyword => 84
  | T_NilKeyword => 85
  | T_Not => 86
  | T_NotEqual => 87
  | T_NotKeyword => 88
  | T_NotMatch => 89
  | T_NthRef => 90
  | T_OperatorName => 91
  | T_OrKeyword => 92
  | T_Percent => 93
  | T_PercentEqual => 94
  | T_PercentLowerI => 95
  | T_PercentLowerW => 96
  | T_PercentUpperI => 97
  | T_PercentUpperW => 98
  | T_Pipe => 99
  | T_PipeEqual => 100
  | T_PipePipe => 101
  | T_PipePipeEqual => 102
  | T_Plus => 103
  | T_PlusEqual => 104
  | T_Rational => 105
  | T_RationalComplex => 106
  | T_RCurlyBrace => 107
  | T_RBracket => 108
  | T_RedoKeyword => 109
  | T_RescueKeyword => 110
  | T_RetryKeyword => 111
  | T_ReturnKeyword => 112
  | T_RightShift => 113
  | T_RightShiftEqual => 114
  | T_RParen => 115
  | T_SafeNavigation => 116
  | T_SelfKeyword => 117
  | T_Semicolon => 118
  | T_Slash => 119
  | T_SlashEqual => 120
  | T_Star => 121
  | T_StarEqual => 122
  | T_StarStar => 123
  | T_StarStarEqual => 124
  | T_String => 125
  | T_SuperKeyword => 126
  | T_Symbol => 127
  | T_SymbolKey => 128
  | T_TernaryColon => 129
  | T_TernaryQuestion => 130
  | T_ThenKeyword => 131
  | T_Tilde => 132
  | T_TrueKeyword => 133
  | T_UndefKeyword => 134
  | T_UnlessKeyword => 135
  | T_UnterminatedRegexp => 136
  | T_UnterminatedString => 137
  | T_UnterminatedWordArray => 138
  | T_UntilKeyword => 139
  | T_WhenKeyword => 140
  | T_WhileKeyword => 141
  | T_YieldKeyword => 142
  end.

Definition ttype_eqb (a b : ttype) : bool := tcode a =? tcode b.

Definition of_code (n : N) : option ttype :=
  match n with
  | 0 => Some T_Invalid
  | 1 => Some T_InvalidCharacterEscape
  | 2 => Some T_InvalidUnicodeEscape
  | 3 => Some T_AliasKeyword
  | 4 => Some T_Ampersand
  | 5 => Some T_AmpersandAmpersand
  | 6 => Some T_AmpersandEqual
  | 7 => Some T_AmpersandAmpersandEqual
  | 8 => Some T_AndKeyword
  | 9 => Some T_Arrow
  | 10 => Some T_BackRef
  | 11 => Some T_BareName
  | 12 => Some T_BeginKeyword
  | 13 => Some T_BEGINKeyword
  | 14 => Some T_Bignum
  | 15 => Some T_BreakKeyword
  | 16 => Some T_Caret
  | 17 => Some T_CaretEqual
  | 18 => Some T_CaseKeyword
  | 19 => Some T_ClassKeyword
  | 20 => Some T_ClassVariable
  | 21 => Some T_Comma
  | 22 => Some T_Comment
  | 23 => Some T_Comparison
  | 24 => Some T_Complex
  | 25 => Some T_Constant
  | 26 => Some T_ConstantResolution
  | 27 => Some T_DefinedKeyword
  | 28 => Some T_DefKeyword
  | 29 => Some T_Doc
  | 30 => Some T_DoKeyword
  | 31 => Some T_Dot
  | 32 => Some T_DotDot
  | 33 => Some T_DotDotDot
  | 34 => Some T_ElseKeyword
  | 35 => Some T_ElsifKeyword
  | 36 => Some T_ENCODINGKeyword
  | 37 => Some T_EndKeyword
  | 38 => Some T_ENDKeyword
  | 39 => Some T_EnsureKeyword
  | 40 => Some T_Eof
  | 41 => Some T_Equal
  | 42 => Some T_EqualEqual
  | 43 => Some T_EqualEqualEqual
  | 44 => Some T_EvaluateToStringBegin
  | 45 => Some T_EvaluateToStringEnd
  | 46 => Some T_FalseKeyword
  | 47 => Some T_FILEKeyword
  | 48 => Some T_Fixnum
  | 49 => Some T_Float
  | 50 => Some T_ForKeyword
  | 51 => Some T_GlobalVariable
  | 52 => Some T_GreaterThan
  | 53 => Some T_GreaterThanOrEqual
  | 54 => Some T_HashRocket
  | 55 => Some T_IfKeyword
  | 56 => Some T_InKeyword
  | 57 => Some T_InstanceVariable
  | 58 => Some T_InterpolatedHeredocBegin
  | 59 => Some T_InterpolatedHeredocEnd
  | 60 => Some T_InterpolatedRegexpBegin
  | 61 => Some T_InterpolatedRegexpEnd
  | 62 => Some T_InterpolatedShellBegin
  | 63 => Some T_InterpolatedShellEnd
  | 64 => Some T_InterpolatedStringBegin
  | 65 => Some T_InterpolatedStringEnd
  | 66 => Some T_InterpolatedSymbolBegin
  | 67 => Some T_InterpolatedSymbolEnd
  | 68 => Some T_InterpolatedStringSymbolKey
  | 69 => Some T_LCurlyBrace
  | 70 => Some T_LBracket
  | 71 => Some T_LBracketRBracket
  | 72 => Some T_LBracketRBracketEqual
  | 73 => Some T_LeftShift
  | 74 => Some T_LeftShiftEqual
  | 75 => Some T_LessThan
  | 76 => Some T_LessThanOrEqual
  | 77 => Some T_LINEKeyword
  | 78 => Some T_LParen
  | 79 => Some T_Match
  | 80 => Some T_Minus
  | 81 => Some T_MinusEqual
  | 82 => Some T_ModuleKeyword
  | 83 => Some T_Newline
  | 84 => Some T_NextKeyword
  | 85 => Some T_NilKeyword
  | 86 => Some T_Not
  | 87 => Some T_NotEqual
  | 88 => Some T_NotKeyword
  | 89 => Some T_NotMatch
  | 90 => Some T_NthRef
  | 91 => Some T_OperatorName
  | 92 => Some T_OrKeyword
  | 93 => Some T_Percent
  | 94 => Some T_PercentEqual
  | 95 => Some T_PercentLowerI
  | 96 => Some T_PercentLowerW
  | 97 => Some T_PercentUpperI
  | 98 => Some T_PercentUpperW
  | 99 => Some T_Pipe
  | 100 => Some T_PipeEqual
  | 101 => Some T_PipePipe
  | 102 => Some T_PipePipeEqual
  | 103 => Some T_Plus
  | 104 => Some T_PlusEqual
  | 105 => Some T_Rational
  | 106 => Some T_RationalComplex
  | 107 => Some T_RCurlyBrace
  | 108 => Some T_RBracket
  | 109 => Some T_RedoKeyword
  | 110 => Some T_RescueKeyword
  | 111 => Some T_RetryKeyword
  | 112 => Some T_ReturnKeyword
  | 113 => Some T_RightShift
  | 114 => Some T_RightShiftEqual
  | 115 => Some T_RParen
  | 116 => Some T_SafeNavigation
  | 117 => Some T_SelfKeyword
  | 118 => Some T_Semicolon
  | 119 => Some T_Slash
  | 120 => Some T_SlashEqual
  | 121 => Some T_Star
  | 122 => Some T_StarEqual
  | 123 => Some T_StarStar
  | 124 => Some T_StarStarEqual
  | 125 => Some T_String
  | 126 => Some T_SuperKeyword
  | 127 => Some T_Symbol
  | 128 => Some T_SymbolKey
  | 129 => Some T_TernaryColon
  | 130 => Some T_TernaryQuestion
  | 131 => Some T_ThenKeyword
  | 132 => Some T_Tilde
  | 133 => Some T_TrueKeyword
  | 134 => Some T_UndefKeyword
  | 135 => Some T_UnlessKeyword
  | 136 => Some T_UnterminatedRegexp
  | 137 => Some T_UnterminatedString
  | 138 => Some T_UnterminatedWordArray
  | 139 => Some T_UntilKeyword
  | 140 => Some T_WhenKeyword
  | 141 => Some T_WhileKeyword
  | 142 => Some T_YieldKeyword
  | _ => None
  end.

(** token.hpp 255-539: [type_value()]; [None] is [nullptr]. *)
Definition type_value (t : ttype) : option str :=
  match t with
  | T_Invalid => None
  | T_InvalidCharacterEscape => None
  | T_InvalidUnicodeEscape => None
  | T_AliasKeyword => Some (s2l "alias")
  | T_Ampersand => Some (s2l "&")
  | T_AmpersandAmpersand => Some (s2l "&&")
  | T_AmpersandEqual => Some (s2l "&=")
  | T_AmpersandAmpersandEqual => Some (s2l "&&=")
  | T_AndKeyword => Some (s2l "and")
  | T_Arrow => Some (s2l "->")
  | T_BackRef => Some (s2l "back_ref")
  | T_BareName => Some (s2l "name")
  | T_BeginKeyword => Some (s2l "begin")
  | T_BEGINKeyword => Some (s2l "BEGIN")
  | T_Bignum => Some (s2l "bignum")
  | T_BreakKeyword => Some (s2l "break")
  | T_Caret => Some (s2l "^")
  | T_CaretEqual => Some (s2l "^=")
  | T_CaseKeyword => Some (s2l "case")
  | T_ClassKeyword => Some (s2l "class")
  | T_ClassVariable => Some (s2l "cvar")
  | T_Comma => Some (s2l ",")
  | T_Comment => Some (s2l "comment")
  | T_Comparison => Some (s2l "<=>")
  | T_Complex => Some (s2l "complex")
  | T_Constant => Some (s2l "constant")
  | T_ConstantResolution => Some (s2l "::")
  | T_DefinedKeyword => Some (s2l "defined?")
  | T_DefKeyword => Some (s2l "def")
  | T_Doc => Some (s2l "doc")
  | T_DoKeyword => Some (s2l "do")
  | T_Dot => Some (s2l ".")
  | T_DotDot => Some (s2l "..")
  | T_DotDotDot => Some (s2l "...")
  | T_ElseKeyword => Some (s2l "else")
  | T_ElsifKeyword => Some (s2l "elsif")
  | T_ENCODINGKeyword => Some (s2l "__ENCODING__")
  | T_EndKeyword => Some (s2l "end")
  | T_ENDKeyword => Some (s2l "END")
  | T_EnsureKeyword => Some (s2l "ensure")
  | T_Eof => Some (s2l "EOF")
  | T_Equal => Some (s2l "=")
  | T_EqualEqual => Some (s2l "==")
  | T_EqualEqualEqual => Some (s2l "===")
  | T_EvaluateToStringBegin => Some (s2l "evstr")
  | T_EvaluateToStringEnd => Some (s2l "evstrend")
  | T_FalseKeyword => Some (s2l "false")
  | T_FILEKeyword => Some (s2l "__FILE__")
  | T_Fixnum => Some (s2l "fixnum")
  | T_Float => Some (s2l "float")
  | T_ForKeyword => Some (s2l "for")
  | T_GlobalVariable => Some (s2l "gvar")
  | T_GreaterThan => Some (s2l ">")
  | T_GreaterThanOrEqual => Some (s2l ">=")
  | T_HashRocket => Some (s2l "=>")
  | T_IfKeyword => Some (s2l "if")
  | T_InKeyword => Some (s2l "in")
  | T_InstanceVariable => Some (s2l "ivar")
  | T_InterpolatedHeredocBegin => Some (s2l "dstr")
  | T_InterpolatedHeredocEnd => Some (s2l "dstrend")
  | T_InterpolatedRegexpBegin => Some (s2l "dregx")
  | T_InterpolatedRegexpEnd => Some (s2l "dregxend")
  | T_InterpolatedShellBegin => Some (s2l "dxstr")
  | T_InterpolatedShellEnd => Some (s2l "dxstrend")
  | T_InterpolatedStringBegin => Some (s2l "dstr")
  | T_InterpolatedStringEnd => Some (s2l "dstrend")
  | T_InterpolatedSymbolBegin => Some (s2l "dsym")
  | T_InterpolatedSymbolEnd => Some (s2l "dsymend")
  | T_InterpolatedStringSymbolKey => Some (s2l "dstr_symbol_key")
  | T_LCurlyBrace => Some (s2l "{")
  | T_LBracket => Some (s2l "[")
  | T_LBracketRBracket => Some (s2l "[]")
  | T_LBracketRBracketEqual => Some (s2l "[]=")
  | T_LeftShift => Some (s2l "<<")
  | T_LeftShiftEqual => Some (s2l "<<=")
  | T_LessThan => Some (s2l "<")
  | T_LessThanOrEqual => Some (s2l "<=")
  | T_LINEKeyword => Some (s2l "__LINE__")
  | T_LParen => Some (s2l "(")
  | T_Match => Some (s2l "=~")
  | T_Minus => Some (s2l "-")
  | T_MinusEqual => Some (s2l "-=")
  | T_ModuleKeyword => Some (s2l "module")
  | T_Newline => Some [10]
  | T_NextKeyword => Some (s2l "next")
  | T_NilKeyword => Some (s2l "nil")
  | T_Not => Some (s2l "!")
  | T_NotEqual => Some (s2l "!=")
  | T_NotKeyword => Some (s2l "not")
  | T_NotMatch => Some (s2l "!~")
  | T_NthRef => Some (s2l "nth_ref")
  | T_OperatorName => Some (s2l "operator")
  | T_OrKeyword => Some (s2l "or")
  | T_Percent => Some (s2l "%")
  | T_PercentEqual => Some (s2l "%=")
  | T_PercentLowerI => Some (s2l "%i[")
  | T_PercentLowerW => Some (s2l "%w[")
  | T_PercentUpperI => Some (s2l "%I[")
  | T_PercentUpperW => Some (s2l "%W[")
  | T_Pipe => Some (s2l "|")
  | T_PipeEqual => Some (s2l "|=")
  | T_PipePipe => Some (s2l "||")
  | T_PipePipeEqual => Some (s2l "||=")
  | T_Plus => Some (s2l "+")
  | T_PlusEqual => Some (s2l "+=")
  | T_Rational => Some (s2l "rational")
  | T_RationalComplex => Some (s2l "rational_complex")
  | T_RCurlyBrace => Some (s2l "}")
  | T_RBracket => Some (s2l "]")
  | T_RedoKeyword => Some (s2l "redo")
  | T_RescueKeyword => Some (s2l "rescue")
  | T_RetryKeyword => Some (s2l "retry")
  | T_ReturnKeyword => Some (s2l "return")
  | T_RightShift => Some (s2l ">>")
  | T_RightShiftEqual => Some (s2l ">>=")
  | T_RParen => Some (s2l ")")
  | T_SafeNavigation => Some (s2l "&.")
  | T_SelfKeyword => Some (s2l "self")
  | T_Semicolon => Some (s2l ";")
  | T_Slash => Some (s2l "/")
  | T_SlashEqual => Some (s2l "/=")
  | T_Star => Some (s2l "*")
  | T_StarEqual => Some (s2l "*=")
  | T_StarStar => Some (s2l "**")
  | T_StarStarEqual => Some (s2l "**=")
  | T_String => Some (s2l "string")
  | T_SuperKeyword => Some (s2l "super")
  | T_Symbol => Some (s2l "symbol")
  | T_SymbolKey => Some (s2l "symbol_key")
  | T_TernaryColon => Some (s2l ":")
  | T_TernaryQuestion => Some (s2l "?")
  | T_ThenKeyword => Some (s2l "then")
  | T_Tilde => Some (s2l "~")
  | T_TrueKeyword => Some (s2l "true")
  | T_UndefKeyword => Some (s2l "undef")
  | T_UnlessKeyword => Some (s2l "unless")
  | T_UnterminatedRegexp => None
  | T_UnterminatedString => None
  | T_UnterminatedWordArray => None
  | T_UntilKeyword => Some (s2l "until")
  | T_WhenKeyword => Some (s2l "when")
  | T_WhileKeyword => Some (s2l "while")
  | T_YieldKeyword => Some (s2l "yield")
  end.

(** token.hpp 541-553. *)
Definition is_assignable (t : ttype) : bool :=
  match t with
  | T_BareName
  | T_ClassVariable
  | T_Constant
  | T_ConstantResolution
  | T_GlobalVariable
  | T_InstanceVariable => true
  | _ => false
  end.

(** token.hpp 555-602. *)
Definition is_keyword (t : ttype) : bool :=
  match t with
  | T_AliasKeyword
  | T_AndKeyword
  | T_BeginKeyword
  | T_BEGINKeyword
  | T_BreakKeyword
  | T_CaseKeyword
  | T_ClassKeyword
  | T_DefinedKeyword
  | T_DefKeyword
  | T_DoKeyword
  | T_ElseKeyword
  | T_ElsifKeyword
  | T_ENCODINGKeyword
  | T_EndKeyword
  | T_ENDKeyword
  | T_EnsureKeyword
  | T_FalseKeyword
  | T_FILEKeyword
  | T_ForKeyword
  | T_IfKeyword
  | T_InKeyword
  | T_LINEKeyword
  | T_ModuleKeyword
  | T_NextKeyword
  | T_NilKeyword
  | T_NotKeyword
  | T_OrKeyword
  | T_RedoKeyword
  | T_RescueKeyword
  | T_RetryKeyword
  | T_ReturnKeyword
  | T_SelfKeyword
  | T_SuperKeyword
  | T_ThenKeyword
  | T_TrueKeyword
  | T_UndefKeyword
  | T_UnlessKeyword
  | T_UntilKeyword
  | T_WhenKeyword
  | T_WhileKeyword
  | T_YieldKeyword => true
  | _ => false
  end.

(** token.hpp 604-635. *)
Definition is_operator (t : ttype) : bool :=
  match t with
  | T_Ampersand
  | T_Caret
  | T_Comparison
  | T_EqualEqual
  | T_EqualEqualEqual
  | T_GreaterThan
  | T_GreaterThanOrEqual
  | T_LBracketRBracket
  | T_LBracketRBracketEqual
  | T_LeftShift
  | T_LessThan
  | T_LessThanOrEqual
  | T_Match
  | T_Minus
  | T_Not
  | T_NotEqual
  | T_NotMatch
  | T_Percent
  | T_Pipe
  | T_Plus
  | T_RightShift
  | T_Slash
  | T_Star
  | T_StarStar
  | T_Tilde => true
  | _ => false
  end.

(** token.hpp 669-682. *)
Definition can_follow_collapsible_newline (t : ttype) : bool :=
  match t with
  | T_Dot
  | T_RCurlyBrace
  | T_RBracket
  | T_RParen
  | T_SafeNavigation
  | T_TernaryColon
  | T_ThenKeyword => true
  | _ => false
  end.

(** token.hpp 684-737. *)
Definition can_precede_collapsible_newline (t : ttype) : bool :=
  match t with
  | T_AmpersandAmpersand
  | T_AndKeyword
  | T_Arrow
  | T_Ampersand
  | T_Caret
  | T_CaseKeyword
  | T_Comma
  | T_Comparison
  | T_ConstantResolution
  | T_Dot
  | T_Equal
  | T_EqualEqual
  | T_EqualEqualEqual
  | T_GreaterThan
  | T_GreaterThanOrEqual
  | T_HashRocket
  | T_InKeyword
  | T_LCurlyBrace
  | T_LBracket
  | T_LeftShift
  | T_LessThan
  | T_LessThanOrEqual
  | T_LParen
  | T_Match
  | T_Minus
  | T_MinusEqual
  | T_Not
  | T_NotEqual
  | T_NotMatch
  | T_OrKeyword
  | T_Percent
  | T_PercentEqual
  | T_Pipe
  | T_PipePipe
  | T_Plus
  | T_PlusEqual
  | T_RightShift
  | T_SafeNavigation
  | T_Slash
  | T_SlashEqual
  | T_Star
  | T_StarEqual
  | T_StarStar
  | T_StarStarEqual
  | T_TernaryColon
  | T_TernaryQuestion
  | T_Tilde => true
  | _ => false
  end.

(** token.hpp 739-748. *)
Definition can_have_doc (t : ttype) : bool :=
  match t with
  | T_ClassKeyword
  | T_DefKeyword
  | T_ModuleKeyword => true
  | _ => false
  end.

(** token.hpp 750-761. *)
Definition can_be_first_arg_of_def (t : ttype) : bool :=
  match t with
  | T_Ampersand
  | T_BareName
  | T_Star
  | T_StarStar
  | T_SymbolKey => true
  | _ => false
  end.

(** token.hpp 763-815. *)
Definition can_be_first_arg_of_implicit_call (t : ttype) : bool :=
  match t with
  | T_Arrow
  | T_BackRef
  | T_BareName
  | T_BeginKeyword
  | T_Bignum
  | T_ClassVariable
  | T_Constant
  | T_ConstantResolution
  | T_DefKeyword
  | T_DefinedKeyword
  | T_DoKeyword
  | T_ENCODINGKeyword
  | T_FalseKeyword
  | T_FILEKeyword
  | T_Fixnum
  | T_Float
  | T_GlobalVariable
  | T_InstanceVariable
  | T_InterpolatedRegexpBegin
  | T_InterpolatedShellBegin
  | T_InterpolatedStringBegin
  | T_InterpolatedSymbolBegin
  | T_LCurlyBrace
  | T_LBracket
  | T_LBracketRBracket
  | T_LINEKeyword
  | T_LParen
  | T_Minus
  | T_NilKeyword
  | T_Not
  | T_NotKeyword
  | T_NthRef
  | T_PercentLowerI
  | T_PercentLowerW
  | T_PercentUpperI
  | T_PercentUpperW
  | T_Plus
  | T_SelfKeyword
  | T_Star
  | T_String
  | T_SuperKeyword
  | T_Symbol
  | T_SymbolKey
  | T_Tilde
  | T_TrueKeyword
  | T_YieldKeyword => true
  | _ => false
  end.

(** token.hpp 830-844. *)
Definition can_precede_regexp_literal (t : ttype) : bool :=
  match t with
  | T_ElsifKeyword
  | T_IfKeyword
  | T_RescueKeyword
  | T_ReturnKeyword
  | T_UnlessKeyword
  | T_UntilKeyword
  | T_WhenKeyword
  | T_WhileKeyword => true
  | _ => false
  end.

(** token.hpp 846-862. *)
Definition can_precede_symbol_key (t : ttype) : bool :=
  match t with
  | T_Arrow
  | T_BareName
  | T_Comma
  | T_Constant
  | T_LBracket
  | T_LCurlyBrace
  | T_LParen
  | T_Pipe
  | T_PipePipe
  | T_SuperKeyword => true
  | _ => false
  end.

(** token.hpp 864-873. *)
Definition can_be_complex_or_rational (t : ttype) : bool :=
  match t with
  | T_Bignum
  | T_Fixnum
  | T_Float => true
  | _ => false
  end.
(** token.hpp 665-667: [is_valid()] is [!!type_value()]; also [operator bool], 229. *)
Definition is_valid (t : ttype) : bool :=
  match type_value t with Some _ => true | None => false end.

(** token.hpp 817-828. *)
Definition can_precede_heredoc_that_looks_like_left_shift_operator (t : ttype) : bool :=
  match t with
  | T_Equal | T_LBracket | T_LParen => true
  | _ => is_operator t
  end.

(** token.hpp 654. *)
Definition is_expression_modifier (t : ttype) : bool :=
  match t with
  | T_IfKeyword | T_UnlessKeyword | T_WhileKeyword | T_UntilKeyword => true
  | _ => false
  end.

(** token.hpp 649. *)
Definition is_end_of_expression (t : ttype) : bool :=
  match t with
  | T_EndKeyword | T_RCurlyBrace | T_Newline | T_Semicolon | T_Eof => true
  | _ => is_expression_modifier t
  end.

(** token.hpp 639. *)
Definition is_closing_token (t : ttype) : bool :=
  match t with T_RBracket | T_RCurlyBrace | T_RParen => true | _ => false end.

(** token.hpp 652. *)
Definition is_end_of_line (t : ttype) : bool :=
  match t with T_Newline | T_Semicolon => true | _ => false end.

(** token.hpp 662. *)
Definition is_splat (t : ttype) : bool :=
  match t with T_Star | T_StarStar => true | _ => false end.

(** token.hpp 875-892. *)
Definition can_be_range_arg_token (t : ttype) : bool :=
  if is_closing_token t then false
  else match t with
       | T_Semicolon | T_Eof => false
       | T_ElseKeyword | T_ElsifKeyword | T_EndKeyword | T_InKeyword
       | T_ThenKeyword | T_WhenKeyword => false
       | _ => true
       end.

(** token.hpp 637-663: one-type predicates. *)
Definition is_comment (t : ttype) := ttype_eqb t T_Comment.
Definition is_doc (t : ttype) := ttype_eqb t T_Doc.
Definition is_newline (t : ttype) := ttype_eqb t T_Newline.
Definition is_eof (t : ttype) := ttype_eqb t T_Eof.
Definition is_dot (t : ttype) := ttype_eqb t T_Dot.
Definition is_constant_resolution (t : ttype) := ttype_eqb t T_ConstantResolution.

(** token.hpp 917-927: a token value.  Simplifications: the file name (the same
    shared pointer in every token of a run) is omitted; the double of a Float
    token is represented by the text handed to [atof] (lexer.cpp 1358); shared
    strings are values. *)
Record token := Tok {
  ty : ttype;
  lit : option str;
  doc : option str;
  fix_ : Z;
  dbl : str;
  tk_line : nat;
  tk_col : nat;
  tk_ws : bool;
}.

(** token.hpp 160: [Token()] -- the invalid token. *)
Definition no_token : token := Tok T_Invalid None None 0 [] 0 0 false.

(** token.hpp 231-232, 894-899, 906-913. *)
Definition set_ty (t : token) (x : ttype) : token :=
  Tok x (lit t) (doc t) (fix_ t) (dbl t) (tk_line t) (tk_col t) (tk_ws t).
Definition set_lit (t : token) (x : str) : token :=
  Tok (ty t) (Some x) (doc t) (fix_ t) (dbl t) (tk_line t) (tk_col t) (tk_ws t).
Definition set_doc (t : token) (x : str) : token :=
  Tok (ty t) (lit t) (Some x) (fix_ t) (dbl t) (tk_line t) (tk_col t) (tk_ws t).

(** token.hpp 240-244: [literal_or_blank()] before truncation at NUL. *)
Definition literal_or_blank (t : token) : str :=
  match lit t with Some s => s | None => [] end.

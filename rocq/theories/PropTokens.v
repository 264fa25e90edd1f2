(** * PropTokens: the vector returned by Lexer::tokens() (C02, C03, C04) *)
From Coq Require Import Strings.String NArith ZArith Bool List.
From Verif Require Import Base Token Spec LexModel TokensProofs.
Import ListNotations.
Open Scope N_scope.
Open Scope list_scope.

(** Source used by the examples: a comment and newlines inside an argument list,
    a doc comment, a nested interpolation, and an error at the end. *)
Definition ex_src : str := s2l "foo(a,
 # hi
 ""#{ 1 # x
 }"",
)
# doc
class X; end
x + '"%string.
Definition types (r : res (list token)) : list ttype :=
  match r with Ok ts => map ty ts | _ => [] end.

(** C02: the vector ends in Eof or an error token and nothing before it is one. *)
Theorem C02_vector_shape : forall fuel s ts,
  tokens fuel s = Ok ts ->
  exists init t, ts = init ++ [t] /\ final_token t /\ Forall (fun u => ~ final_token u) init.
Proof. exact tokens_shape. Qed.

Example C02_example :
  types (tokens 100 ex_src) =
  [T_BareName; T_LParen; T_BareName; T_Comma; T_InterpolatedStringBegin; T_EvaluateToStringBegin; T_Fixnum;
   T_EvaluateToStringEnd; T_InterpolatedStringEnd; T_Comma; T_RParen; T_Newline;
   T_ClassKeyword; T_Constant; T_Semicolon; T_EndKeyword; T_Newline; T_BareName; T_Plus; T_UnterminatedString].
Proof. vm_compute. reflexivity. Qed.

(** C03: no comment token is returned. *)
Theorem C03_no_comment_token : forall fuel s ts,
  tokens fuel s = Ok ts -> forall t, In t ts -> ty t <> T_Comment /\ ty t <> T_Doc.
Proof. exact tokens_no_comment. Qed.

(** Tokens after which a line may continue, and tokens that continue the line
    before: written out here, independently of the model's predicates. *)
Definition line_continues_after : list ttype :=
  [T_AmpersandAmpersand; T_AndKeyword; T_Arrow; T_Ampersand; T_Caret; T_CaseKeyword; T_Comma; T_Comparison;
   T_ConstantResolution; T_Dot; T_Equal; T_EqualEqual; T_EqualEqualEqual; T_GreaterThan; T_GreaterThanOrEqual;
   T_HashRocket; T_InKeyword; T_LCurlyBrace; T_LBracket; T_LeftShift; T_LessThan; T_LessThanOrEqual; T_LParen;
   T_Match; T_Minus; T_MinusEqual; T_Not; T_NotEqual; T_NotMatch; T_OrKeyword; T_Percent; T_PercentEqual; T_Pipe;
   T_PipePipe; T_Plus; T_PlusEqual; T_RightShift; T_SafeNavigation; T_Slash; T_SlashEqual; T_Star; T_StarEqual;
   T_StarStar; T_StarStarEqual; T_TernaryColon; T_TernaryQuestion; T_Tilde].
Definition continues_line_before : list ttype :=
  [T_Dot; T_RCurlyBrace; T_RBracket; T_RParen; T_SafeNavigation; T_TernaryColon; T_ThenKeyword].

(** C04: newlines next to these tokens are gone. *)
Theorem C04_newlines_collapsed : forall fuel s ts,
  tokens fuel s = Ok ts ->
  forall a b, adjacent a b ts ->
    (In (ty a) line_continues_after -> ty b <> T_Newline) /\
    (In (ty b) continues_line_before -> ty a <> T_Newline).
Proof.
  intros fuel s ts H a b Hab. destruct (tokens_collapse fuel s ts H a b Hab) as [H1 H2].
  split; intros Hin E; [specialize (H1 E); clear H2|specialize (H2 E); clear H1]; unfold In, line_continues_after, continues_line_before in Hin;
    decompose [or] Hin; try contradiction;
    match goal with He : _ = ty _ |- _ => rewrite <- He in *; discriminate end.
Qed.

Print Assumptions C02_vector_shape.
Print Assumptions C03_no_comment_token.
Print Assumptions C04_newlines_collapsed.

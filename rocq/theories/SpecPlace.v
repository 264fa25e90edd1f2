(** * SpecPlace: the same tokens at another place (specification) *)
From Coq Require Import Strings.String NArith Bool Arith List.
From Verif Require Import Base Token.
Import ListNotations.

(** The token [l] lines further down; on the first line, [c] columns further right. *)
Definition moved (l c : nat) (t : token) : token :=
  Tok (ty t) (lit t) (doc t) (fix_ t) (dbl t) (l + tk_line t)
      (match tk_line t with O => c + tk_col t | S _ => tk_col t end) (tk_ws t).
(** The token with the flag that whitespace stands in front of it. *)
Definition spaced (t : token) : token :=
  Tok (ty t) (lit t) (doc t) (fix_ t) (dbl t) (tk_line t) (tk_col t) true.

(** [us] are the tokens [ts] moved [c] columns to the right; the first one may be [spaced]. *)
Definition indented_by (c : nat) (ts us : list token) : Prop :=
  match ts, us with
  | t :: ts', u :: us' => (u = moved 0 c t \/ u = spaced (moved 0 c t)) /\ us' = map (moved 0 c) ts'
  | _, _ => False
  end.

(** Tokens that continue the line before: a newline in front of them does not count. *)
Definition continues_line (t : ttype) : Prop :=
  In t [T_Dot; T_SafeNavigation; T_RCurlyBrace; T_RBracket; T_RParen; T_TernaryColon; T_ThenKeyword].

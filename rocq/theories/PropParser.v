(** * PropParser: the parser on whole sources *)
From Coq Require Import Strings.String NArith ZArith Bool List.
From Verif Require Import Node ParserBase ParserModel ParseHoare ParseTransform ParseTokens ParseWhole Sexp
  Base Token Spec LexModel.
Import ListNotations.
Open Scope list_scope.
Open Scope N_scope.

(** ** C25: every parse ends in a tree or a SyntaxError *)

(** Every parse ends, and its outcome does not depend on the fuel once there is enough. *)
Theorem C25_terminates : forall file s, bytes s -> small s ->
  exists fuel r, r <> OutOfFuel /\ forall fuel', (fuel <= fuel')%nat -> parse fuel' file s = r.
Proof. exact parse_terminates. Qed.

(** The parser aborts at four places only; three of them need a token that begins an
    interpolated literal or a symbol array. *)
Theorem C25_parser_abort : forall fuel file s c, parse fuel file s = ParserCrash c ->
  exists ts, tokens fuel s = Ok ts /\
   (c = PUnreachable "parser.cpp:1543" /\ has starts_interpolation ts \/
    c = PUnreachable "parser.cpp:1555" /\ has starts_interpolation ts \/
    c = PUnreachable "parser.cpp:2186" /\ has starts_symbol_array ts \/
    c = PUnreachable "multiple_assignment_node.cpp:32").
Proof. exact parse_abort. Qed.

(** The conversion to a tree of arrays aborts only below an operator assignment to a
    call with arguments that is no index. *)
Theorem C25_transform_abort : forall fuel file s r, parse fuel file s = TransformCrash r ->
  exists ts n s', tokens fuel s = Ok ts /\ parse_tokens file ts = POk n s' /\
    exists d, below d n /\
      exists t op recv message value args safe, d = N_OpAssignAccessor t op recv message value args safe /\
        message <> s2l "[]=" /\ args <> [].
Proof. exact parse_transform_accessor. Qed.

(** The claim as it stands is false: each of these sources aborts the program. *)
Theorem C25_total_refuted :
  ~ (forall fuel file s, bytes s -> small s ->
       match parse fuel file s with ParserCrash _ | TransformCrash _ => False | _ => True end).
Proof.
  intros H. specialize (H 100%nat [] (s2l "a&.b, c = 1"%string)).
  assert (E : parse 100 [] (s2l "a&.b, c = 1"%string) = ParserCrash (PUnreachable "multiple_assignment_node.cpp:32"))
    by (vm_compute; reflexivity).
  rewrite E in H. apply H; [repeat constructor|vm_compute; reflexivity].
Qed.

Example C25_abort_1543_ex :
  parse 100 [] (s2l "%W[a#{1}b#{2}]"%string) = ParserCrash (PUnreachable "parser.cpp:1543") /\
  parse 100 [] (s2l "%I[a#{1}b#{2}]"%string) = ParserCrash (PUnreachable "parser.cpp:1543").
Proof. split; vm_compute; reflexivity. Qed.
Example C25_abort_1555_ex :
  parse 100 [] [34; 92; 117; 123; 122; 122; 125; 34] = ParserCrash (PUnreachable "parser.cpp:1555").
Proof. vm_compute; reflexivity. Qed.
Example C25_transform_abort_ex :
  parse 100 [] (s2l "foo(1) += 2"%string) = TransformCrash PAssert /\
  parse 100 [] (s2l "a.b(1) += 2"%string) = TransformCrash PAssert.
Proof. split; vm_compute; reflexivity. Qed.
Example C25_terminates_ex :
  (match parse 100 [] (s2l "def x(a) a + 1 end"%string) with Parsed _ => True | _ => False end) /\
  (match parse 100 [] (s2l "def x(a) a + 1 en"%string) with SyntaxError _ => True | _ => False end).
Proof. split; vm_compute; exact I. Qed.

(** ** C26: the parser never reads outside the token vector *)

(** On the tokens of any source the parser never moves beyond the vector's ends, pops
    an empty stack, reads a missing literal or fails an assertion. *)
Theorem C26_in_range : forall fuel file s ts, tokens fuel s = Ok ts ->
  parse_tokens file ts <> PCrash PRange /\ parse_tokens file ts <> PCrash PNull /\
  parse_tokens file ts <> PCrash PAssert /\ parse_tokens file ts <> PCrash PNotImplemented.
Proof. exact parse_in_range. Qed.

(** A successful parse has gone over the whole vector: it stops at the Eof token, and
    the tokens it has passed are those of the source in their order, but for
    newlines. *)
Theorem C26_all_tokens : forall fuel file s ts n s', tokens fuel s = Ok ts -> parse_tokens file ts = POk n s' ->
  exists e, p_rest s' = [e] /\ ty e = T_Eof /\
    filter (fun t => negb (is_newline (ty t))) (rev (p_prev s') ++ [e]) =
    filter (fun t => negb (is_newline (ty t))) ts.
Proof. exact parse_all_tokens. Qed.

Example C26_all_tokens_ex :
  exists ts n s', tokens 100 (s2l "x = foo(1, [2, 3]) { |a, *b| 'c' }; y if z"%string) = Ok ts /\
    length ts = 26%nat /\ parse_tokens [] ts = POk n s' /\ length (p_prev s') = 25%nat.
Proof.
  do 3 eexists. split; [vm_compute; reflexivity|]. split; [vm_compute; reflexivity|].
  split; [vm_compute; reflexivity|vm_compute; reflexivity].
Qed.

(** ** C29: parser bookkeeping is balanced *)

(** Parsing an expression leaves the precedence stack as it was and never loses a
    call-depth entry. *)
Theorem C29_precedences : forall n p ia s r s', inv s -> (weight (p_rest s) < n)%nat ->
  parse_expression n p ia s = POk r s' ->
  p_precs s' = p_precs s /\ (length (p_depth s) <= length (p_depth s'))%nat.
Proof. exact parse_expression_precs. Qed.

Theorem C29_whole : forall file fuel s ts n s', tokens fuel s = Ok ts -> parse_tokens file ts = POk n s' ->
  p_precs s' = [] /\ p_depth s' <> [].
Proof. exact parse_final_state. Qed.

(** The call-depth stack is not balanced: the early return for a [rescue] leaves an entry. *)
Theorem C29_depth_refuted :
  ~ (forall file fuel s ts n s', tokens fuel s = Ok ts -> parse_tokens file ts = POk n s' -> p_depth s' = [0]).
Proof.
  intros H.
  assert (E : exists ts n s', tokens 100 (s2l "def x; 1; rescue; 2; end"%string) = Ok ts /\
     parse_tokens [] ts = POk n s' /\ p_depth s' = [0; 0]).
  { do 3 eexists. split; [vm_compute; reflexivity|]. split; vm_compute; reflexivity. }
  destruct E as (ts & n & s' & E1 & E2 & E3). rewrite (H _ _ _ _ _ _ E1 E2) in E3. discriminate.
Qed.

(** The leaked entry makes a valid program a syntax error: without the [rescue] the
    same program parses. *)
Example C29_depth_effect :
  (match parse 200 [] (s2l "foo def x; 1; rescue; 2; end
bar do 1 end"%string) with SyntaxError _ => True | _ => False end) /\
  (match parse 200 [] (s2l "foo def x; 1; end
bar do 1 end"%string) with Parsed _ => True | _ => False end).
Proof. split; vm_compute; exact I. Qed.

Example C29_ex : exists ts n s', tokens 100 (s2l "x = foo(1, [2, 3]) { |a, *b| 'c' }; y if z"%string) = Ok ts /\
  parse_tokens [] ts = POk n s' /\ p_precs s' = [] /\ p_depth s' = [0].
Proof.
  do 3 eexists. split; [vm_compute; reflexivity|]. split; [vm_compute; reflexivity|].
  split; [vm_compute; reflexivity|vm_compute; reflexivity].
Qed.

Print Assumptions C25_terminates.
Print Assumptions C25_parser_abort.
Print Assumptions C25_transform_abort.
Print Assumptions C25_total_refuted.
Print Assumptions C26_in_range.
Print Assumptions C26_all_tokens.
Print Assumptions C29_precedences.
Print Assumptions C29_whole.
Print Assumptions C29_depth_refuted.

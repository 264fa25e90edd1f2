# natalie_parser: machine-checked model

Tool: Rocq/Coq 8.16.1, standard library only.
Build: `cd rocq && coq_makefile -f _CoqProject -o Makefile && make -j4` (about 10 minutes on 4 cores).

## What is modelled

| Code in /repo | Model |
|---|---|
| `include/natalie_parser/token.hpp` (types, `type_value`, all predicates) | `Token.v` |
| `src/lexer.cpp`, `include/natalie_parser/lexer.hpp` (all of it) | `LexModel.v` |
| `src/lexer/interpolated_string_lexer.cpp`, `regexp_lexer.cpp`, `word_array_lexer.cpp` and headers | `LexModel.v` |
| `include/natalie_parser/node/*.hpp` (classes and constructors) | `Node.v` |
| `src/parser.cpp` 6-199, 3083-3269, `parser.hpp` 190-245 (state, token access, errors, precedences) | `ParserBase.v` |
| `src/parser.cpp` 201-3081 (every parsing function) | `ParserModel.v` |
| `transform` of every node (`node/*.hpp`, `src/node/*.cpp`), `creator.hpp`, `ext/natalie_parser/mri_creator.hpp`, `parse_on_instance` | `Sexp.v` |

Not modelled: `DebugCreator`; the Ruby glue in `ext/natalie_parser/*.cpp` except
`parse_on_instance` and `token_to_ruby`; the C++ test runner; text of the syntax error
messages (a syntax error is a value with the throwing function and its arguments).

`TestsLexer.v` replays the expectations of `test/lexer_test.rb` (888 inputs) and
`TestsParser.v` those of `test/parser_test.rb` and the tests of
`test/test_ruby_parser.rb` that are not skipped.  They are tests of fidelity, not proofs.
`tools/` holds the scripts that translated them.

## Files

* `Base.v`: bytes, character classes, outcomes.
* Specifications (no model definitions other than tokens and nodes): `Spec.v` (sources,
  positions, brackets), `SpecLit.v` (literals and words), `SpecExpr.v` (operator
  expressions, Ruby's table), `SpecProg.v` (statements and scopes), `SpecHeredoc.v`
  (heredocs), `SpecBrackets.v` (balanced brackets in literals), `SpecPlace.v` (tokens at another place), `SpecLexeme.v` (texts as
  sequences of words, numbers and punctuation), `SpecText.v` (trees of those and of
  interpolated strings).
* Lexer proofs: `LexBasics`, `LexRest`, `LexLoops`, `LexSpec`, `LexEsc`, `LexHeredoc`,
  `LexSwitch`, `LexNested`, `LexInv`, `LexTree` (per function guarantees, invariant of the
  lexer tree, termination), `LexFacts`, `TokensProofs` (the loop in `tokens()`),
  `LexNesting`, `LexFwd`, `LexNumbers`, `LexIdent`, `LexString`, `LexQuoted`, `LexWords`,
  `LexArray`, `LexUnterminated`, `LexBrackets`, `LexInterp`, `LexLits`, `LexHereFwd`, `LexHereSrc`,
  `LexShift` (every function commutes with moving the text), `LexPaste` (two runs on a
  common suffix), `LexIndent`, `LexAfter`, `LexPunct`, `LexLexeme` (one element at an
  arbitrary state), `LexText` (whole texts), `LexDeep` (texts with interpolated strings), `LexFine`
  (decides `fine` and `items_fine`, for examples).
* Parser proofs: `ParseHoare` (program logic), `ParseNodes` (well-formed trees),
  `ParseTac`, `ParseSafeA` to `ParseSafeH` (every function: termination, abort sites,
  stacks), `ParseTransform` (the conversion), `ParseTokens` (no token lost or invented),
  `ParseWhole`, `ParsePratt` (operators), `ParseProg` (statements and scopes),
  `ParseChain`.
* Whole programs: `SpecRuby.v` (specification: a grammar with text, scopes, meaning and
  conditions), `RubyTransform`, `RubyNodes` (which node stands for which meaning),
  `RubyBase`, `RubyRun` (running the parser forward), `RubyBody`, `RubyExpr`,
  `RubyQuoted` (literals with interpolated code), `RubyOps`, `RubyForms`,
  `RubyArgs`, `RubyCalls`, `RubyBlock`, `RubyCompound`,
  `RubySet` (attributes, elements, lambdas), `RubyDef`, `RubyRescue` (`begin`, `for`), `RubyClass` (one lemma per construct, and the induction).
* Statements: `PropTokens`, `PropLexer`, `PropLiterals`, `PropWords`, `PropNesting`,
  `PropNumbers`, `PropArrays`, `PropParser`, `PropExpr`, `PropHeredoc`, `PropPlace`,
  `PropLexeme`, `PropBrackets`, `PropText`, `PropRuby`.

## Modelling decisions

* A byte is an `N` below 256; 256 is a poison value standing for a read outside
  a string (never produced: C06).
* A function that can abort or have undefined behaviour returns `Ok`, `Crash reason`,
  or `NoFuel` (fuel of the model exhausted; excluded by C01 and C25).  The parser has
  a fourth outcome, a syntax error.
* `size_t` values are unbounded naturals (inputs below 2^31 bytes assumed: `small`),
  except where the code relies on wrap-around: heredoc indentation and
  `m_remaining_method_names`.
* `SharedPtr<String>` values are immutable lists.  Aliasing that matters is
  listed under findings.
* Doubles are represented by a sign and the text given to `atof`; the test for a zero
  float ignores underflow.
* Virtual dispatch is a `kind` tag; the chain of nested lexers is an inductive type.
* The token vector and `m_index` of the parser are a zipper.  `advance` past the end is
  a distinct outcome (shown not to happen: C26).
* Nodes are immutable; a C++ setter is the construction of a new node.
* File names in tokens, string encodings, and exceptions raised by Ruby while a regexp
  or an Integer is built are left out.

## Trusted base

* Coq's kernel (and `vm_compute` for examples, tests and refutations).
* `Print Assumptions` of every theorem named in MANIFEST.json: "Closed under the
  global context" (no axiom).
* The reading of the C++ text: nothing was compiled or run.
* `external/tm` is an empty submodule in the checkout.  Assumed: `String::at`,
  `operator[]` read inside the string; `append_char`, `append`, `length`,
  `is_empty`, `substring(start, length)`, `truncate`, `ends_with`,
  `strip_trailing_spaces` (removes ' ' only) as their names say; `String(char)`
  has length 1; `String(const char *)` stops at NUL; `TM_UNREACHABLE` aborts;
  `Vector::pop/last/at` assert; `Hashmap` is a set of names compared bytewise.
* C locale for `isalpha` & co., `char` signed and 8 bits, `long long` 64 bits,
  `strtoll`/`atof` per the C standard.
* The Ruby API reads its argument with `StringValueCStr`, so sources with NUL bytes only
  arise through the C++ API; the lexer theorems cover them.

## Properties: model and method

* C01 termination: potential function on the lexer tree.
* C02–C05 shape, comments, newlines, docs: invariants of the `tokens()` loop over
  an arbitrary `next_token`.
* C06, C07: invariant on every reachable lexer state.
* C08: crash analysis of every function; unconditional claim refuted by witness.
* C09–C16, C18–C23, C36: local lemmas at an arbitrary lexer state whose remaining
  text starts with the literal, then whole-source corollaries.
* C17: stack discipline of the lexer tree against an independent bracket checker.
* C24, C31: simulation between two runs on inputs sharing a suffix.
* C32, C33: forward run of the lexer over a list of elements, with the state of the
  method-name and previous-token fields as a function of the elements read.
* C37: the same for trees of elements (`SpecText.v`), by mutual induction over elements,
  literals and interpolated code; one lemma for the string lexer, one for the lexer of
  the code, one for the outermost loop.
* C25, C26, C29: a program logic with a decreasing weight of the remaining tokens, one
  lemma per parsing function.
* C27, C28, C30: induction on the syntax of the specification, running the parser
  forward.

* C34, C35: for every construct of the grammar, the run of the parser from its first
  token to the token behind it, by induction on the fuel and on the length of the text.
  What follows an expression, the current precedence and the call depth are parameters
  of the induction (`fit` in `RubyBase.v`).

## Findings

Each was found while modelling or proving.  The theorem or example in brackets shows it
on the model; the others are visible in the code cited.

Lexer:

1. Unterminated `:'foo` and `%s(foo` are accepted as symbols (`C18_symbol_refuted`).
2. The brace depth of a nested lexer starts as a copy: `"#{ {a: "x"} }"` does not lex as
   Ruby does (`C19_braces_refuted`).
3. Nested lexers never update `m_last_token`, so the same code lexes differently inside
   and outside of `#{}` (`C19_same_code_refuted`).
4. The lexer started for `#{}` in a regexp lacks the start character `{`: `/#{ {} }/`.
5. A bare octal bignum keeps its octal digits (`C10_bare_octal_bignum_refuted`), and
   `0d0...` bignums keep leading text (`C10_decimal_prefix_bignum_refuted`).
6. `"\u{ffffff}"` aborts the process, and `$99999999999999999999` overflows a signed
   integer (`C08_never_aborts_refuted`, `C08_no_overflow_refuted`).
7. `"\u{zz}"` ends in TM_UNREACHABLE in the parser (`C25_abort_1555_ex`).
8. `"\u{ 41}"`, with a blank, is not read as U+0041 (`C14_leading_blank_refuted`).
9. `%q(\()`: an escaped opening delimiter still counts (`C11_escaped_opener_refuted`).
10. `%W[a#{1}b#{2}]` gives an unbalanced token sequence (`C17_nesting_refuted`) and
    ends in TM_UNREACHABLE (`C25_abort_1543_ex`).
11. A source beginning with the byte 0xEF loses bytes (`C15_first_byte_refuted`).
12. `1_` is accepted, and `0_8` is a decimal number.
13. `<<~` with blank lines only: `size_t` wraps around and newlines are duplicated
    (`C21_blank_lines_refuted`).
14. `<<-`/`<<~`: a line that merely ends in a blank and the identifier ends the heredoc
    (`C20_closing_line_refuted`); a tab before the identifier stays in the text
    (`C20_tab_refuted`).
15. A heredoc inside `#{}` is lexed twice; an unterminated `#{` in a heredoc is accepted.
16. `can_precede_collapsible_newline` omits several operators.
17. Columns of tokens in `<<~` bodies refer to the dedented text.
17a. `/#{def / }/` lexes differently alone and behind another line (`C31_regexp_refuted`).
17b. `x!=1` is read as `x!` `=` `1`, an assignment (`C32_not_equal_refuted`); `:a==b` as
    `:a=` `=` `b` (`C32_equal_behind_symbol_refuted`).
17c. The switch that lets a name take a `=` stays on behind `::`: `A::B==1` is a constant
    declaration, `A::B.c==1` an attribute assignment (`C32_equal_behind_constant_refuted`,
    `C32_equal_behind_scope_refuted`), and `A::B=1` a call.
17d. `def foo a=1; end` has a parameter `a=` and the body 1
    (`C32_optional_parameter_refuted`).
17e. `x ?1:2` is the call `x('1', :2)`.

Parser and conversion:

18. `a&.b, c = 1` ends in TM_UNREACHABLE (`C25_total_refuted`).
19. `foo(1) += 2` and `a.b(1) += 2` fail an assertion (`C25_transform_abort_ex`).
20. `parse_body` leaves an entry on `m_call_depth` when a rescue ends it
    (`C29_depth_refuted`).
21. `**` groups to the left (`C27_power_refuted`).
22. `<=>` binds like `<` instead of `==` (`C27_spaceship_refuted`).
23. `not` binds tighter than `&&` and `||` (`C27_not_refuted`).
24. `..` binds tighter than `&&` and `||`: `1 || 2..3` is `1 || (2..3)`.
25. `==` and its like chain instead of being rejected.
26. `a && b && c && d` is nested as `a && ((b && c) && d)` (`C28_nesting_refuted`).
27. The parameters of `->(x) {}` stay local variables behind it (`C30_lambda_refuted`).
28. `in pattern => name` does not declare the name (parser.cpp 795).
29. An `IfNode` with `elsif` gets the token behind the inner `end` (parser.cpp 1472).
30. `"#{1 2}"`: a missing separator is accepted inside `#{}`.
31. `f 1 { }` is only rejected for calls with arguments; `{ }` blocks accept `rescue`.
32. `is_numeric` is false for complex and rational literals; `3ri` drops the rational;
    `-(5)` becomes the literal -5.
33. `parse_regexp_options` ignores `o`.
34. `a, b` alone, and `*"x", y = 1`, are accepted.
35. `MRICreator::append_*` dereference a null `SharedPtr`; `DebugCreator` does not escape;
    `append_to_name` changes a literal shared with the token.
36. `throw_unexpected` on the invalid token would read a null literal (shown unreachable:
    the parser stays inside the vector, C26).
37. `while a == 1 do x end`, `until !a do ... end` and the like are syntax errors: the `do`
    is taken for a block of the operand (`C34_while_do_refuted`).
38. `a and b if c` is `a and (b if c)`; `a if b if c` is `a if (b if c)`
    (`C34_modifier_of_and_refuted`, `C34_two_modifiers_refuted`).
39. `f(a = b = 1, 2)` is `f(a = b = [1, 2])`, likewise `[a = b = 1, 2]` and
    `f(x ? 1 : a = 2, 3)` (`C34_assignment_argument_refuted`).
40. `(a; b) while c` runs its body first, like `begin ... end while`
    (`C34_group_loop_refuted`).
41. `if a then return else b end` and `(return)` are syntax errors
    (`C34_bare_return_refuted`).
42. A superclass is parsed without the local variables around it
    (`C34_superclass_refuted`).
43. An empty `else` of a `case` becomes `s(:block)` (`C34_empty_else_refuted`).
44. `1 + x = 5` is a syntax error (`C34_assignment_operand_refuted`).
45. `foo *b` is always a product (`C34_splat_argument_refuted`).
46. `"#{"#{"#{x}"}"}"` becomes a `dstr` within an `evstr`, which the comment in
    `interpolated_string_node.cpp` calls bad: only one level is taken out
    (`C34_nested_code_refuted`).
47. The parameters of `->(x) { }` are local variables behind it too
    (`C34_lambda_scope_refuted`).
48. `class << x` does not start a new scope (`C34_sclass_scope_refuted`).
49. `begin x end` and `rescue E then b` are rejected on one line, although `when E then b`
    is not (`C34_begin_line_refuted`).
50. `(begin; a; rescue; b; end) while c` and `(a rescue b) while c` run their body before the
    condition (`C34_rescue_loop_refuted`); in Ruby only `begin … end while c` itself does.
51. `a rescue b if c` is read as `a rescue (b if c)`, and `a rescue b and c` as
    `a rescue (b and c)` (`C34_rescue_modifier_refuted`).
52. `f(*a || b)` is read as `f((*a) || b)`, and `[*a ? b : c]` as `[(*a) ? b : c]`; the same
    for `**` (`C34_splat_operator_refuted`).
53. A method with `rescue` as the argument of a command without parentheses, as in
    `memo def x; 1; rescue; 2; end`, leaves the call depth wrong for the rest of the file: 0 was
    left by finding 20 and is then decremented below zero, so that every later
    `foo do end` of the same body is a syntax error (`C34_rescue_in_method_refuted`).
